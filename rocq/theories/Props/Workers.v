(** C26: reading in several processes. *)
From Coq Require Import Permutation.
From Verif.Base Require Import Py Value.
From Verif.Model Require Import Workers Json.
From Verif.Spec Require Import Json Reader Workers.
From Verif.Proofs Require Workers RoundTrip.

(** C26, safety: whatever the schedule, the give-ups and the crashes so far, a blob was taken by at most one worker,
    at most once, and its records were delivered at most once, only after it was taken. *)
Theorem blobs_at_most_once :
  forall (B : Type) (items : list B) (slots : nat) (es : list event) (p : pool B),
    (slots <= length items)%nat -> steps slots es (start_pool items slots) p ->
    part_of (delivered p) (map snd (taken p)) /\ part_of (map snd (taken p)) items.
Proof. exact @Workers.at_most_once. Qed.
Print Assumptions blobs_at_most_once.

(** C26: when the parent ends, and no worker died while it had a blob, every blob was taken exactly once and delivered
    exactly once; if workers died, what is missing are their blobs and those not sent any more. *)
Theorem ended_means_all_delivered :
  forall (B : Type) (items : list B) (slots : nat) (es : list event) (p : pool B),
    (0 < slots <= length items)%nat -> steps slots es (start_pool items slots) p -> parent p = Ended ->
    Permutation (delivered p ++ lost p ++ unsent p) items /\
    (deaths es = 0%nat -> Permutation (delivered p) items /\ Permutation (map snd (taken p)) items).
Proof. exact @Workers.all_delivered. Qed.
Print Assumptions ended_means_all_delivered.

(** C26: there is a number of steps which no schedule exceeds, ... *)
Theorem every_schedule_ends :
  forall (B : Type) (items : list B) (slots : nat),
    exists bound, forall (es : list event) (p : pool B),
      steps slots es (start_pool items slots) p -> (length es <= bound)%nat.
Proof.
  intros B items slots. exists (Workers.weight (start_pool items slots)). intros es p H.
  apply Workers.steps_bounded in H. exact (Nat.le_trans _ _ _ (Nat.le_add_r _ _) H).
Qed.
Print Assumptions every_schedule_ends.

(** ... and until the parent ends some process can make an ordinary step, if no worker gave up waiting for its first
    blob.  So every schedule without give-ups leads to the end of the read. *)
Theorem read_goes_on_until_ended :
  forall (B : Type) (items : list B) (slots : nat) (es : list event) (p : pool B),
    (0 < slots <= length items)%nat -> steps slots es (start_pool items slots) p ->
    give_ups es = 0%nat -> parent p = Running ->
    exists (e : event) (p' : pool B), ordinary e = true /\ step slots e p p'.
Proof. exact @Workers.progress. Qed.
Print Assumptions read_goes_on_until_ended.

(** With a give-up the parent never ends by itself: only the limit of 600 seconds ends the read. *)
Theorem give_up_blocks_the_end :
  forall (B : Type) (items : list B) (slots : nat) (es : list event) (p : pool B),
    (0 < slots <= length items)%nat -> steps slots es (start_pool items slots) p ->
    (0 < give_ups es)%nat -> parent p <> Ended.
Proof. exact @Workers.give_up_stuck. Qed.
Print Assumptions give_up_blocks_the_end.

(** C26, the end of the read: a read whose parent ended returns to the client, all its processes have ended; ... *)
Theorem ended_read_returns :
  forall (B : Type) (items : list B) (slots : nat) (es : list event) (p : pool B),
    steps slots es (start_pool items slots) p -> parent p = Ended -> joined p.
Proof. exact @Workers.ended_joined. Qed.
Print Assumptions ended_read_returns.

(** ... but a read the client stops before its last record never returns, unless a worker died or gave up: whatever the
    processes do, some process has not ended, and the client gets no more records. *)
Theorem abandoned_read_never_returns :
  forall (B : Type) (items : list B) (slots : nat) (es es' : list event) (p p0 p' : pool B),
    (0 < slots <= length items)%nat -> steps slots es (start_pool items slots) p ->
    abandons p p0 -> closing slots es' p0 p' ->
    deaths (es ++ es') = 0%nat -> give_ups (es ++ es') = 0%nat ->
    ~ joined p' /\ delivered p' = delivered p.
Proof. exact @Workers.abandoned_hangs. Qed.
Print Assumptions abandoned_read_never_returns.

(** The same for a read not complete after the limit of 600 seconds. *)
Theorem expired_read_never_returns :
  forall (B : Type) (items : list B) (slots : nat) (es es' : list event) (p p' : pool B),
    (0 < slots <= length items)%nat -> steps slots es (start_pool items slots) p ->
    parent p = Expired -> ~ Permutation (delivered p) items -> closing slots es' p p' ->
    deaths (es ++ es') = 0%nat -> give_ups (es ++ es') = 0%nat ->
    ~ joined p' /\ delivered p' = delivered p.
Proof. exact @Workers.expired_hangs. Qed.
Print Assumptions expired_read_never_returns.

(** C26, the records of a blob: records of numbers, booleans and texts pass unchanged from the worker to the client.
    Partial: other fields are changed, see below. *)
Theorem records_pass_unchanged_partial :
  forall (py_str : value -> str) (dump : value -> str) (parse : str -> result value),
    one_line_json dump parse ->
    forall records, (forall r, In r records -> flat_record r /\ distinct_keys r /\ dump r <> []) ->
      unpack parse (pack py_str dump records) = Ok records.
Proof. exact Workers.flat_records_pass. Qed.
Print Assumptions records_pass_unchanged_partial.

(** null becomes the text "None", whatever Python's str() *)
Theorem null_becomes_text_refuted :
  forall py_str : value -> str, exists r,
    distinct_keys r /\ unpack loads (pack py_str dumps [r]) = Ok [VDict [($"a", VStr $"None")]] /\
    r = VDict [($"a", VNull)].
Proof.
  intros py_str. eexists. split; [|split; [|reflexivity]].
  - split; [repeat constructor; intros []|repeat split].
  - vm_compute. reflexivity.
Qed.
Print Assumptions null_becomes_text_refuted.

(** *** Examples *)
(** the number of workers is as the theorems ask, for any number of processors *)
Example ex_slots : forall (items : list nat) cpus, (4 < length items)%nat -> (0 < slots_for items cpus <= length items)%nat.
Proof. intros items cpus H. unfold slots_for. lia. Qed.
Ltac go i := match goal with
  | |- steps _ (Take :: _) _ _ => eapply steps_cons; [eapply (step_take _ i); [reflexivity|reflexivity|first [left; reflexivity|right; reflexivity]|reflexivity]|cbn]
  | |- steps _ (Stop :: _) _ _ => eapply steps_cons; [eapply (step_stop _ i); [reflexivity|reflexivity|first [left; reflexivity|right; reflexivity]|reflexivity]|cbn]
  | |- steps _ (Reply :: _) _ _ => eapply steps_cons; [eapply (step_reply _ i); [reflexivity|reflexivity|cbn; lia]|cbn]
  | |- steps _ (GiveUp :: _) _ _ => eapply steps_cons; [eapply (step_give_up _ i); reflexivity|cbn]
  | |- steps _ (Deliver :: _) _ _ => eapply steps_cons; [eapply step_deliver; reflexivity|cbn]
  | |- steps _ (End :: _) _ _ => eapply steps_cons; [eapply step_end; [reflexivity|cbn; intuition congruence|reflexivity|reflexivity]|cbn]
  end.
(** three blobs, two workers, the second blob delivered first *)
Example ex_schedule : exists p,
  steps 2 [Take; Take; Reply; Deliver; Take; Reply; Reply; Deliver; Deliver; Stop; Stop; End]
    (start_pool [$"a"; $"b"; $"c"] 2) p /\
  parent p = Ended /\ delivered p = [$"b"; $"a"; $"c"] /\ taken p = [(0, $"a"); (1, $"b"); (1, $"c")]%nat.
Proof.
  eexists. split.
  - unfold start_pool. cbn [firstn map skipn repeat]. go 0%nat. go 1%nat. go 1%nat. go 0%nat. go 1%nat. go 0%nat. go 1%nat.
    go 0%nat. go 0%nat. go 0%nat. go 1%nat. go 0%nat. apply steps_nil.
  - repeat split.
Qed.
(** the second worker gives up: everything is delivered, but a signal to end is left *)
Example ex_give_up : exists p,
  steps 2 [Take; Reply; Take; GiveUp; Deliver; Reply; Deliver; Take; Reply; Deliver; Stop]
    (start_pool [$"a"; $"b"; $"c"] 2) p /\
  parent p = Running /\ delivered p = [$"a"; $"b"; $"c"] /\ send p = [Terminate] /\ workers p = [Stopped; Stopped].
Proof.
  eexists. split.
  - unfold start_pool. cbn [firstn map skipn repeat]. go 0%nat. go 0%nat. go 0%nat. go 1%nat. go 0%nat. go 0%nat. go 0%nat.
    go 0%nat. go 0%nat. go 0%nat. go 0%nat. apply steps_nil.
  - repeat split.
Qed.
(** the client stops in the first blob; the workers read two further blobs and then wait for ever *)
Example ex_abandoned : exists p p0 p',
  steps 2 [Take; Take; Reply] (start_pool [$"a"; $"b"; $"c"] 2) p /\ abandons p p0 /\
  closing 2 [Reply] p0 p' /\ workers p' = [Waiting; Waiting] /\ send p' = [] /\ delivered p' = [].
Proof.
  exists (mkPool [] [$"b"] [Working $"a"; Waiting] [$"c"] [] [(0%nat, $"a"); (1%nat, $"b")] [] Running).
  exists (mkPool [] [] [Working $"a"; Waiting] [$"c"] [] [(0%nat, $"a"); (1%nat, $"b")] [] Abandoned).
  exists (mkPool [] [$"a"] [Waiting; Waiting] [$"c"] [] [(0%nat, $"a"); (1%nat, $"b")] [] Abandoned).
  split; [|split; [|split]].
  - unfold start_pool. cbn [firstn map skipn repeat]. go 0%nat. go 1%nat. go 1%nat. apply steps_nil.
  - exists $"b", []. repeat split.
  - eapply closing_cons; [reflexivity|discriminate| | |apply closing_nil]; [reflexivity|].
    apply (step_reply 2 0%nat $"a" (mkPool [] [] [Working $"a"; Waiting] [$"c"] [] [(0%nat, $"a"); (1%nat, $"b")] [] Running));
      [reflexivity|reflexivity|cbn; lia].
  - repeat split.
Qed.
(** the time ends while a worker reads a blob *)
Example ex_expired : exists p p',
  steps 2 [Take; Take; Reply; Deliver; Expire] (start_pool [$"a"; $"b"] 2) p /\ parent p = Expired /\
  ~ Permutation (delivered p) [$"a"; $"b"] /\ closing 2 [Stop; Reply] p p' /\ workers p' = [Waiting; Stopped].
Proof.
  exists (mkPool [Terminate] [] [Working $"a"; Waiting] [] [$"b"] [(0%nat, $"a"); (1%nat, $"b")] [] Expired).
  exists (mkPool [] [$"a"] [Waiting; Stopped] [] [$"b"] [(0%nat, $"a"); (1%nat, $"b")] [] Expired).
  split; [|split; [|split; [|split]]]; try reflexivity.
  - unfold start_pool. cbn [firstn map skipn repeat]. go 0%nat. go 1%nat. go 1%nat. go 0%nat.
    eapply steps_cons; [apply (step_expire 2 (mkPool [Terminate] [] [Working $"a"; Waiting] [] [$"b"] [(0%nat, $"a"); (1%nat, $"b")] [] Running)); reflexivity|apply steps_nil].
  - intros H. apply Permutation_length in H. discriminate H.
  - eapply (closing_cons 2 Stop _ _ (mkPool [] [] [Working $"a"; Stopped] [] [$"b"] [(0%nat, $"a"); (1%nat, $"b")] [] Expired)); [reflexivity|discriminate|reflexivity| |].
    + apply (step_stop 2 1%nat Waiting [] (mkPool [Terminate] [] [Working $"a"; Waiting] [] [$"b"] [(0%nat, $"a"); (1%nat, $"b")] [] Running));
        [reflexivity|reflexivity|right; reflexivity|reflexivity].
    + eapply closing_cons; [reflexivity|discriminate| | |apply closing_nil]; [reflexivity|].
      apply (step_reply 2 0%nat $"a" (mkPool [] [] [Working $"a"; Stopped] [] [$"b"] [(0%nat, $"a"); (1%nat, $"b")] [] Running));
        [reflexivity|reflexivity|cbn; lia].
Qed.
Example ex_codec : one_line_json dumps loads.
Proof. exact RoundTrip.json_one_line. Qed.
Example ex_pass : unpack loads (pack (fun _ => $"?") dumps [VDict [($"a", VInt 1); ($"b", VStr ["010"%char])]; VDict []])
  = Ok [VDict [($"a", VInt 1); ($"b", VStr ["010"%char])]; VDict []].
Proof. vm_compute. reflexivity. Qed.
