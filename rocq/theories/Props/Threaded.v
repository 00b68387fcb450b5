(** C102: reading the blobs in several threads. *)
From Verif.Base Require Import Py Value.
From Verif.Model Require Import Collections Threaded.
From Verif.Spec Require Import Threaded.
From Verif.Proofs Require Collections Threaded.
Local Open Scope nat_scope.

(** Whatever the schedule, and whichever threads gave up or ended with an exception: of every blob the reader has given the
    first of its pages so far, in order and each once, and of nothing else any page.  ([pages] are the pages a thread makes of a
    blob, up to an exception.) *)
Theorem threads_keep_pages_in_order :
  forall (B C : Type) (pages : B -> list C * bool) (same : B -> B -> bool), compares same ->
  forall (items : list B) (slots : nat) (es : list event) (s : state B C),
    NoDup items -> steps pages es (start items slots) s ->
    forall b, (~ In b items -> pages_for same b (delivered s) = []) /\
      exists rest, pages_for same b (delivered s) ++ rest = fst (pages b).
Proof. exact @Threaded.pages_in_order. Qed.
Print Assumptions threads_keep_pages_in_order.

(** When the read ends by itself, every page of every blob was given, and every thread has ended.  Partial: only when no blob
    ended with an exception, and no more threads gave up waiting for their first blob than there are threads without
    one.  Otherwise blobs are lost, see below. *)
Theorem threads_deliver_everything_partial :
  forall (B C : Type) (pages : B -> list C * bool) (same : B -> B -> bool), compares same ->
  forall (items : list B) (slots : nat) (es : list event) (s : state B C),
    NoDup items -> steps pages es (start items slots) s -> reader s = Ended -> died s = [] -> 0 < slots ->
    times gave_up es <= slots - length items ->
    forall b, In b items -> pages_for same b (delivered s) = fst (pages b).
Proof. exact @Threaded.everything. Qed.
Print Assumptions threads_deliver_everything_partial.
Theorem threads_ended_read_returns :
  forall (B C : Type) (pages : B -> list C * bool) (items : list B) (slots : nat) (es : list event) (s : state B C),
    steps pages es (start items slots) s -> reader s = Ended -> joined s.
Proof.
  intros B C pages items slots es s H E. split; [left; exact E|]. exact (Threaded.ended_stopped pages items slots es s H E).
Qed.
Print Assumptions threads_ended_read_returns.

(** With at least as many blobs as threads the read ends: of the steps other than looking again, giving up and stopping the read
    there is a number no schedule exceeds, ... *)
Theorem threads_do_finitely_much :
  forall (B C : Type) (pages : B -> list C * bool) (items : list B) (slots : nat),
    exists bound, forall (es : list event) (s : state B C),
      steps pages es (start items slots) s -> times useful es <= bound.
Proof.
  intros B C pages items slots. exists (Threaded.weight pages (start items slots)). intros es s H.
  apply Threaded.useful_bounded in H. exact (Nat.le_trans _ _ _ (Nat.le_add_r _ _) H).
Qed.
Print Assumptions threads_do_finitely_much.
(** ... and while the reader is in its loop some such step is possible, at once or after the reader has looked again. *)
Theorem threads_go_on_until_ended :
  forall (B C : Type) (pages : B -> list C * bool) (items : list B) (slots : nat) (es : list event) (s : state B C),
    steps pages es (start items slots) s -> died s = [] -> slots <= length items ->
    reader s = Looking \/ reader s = Reading ->
    exists e s', useful e = true /\
      (step pages e s s' \/ exists e1 s1, useful e1 = false /\ step pages e1 s s1 /\ step pages e s1 s').
Proof. exact @Threaded.goes_on. Qed.
Print Assumptions threads_go_on_until_ended.

(** With fewer blobs than threads: once more threads got either a first blob or, instead of one, the signal to end than there
    are blobs, the read neither ends by itself nor returns after the limit of 600 seconds or when the client stops it. *)
Theorem threads_read_never_returns :
  forall (B C : Type) (pages : B -> list C * bool) (items : list B) (slots : nat) (es : list event) (s : state B C),
    steps pages es (start items slots) s -> died s = [] -> length items <= slots ->
    length items < times took_first es + times stopped_first es -> reader s <> Ended /\ ~ joined s.
Proof.
  intros B C pages items slots es s H D L T.
  exact (conj (Threaded.never_ends pages items slots es s H D L T) (Threaded.never_joined pages items slots es s H D L T)).
Qed.
Print Assumptions threads_read_never_returns.

(** The pages of a blob hold its records without the last one; a thread which gets a blob without records ends with an exception
    (see C57). *)
Theorem threads_lose_last_record :
  forall (B : Type) (dumps : record -> str) (read : B -> list record) (b : B),
    (forall rows last, read b = rows ++ [last] ->
       concat (fst (pages_of dumps read b)) = map dumps rows /\ snd (pages_of dumps read b) = true) /\
    (read b = [] -> pages_of dumps read b = ([], false)).
Proof.
  intros B dumps read b. split.
  - intros rows last E. unfold pages_of. rewrite E.
    destruct (Collections.pages_spec dumps 5 (Nat.lt_0_succ 4) rows last) as (pages & tail & -> & P & _). exact (conj P eq_refl).
  - intros E. unfold pages_of. rewrite E, (Collections.pages_empty dumps 5 (Nat.lt_0_succ 4)). reflexivity.
Qed.
Print Assumptions threads_lose_last_record.

(** *** Concrete schedules, of eight threads; every blob has one page *)
Definition one_page (b : nat) : list nat * bool := ([10 * b], true).
Ltac work n := match goal with |- steps _ _ (mkState ?q ?rs ?ws ?u ?d ?f ?x ?r) _ =>
    let l := eval cbn in (firstn n ws) in let r0 := eval cbn in (skipn (S n) ws) in
    eapply steps_cons; [eapply (step_worker _ _ l _ r0); [reflexivity|constructor; reflexivity]|cbn [send replies workers unsent delivered finished died reader app fst snd one_page]] end.
Ltac look := eapply steps_cons; [apply step_reader; eapply reads_look; [reflexivity|left; reflexivity|discriminate]|cbn [send replies workers unsent delivered finished died reader app]].
Ltac get := eapply steps_cons; [apply step_reader; eapply reads_get; reflexivity|cbn [send replies workers unsent delivered finished died reader app]].
Ltac get_end := eapply steps_cons; [apply step_reader; eapply reads_end; reflexivity|cbn [send replies workers unsent delivered finished died reader app]].
Ltac leave := eapply steps_cons; [apply step_reader, reads_leave; [reflexivity|cbn; intuition congruence]|cbn [send replies workers unsent delivered finished died reader app]].

(** A thread reads both blobs before the others have started; these give up.  The signal to end is sent when the first blob was
    read, the thread gets it after the second, and the reader sees no thread alive: it ends without the second blob. *)
Theorem threads_deliver_everything_refuted :
  exists (es : list event) (s : state nat nat),
    steps one_page es (start [1; 2] slots) s /\ reader s = Ended /\ died s = [] /\ joined s /\
    pages_for Nat.eqb 1 (delivered s) = [10] /\ pages_for Nat.eqb 2 (delivered s) = [] /\ fst (one_page 2) = [20].
Proof.
  exists [First; Put; Finish; Next; GiveUp; GiveUp; GiveUp; GiveUp; GiveUp; GiveUp; GiveUp; Look; Get; GetEnd; Put; Finish; Stop; Leave].
  eexists. split.
  - unfold start, slots. cbn [firstn skipn map repeat]. work 0. work 0. work 0. work 0. work 1. work 2. work 3. work 4. work 5. work 6. work 7.
    look. get. get_end. work 0. work 0. work 0. leave. apply steps_nil.
  - cbn [reader died workers delivered]. split; [reflexivity|]. split; [reflexivity|]. split; [|repeat split].
    split; [left; reflexivity|]. cbn. intuition congruence.
Qed.
Print Assumptions threads_deliver_everything_refuted.

(** One blob: the signal to end goes to a thread which still waits for its first blob.  Everything was delivered, but the read never
    returns, whatever happens next (unless a blob ends with an exception, but there is no further blob). *)
Theorem threads_return_refuted :
  exists (es : list event) (s : state nat nat),
    steps one_page es (start [1] slots) s /\ delivered s = [(1, 10)] /\ finished s = [1] /\
    forall es' s', steps one_page es' s s' -> reader s' <> Ended /\ ~ joined s'.
Proof.
  exists [First; Put; Finish; Look; Get; GetEnd; StopFirst]. eexists. split; [|split; [|split]].
  - unfold start, slots. cbn [firstn skipn map repeat]. work 0. work 0. work 0. look. get. get_end. work 1. apply steps_nil.
  - reflexivity.
  - reflexivity.
  - intros es' s' H.
    refine (threads_read_never_returns nat nat one_page [1] slots ([First; Put; Finish; Look; Get; GetEnd; StopFirst] ++ es') s' _ _ _ _).
    + unfold start, slots. cbn [firstn skipn map repeat app]. work 0. work 0. work 0. look. get. get_end. work 1. exact H.
    + exact (Threaded.never_dies one_page (fun b => eq_refl) es' _ s' H eq_refl).
    + unfold slots. repeat constructor.
    + unfold times. rewrite !filter_app, !app_length. cbn. apply le_n_S. rewrite Nat.add_succ_r. apply le_n_S, Nat.le_0_l.
Qed.
Print Assumptions threads_return_refuted.

(** one blob, the other threads give up: the conditions of [threads_deliver_everything_partial] *)
Example ex_delivered : exists es s,
  steps one_page es (start [1] slots) s /\ reader s = Ended /\ died s = [] /\ times gave_up es <= slots - length [1] /\
  delivered s = [(1, 10)] /\ compares Nat.eqb /\ NoDup [1].
Proof.
  exists [First; GiveUp; GiveUp; GiveUp; GiveUp; GiveUp; GiveUp; GiveUp; Put; Finish; Look; Get; GetEnd; Stop; Leave].
  eexists. split.
  - unfold start, slots. cbn [firstn skipn map repeat]. work 0. work 1. work 2. work 3. work 4. work 5. work 6. work 7.
    work 0. work 0. look. get. get_end. work 0. leave. apply steps_nil.
  - cbn [reader died delivered]. split; [reflexivity|]. split; [reflexivity|]. split; [unfold slots; cbn; repeat constructor|].
    split; [reflexivity|]. split; [exact Nat.eqb_eq|]. repeat constructor. intros [].
Qed.
(** three blobs and two threads, on the way *)
Example ex_going : exists es s,
  steps one_page es (start [1; 2; 3] 2) s /\ died s = [] /\ 2 <= length [1; 2; 3] /\ reader s = Looking /\
  delivered s = [(2, 20)] /\ send s = [Item 3] /\ workers s = [Working 1 [10]; Waiting].
Proof.
  exists [First; First; Put; Finish; Look; Get; GetEnd]. eexists. split.
  - unfold start. cbn [firstn skipn map repeat]. work 0. work 1. work 1. work 1. look. get. get_end. apply steps_nil.
  - cbn [died reader delivered send workers]. repeat split. repeat constructor.
Qed.
Example ex_pages : pages_of (fun r => match r with [(k, _)] => k | _ => [] end)
    (fun n => map (fun i => [([Ascii.ascii_of_nat (65 + i)], VNull)]) (seq 0 n)) 7
  = ([[$"A"; $"B"; $"C"; $"D"; $"E"]; [$"F"]], true).
Proof. vm_compute. reflexivity. Qed.
