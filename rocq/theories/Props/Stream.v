(** C13-C17: the stream writer and its pool of blob writers. *)
From Coq Require Import Permutation.
From Verif.Base Require Import Py PyFacts.
From Verif.Model Require Import Paths Frames Writers Stream.
From Verif.Spec Require Import Paths Writers Stream.
From Verif.Proofs Require Stream StreamPaths StreamPool.

(** C13.  For every interleaving of appends, attendant rounds and finalizes ending in a finalize: of
    each partition the stored blobs hold exactly the records accepted for it, once, in order. *)
Theorem stream_records_stored_exactly_once :
  forall (R V : Type) (M : streaming R V), reliable (m_base M) ->
  forall (es : list event) (os : list (result nat)) (s : sstate),
    srun M new_stream (es ++ [SFinalize]) = (os, s) ->
    exists blobs, contents M blobs (puts (world_of s)) /\
      forall id, stored_for id blobs = sent M (es ++ [SFinalize]) os id.
Proof. exact @Stream.all_stored. Qed.
Print Assumptions stream_records_stored_exactly_once.

(** ... and at any moment before, what is stored is a beginning of it. *)
Theorem stream_records_never_duplicated :
  forall (R V : Type) (M : streaming R V), reliable (m_base M) ->
  forall (es : list event) (os : list (result nat)) (s : sstate),
    srun M new_stream es = (os, s) ->
    exists blobs, contents M blobs (puts (world_of s)) /\
      forall id, exists waiting, stored_for id blobs ++ waiting = sent M es os id.
Proof. exact @Stream.never_duplicated. Qed.
Print Assumptions stream_records_never_duplicated.

(** C14.  Blobs of records that fail the schema are in a BACKOUT folder, those of valid records are
    not, unless their partition is itself called BACKOUT. *)
Theorem invalid_stream_records_in_backout_partial :
  forall (R V : Type) (M : streaming R V) (ps : list piece),
    sets_ok M -> m_template M = stream_template ps -> proper_template ps ->
    plain (s_node (m_base M)) -> plain (m_ext M) ->
  forall (es : list event) (os : list (result nat)) (s : sstate),
    reliable (m_base M) -> srun M new_stream es = (os, s) ->
    (forall r now id, In (SAppend r now) es -> m_valid M r = true -> In id (targets M r now) ->
       contains $"BACKOUT" id = false) ->
    exists blobs, contents M blobs (puts (world_of s)) /\
      (forall id, exists waiting, stored_for id blobs ++ waiting = sent M es os id) /\
      Forall2 (fun b put => forall r, In r (snd b) -> contains $"BACKOUT" (fst put) = negb (m_valid M r))
              blobs (puts (world_of s)).
Proof. exact @StreamPool.backout_only. Qed.
Print Assumptions invalid_stream_records_in_backout_partial.

(** ... so no reader, of whatever folders and with whatever hint, sees an invalid record. *)
Theorem invalid_stream_records_never_read :
  forall (R V : Type) (M : streaming R V) (ps : list piece),
    sets_ok M -> m_template M = stream_template ps -> proper_template ps ->
    plain (s_node (m_base M)) -> plain (m_ext M) ->
  forall (es : list event) (os : list (result nat)) (s : sstate),
    reliable (m_base M) -> srun M new_stream es = (os, s) ->
    (forall r now id, In (SAppend r now) es -> m_valid M r = true -> In id (targets M r now) ->
       contains $"BACKOUT" id = false) ->
    exists blobs, contents M blobs (puts (world_of s)) /\
      (forall id, exists waiting, stored_for id blobs ++ waiting = sent M es os id) /\
      forall pf store paths out, get_list_of_blobs pf store paths = Ok out ->
        Forall2 (fun b put => In (fst put) out -> forall r, In r (snd b) -> m_valid M r = true)
                blobs (puts (world_of s)).
Proof. exact @StreamPool.backout_never_read. Qed.
Print Assumptions invalid_stream_records_never_read.

(** C15.  A record is written once per distinct combination of the values of the template's fields,
    to the template with the sanitised values filled in (and below BACKOUT if it is invalid). *)
Theorem stream_partitions_of_a_record :
  forall (R V : Type) (M : streaming R V) (ps : list piece),
    sets_ok M -> m_template M = stream_template ps -> pieces_ok ps ->
  forall (r : R) (now : moment),
    exists names combos,
      NoDup names /\ (forall n, In n names <-> In (Field n) ps) /\
      NoDup combos /\ (forall c, In c combos <-> Forall2 (fun n v => In v (m_get M r n)) names c) /\
      targets M r now =
        map (fun c => partition_of ps now
                        (fun n => match chosen names c n with
                                  | Some v => sanitize (m_show M v)
                                  | None => []
                                  end) ++ (if m_valid M r then [] else $"/BACKOUT/")) combos.
Proof. exact @StreamPaths.targets_eq. Qed.
Print Assumptions stream_partitions_of_a_record.

Theorem stream_append_counts_copies :
  forall (R V : Type) (M : streaming R V) (s : sstate) (r : R) (now : moment) (n : nat) (s' : sstate),
    stream_append M s r now = (Ok n, s') -> n = length (targets M r now).
Proof. exact @StreamPool.stream_append_count. Qed.
Print Assumptions stream_append_counts_copies.

(** ... and whatever the values, the path keeps its depth, is relative and has no "..", if every
    component of the template has literal text ... *)
Theorem values_keep_partition_depth :
  forall (ps : list piece) (d : moment) (value : str -> str),
    solid (partition_of ps d (fun _ => [])) ->
    let p := partition_of ps d (fun n => sanitize (value n)) in
    length (components_of p) = length (components_of (partition_of ps d (fun _ => []))) /\
    ~ In $".." (components_of p) /\ relative p.
Proof. exact StreamPool.partition_depth. Qed.
Print Assumptions values_keep_partition_depth.

(** ... or the values have a letter, digit or space. *)
Theorem values_keep_partition_depth_partial :
  forall (ps : list piece) (d : moment) (value : str -> str),
    solid (partition_of ps d (fun _ => $"x")) -> (forall n, sanitize (value n) <> []) ->
    let p := partition_of ps d (fun n => sanitize (value n)) in
    length (components_of p) = length (components_of (partition_of ps d (fun _ => $"x"))) /\
    ~ In $".." (components_of p) /\ relative p.
Proof. exact StreamPool.partition_depth_fields. Qed.
Print Assumptions values_keep_partition_depth_partial.

(** C16 *)
Theorem over_capacity_evicts_least_recently_used :
  forall (R : Type) (size : Z) (l : list (pooled (R:=R))),
    (0 <= size)%Z -> (size < Z.of_nat (length l))%Z ->
    exists evicted stays, Permutation (evicted ++ stays) l /\ nominate size l = map p_id evicted /\
      Z.of_nat (length evicted) = Z.min (Z.of_nat (length l) - size) size /\
      forall e w, In e evicted -> In w stays -> (p_last e <= p_last w)%Z.
Proof. exact @StreamPool.lru_evicted. Qed.
Print Assumptions over_capacity_evicts_least_recently_used.

Theorem stale_writers_exact :
  forall (R : Type) (now secs : Z) (l : list (pooled (R:=R))) (id : str),
    In id (stale now secs l) <-> exists w, In w l /\ p_id w = id /\ (now - p_last w > secs)%Z.
Proof. exact @StreamPool.stale_exact. Qed.
Print Assumptions stale_writers_exact.

(** C17, for pools at most half full or exactly full; and how many are evicted otherwise. *)
Theorem within_capacity_evicts_nothing_partial :
  forall (R : Type) (size : Z) (l : list (pooled (R:=R))), (0 <= size)%Z ->
    (2 * Z.of_nat (length l) <= size \/ Z.of_nat (length l) = size)%Z -> nominate size l = [].
Proof. exact @StreamPool.within_capacity_none. Qed.
Print Assumptions within_capacity_evicts_nothing_partial.

Theorem within_capacity_evictions_counted :
  forall (R : Type) (size : Z) (l : list (pooled (R:=R))), (0 <= size)%Z -> (Z.of_nat (length l) <= size)%Z ->
    length (nominate size l) =
    Z.to_nat (if (Z.of_nat (length l) =? size)%Z then 0 else 2 * Z.of_nat (length l) - size).
Proof. exact @StreamPool.within_capacity. Qed.
Print Assumptions within_capacity_evictions_counted.

(** C17 is false in general: of four writers in a pool of five, three are evicted. *)
Definition ex_pool : list (pooled (R:=str)) :=
  map (fun n => mkPooled [digit n] (Z.of_N (9 - n)) open_buffer) [1; 2; 3; 4]%N.
Theorem within_capacity_evicts_nothing_refuted :
  exists (size : Z) (l : list (pooled (R:=str))),
    (Z.of_nat (length l) <= size)%Z /\ nominate size l = [$"4"; $"3"; $"2"].
Proof. exists 5%Z, ex_pool. split; [cbn; lia|reflexivity]. Qed.
Print Assumptions within_capacity_evicts_nothing_refuted.
Example ex_over : nominate 3 ex_pool = [$"4"]. Proof. reflexivity. Qed.

(** A concrete stream: records are a text and the list of the values of "user"; records starting with
    "!" are invalid. *)
Definition ex_base (fails : nat -> option (option nat)) : setting (str * list str) :=
  mkSetting _ Jsonl 10 [] $"node" false (fun _ => Ok tt) (fun r => Ok (fst r ++ ["010"%char])) (fun s => s)
    (fun _ => 0%Z) (fun g => Ok (concat (map fst g))) (fun n => N.of_nat n + 2 ^ 60)%N fails.
Definition ex_pieces : list piece :=
  [Date (Lit $"data/"); Date Year; Date (Lit $"/user="); Field $"user"].
Definition ex_stream (ps : list piece) (fails : nat -> option (option nat)) : streaming (str * list str) str :=
  mkStreaming _ _ (stream_template ps) (fun r => negb (startswith $"!" (fst r))) (fun r _ => snd r) (fun v => v)
    (dedup str_eqb) (dedup (list_eqb str_eqb)) 1 60 (fun n => Z.of_nat n) (ex_base fails) $".jsonl".
Definition now1 : moment := mkMoment 2024 2 3 4 5 6.
Definition ex_events : list event :=
  [SAppend ($"one", [$"a"; $"b/.."; $"a"]) now1; Attend; SAppend ($"!two", [$"a"]) now1;
   SAppend ($"three", [$"a"]) now1; Attend; SAppend ($"four", [$"b"]) now1].

Example ex_stream_ok : let M := ex_stream ex_pieces (fun _ => None) in
  sets_ok M /\ m_template M = stream_template ex_pieces /\ proper_template ex_pieces /\
  plain (s_node (m_base M)) /\ plain (m_ext M) /\ reliable (m_base M) /\
  (forall r now id, In (SAppend r now) ex_events -> m_valid M r = true -> In id (targets M r now) ->
       contains $"BACKOUT" id = false).
Proof.
  cbv zeta. split; [split|].
  - intros l. split; [apply dedup_NoDup, str_eqb_eq|]. intros; apply dedup_In, str_eqb_eq.
  - intros l. pose proof (list_eqb_spec str_eqb str_eqb_eq) as H.
    split; [apply dedup_NoDup, H|]. intros; apply dedup_In, H.
  - split; [reflexivity|]. split; [split; [|split]|].
    + split; intros s H; cbn in H; repeat (destruct H as [H|H]; [try discriminate H|]); try contradiction.
      * injection H as <-. split; simpl; intuition discriminate.
      * injection H as <-. split; simpl; intuition discriminate.
      * injection H as <-. split; [split; simpl; intuition discriminate|].
        split; simpl; intuition discriminate.
    + intros s H; cbn in H; repeat (destruct H as [H|H]; [try discriminate H|]); try contradiction;
        injection H as <-; simpl; intuition discriminate.
    + intros now.
      assert (E: split "/"%char (partition_of ex_pieces now (fun _ => [])) = [$"data"; dec (year now); $"user="]).
      { unfold partition_of, ex_pieces. cbn [map concat piece_value seg_value].
        change ($"data/" ++ dec (year now) ++ $"/user=" ++ [] ++ [])
          with ($"data" ++ "/"%char :: (dec (year now) ++ "/"%char :: $"user=")).
        rewrite !split_app_no_sep.
        - reflexivity.
        - intros H. apply dec_digits in H. discriminate.
        - simpl. intuition discriminate. }
      assert (D: exists c, In c (dec (year now)) /\ c <> "."%char).
      { destruct (dec (year now)) as [|c l] eqn:Ed; [exfalso; eapply dec_nonempty; eauto|].
        exists c. split; [left; auto|]. intros ->.
        assert (H: is_digit "."%char = true) by (eapply dec_digits; rewrite Ed; left; auto). discriminate. }
      split.
      * intros w Hw. rewrite E in Hw. destruct Hw as [<-|[<-|[<-|[]]]]; auto;
          eexists; (split; [left; reflexivity|discriminate]).
      * unfold components_of. rewrite E. cbn [filter].
        destruct (dec (year now)) as [|c l]; [destruct D as (c & [] & _)|].
        change (str_eqb (c :: l) []) with false. cbn [negb andb].
        change (str_eqb $"data" []) with false. change (str_eqb $"data" $".") with false.
        cbn [negb andb]. destruct (str_eqb (c :: l) $"."); cbn; lia.
    + split; [intros c H; cbn in H; repeat (destruct H as [<-|H]; [reflexivity|]); destruct H|].
      split; [intros c H; cbn in H; repeat (destruct H as [<-|H]; [reflexivity|]); destruct H|].
      split; [split; [auto|intros; cbn; eauto]|].
      intros r now id H Hv Hid. cbn in H.
      repeat (destruct H as [H|H]; [try discriminate H; injection H as <- <-; try discriminate Hv;
        vm_compute in Hid; repeat (destruct Hid as [<-|Hid]; [reflexivity|]); destruct Hid|]). destruct H.
Qed.
Example ex_targets : let M := ex_stream ex_pieces (fun _ => None) in
  targets M ($"one", [$"a"; $"b/.."; $"a"]) now1 = [$"data/2024/user=b"; $"data/2024/user=a"]
  \/ targets M ($"one", [$"a"; $"b/.."; $"a"]) now1 = [$"data/2024/user=a"; $"data/2024/user=b"].
Proof. right. vm_compute. reflexivity. Qed.
Example ex_stream_run : let '(os, s) := srun (ex_stream ex_pieces (fun _ => None)) new_stream (ex_events ++ [SFinalize]) in
  os = map Ok [2; 0; 1; 1; 0; 1; 0]%nat /\
  map snd (puts (world_of s)) =
    map (fun t => t ++ ["010"%char]) [$"one"; $"one"; $"!two"; $"three"; $"four"] /\
  map (fun p => contains $"BACKOUT" (fst p)) (puts (world_of s)) = [false; false; true; false; false].
Proof. vm_compute. repeat split. Qed.

(** C14 is false for a partition called BACKOUT: a valid record nobody can read. *)
Theorem valid_stream_record_readable_refuted :
  exists (M : streaming (str * list str) str) (r : str * list str),
    m_valid M r = true /\ (forall id t, In id (targets M r now1) ->
      contains $"BACKOUT" (blob_name (s_filename (m_writer M id)) (s_node (m_writer M id)) t) = true).
Proof.
  exists (ex_stream ex_pieces (fun _ => None)), ($"one", [$"BACKOUT"]). split; [reflexivity|].
  intros id t H. replace (targets _ _ now1) with [$"data/2024/user=BACKOUT"] in H by (vm_compute; reflexivity).
  destruct H as [<-|[]].
  assert (E: s_filename (m_writer (ex_stream ex_pieces (fun _ => None)) $"data/2024/user=BACKOUT")
             = $"data/2024/user=BACKOUT/" ++ $"{stem}.jsonl") by (vm_compute; reflexivity).
  rewrite E. unfold blob_name.
  pose proof (replace_skip "{"%char $"stem}"
    (hex t ++ $"-" ++ s_node (m_writer (ex_stream ex_pieces (fun _ => None)) $"data/2024/user=BACKOUT"))
    $"data/2024/user=BACKOUT/" $"{stem}.jsonl") as Q.
  change ("{"%char :: $"stem}") with $"{stem}" in Q. rewrite Q by (simpl; intuition discriminate).
  apply contains_app_r. reflexivity.
Qed.
Print Assumptions valid_stream_record_readable_refuted.

(** C15 is false for a component that is a field only: a value of punctuation removes it. *)
Theorem value_removes_component_refuted :
  exists (ps : list piece) (value : str -> str),
    pieces_ok ps /\
    components_of (partition_of ps now1 (fun n => sanitize (value n))) = [$"data"; $"x"] /\
    components_of (stream_template ps) = [$"data"; $"{user}"; $"x"].
Proof.
  exists [Date (Lit $"data/"); Field $"user"; Date (Lit $"/x")], (fun _ => $"../..").
  split; [|split; reflexivity].
  split; intros s H; cbn in H; repeat (destruct H as [H|H]; [try discriminate H|]); try contradiction;
    injection H as <-; repeat split; simpl; intuition discriminate.
Qed.
Print Assumptions value_removes_component_refuted.

(** C13 does not survive storage failures: finalize swallows the exception, the record is lost. *)
Theorem stream_records_survive_failures_refuted :
  exists (M : streaming (str * list str) str) (es : list event),
    (forall n, n <> 0%nat -> s_fails (m_base M) n = None) /\
    let '(os, s) := srun M new_stream (es ++ [SFinalize; SFinalize]) in
    os = [Ok 1; Ok 0; Ok 0]%nat /\ puts (world_of s) = [] /\ pool s = [] /\
    sent M (es ++ [SFinalize; SFinalize]) os $"data/2024/user=a" = [($"one", [$"a"])].
Proof.
  exists (ex_stream ex_pieces (fun n => match n with O => Some None | _ => None end)),
    [SAppend ($"one", [$"a"]) now1].
  split; [intros [|n] H; [congruence|reflexivity]|]. vm_compute. repeat split.
Qed.
Print Assumptions stream_records_survive_failures_refuted.

(** Two values that differ in punctuation only share a partition, which gets the record twice. *)
Theorem stream_record_twice_in_a_partition_refuted :
  exists (M : streaming (str * list str) str) (r : str * list str) (id : str),
    filter (str_eqb id) (targets M r now1) = [id; id].
Proof.
  exists (ex_stream ex_pieces (fun _ => None)), ($"one", [$"a-b"; $"ab"]), $"data/2024/user=ab".
  vm_compute. reflexivity.
Qed.
Print Assumptions stream_record_twice_in_a_partition_refuted.
