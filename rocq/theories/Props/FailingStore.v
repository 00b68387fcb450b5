(** * C103: streams whose storage fails now and then, on disk, in MinIO and in Google Cloud Storage *)
From Coq Require Import Permutation.
From Verif.Base Require Import Py Value.
From Verif.Model Require Import Paths Dates Frames ReadRange Cursor Storage Writers Stream Adapters Reader Collector.
From Verif.Model Require Json.
From Verif.Spec Require Import Paths Dates Json Writers Stream Reader StreamRead Collector.
From Verif.Spec Require Adapters.
From Verif.Spec Require Import System StreamStore FailingStore.
From Verif.Proofs Require FailingStore FailingStoreCases FailingReadCases StreamReadCases StreamStoreCases ReaderCases.
Local Open Scope Z_scope.

(** The commits of a stream writer's partitions to a file system, to MinIO or to Google Cloud Storage, in which the days to
    read held nothing, fail now and then and then leave nothing behind.  The blobs of those which succeeded can always be
    stored ([stored_as]).  At any point of any history of appends, rounds of the attendant, finalizes and collected writers
    a reader of the same storage gives records which were appended on the days asked for, none of them more often than it
    was appended. *)
Theorem stored_failing_stream_is_read_without_duplicates :
  forall (parse : str -> result value) (unzstd : str -> result str) (other : str -> str -> generator value)
         (fits : value -> Prop) (image : value -> value) (V : Type) (M : streaming value V)
         (columns : value -> result value) (filters : value -> result bool) (c : value -> value) (p : value -> bool)
         (k : kind) (t : list seg) (es : list cevent) (os : list (result nat)) (s : cstate) (s0 : stored)
         (now : datetime) (rnd : str) (y m d hh mm ss y' m' d' hh' mm' ss' : Z),
    failing_settings parse unzstd other fits image M ->
    daily_template t -> chronological t -> proper_template (map Date t) ->
    m_template M = template_text t \/ m_template M = template_text (t ++ hour_folders) ->
    Adapters.proper k s0 -> crun M new_collected es = (os, s) ->
    (forall r at_, In (Event (SAppend r at_)) es -> clock_time at_) ->
    good_clock (m_base M) (attempts (world_of (c_stream s))) ->
    valid_date y m d -> valid_time hh mm ss -> valid_date y' m' d' -> valid_time hh' mm' ss' -> 1000 <= y -> y' <= 9999 ->
    let start := of_fields y m d hh mm ss in let stop := of_fields y' m' d' hh' mm' ss' in
    start <= stop ->
    (forall date, within (y, m, d) (y', m', d') date ->
       clean_folder (day_folder t date) /\ listing k rnd (range_hours now start stop) (day_folder t date) s0 = []) ->
    let returned := returned_on M (within_days (y, m, d) (y', m', d')) es os in
    let raised := raised_on M (within_days (y, m, d) (y', m', d')) es os in
    (forall r, In r (returned ++ raised) -> fits r /\ applies columns filters c p (image r)) ->
    let log := puts (world_of (c_stream s)) in
    (exists s1, stored_as k M (partition_appended M es) log s0 s1) /\
    forall s1, stored_as k M (partition_appended M es) log s0 s1 ->
    exists kept rest, Permutation (kept ++ rest) (returned ++ raised) /\
    forall hash loads n, records_read (read_selected parse unzstd other columns filters hash loads k now rnd t start stop n s1)
                         = found kept n (filter p (map c (map image kept))).
Proof.
  intros parse unzstd other fits image V M columns filters c p k t es os s s0 now rnd y m d hh mm ss y' m' d' hh' mm' ss'
         S DT CH P T P0 RUN HC CL V1 T1 V2 T2 Y1 Y2 start stop LE HF returned raised HA log.
  exact (conj (FailingStore.failing_stored parse unzstd other fits image M k S t es os s s0 P T RUN)
              (FailingStore.stored_at_most_once parse unzstd other fits image M columns filters c p k S t es os s s0 now rnd
                 y m d hh mm ss y' m' d' hh' mm' ss' DT CH P T P0 RUN HC CL V1 T1 V2 T2 Y1 Y2 LE HF HA)).
Qed.
Print Assumptions stored_failing_stream_is_read_without_duplicates.

(** After a finalize, once the writers which could not store what they held were collected and these second attempts
    succeeded, the reader gives every record whose append returned, as often as it was appended, and possibly some of
    those whose append raised. *)
Theorem stored_failing_stream_is_read_complete :
  forall (parse : str -> result value) (unzstd : str -> result str) (other : str -> str -> generator value)
         (fits : value -> Prop) (image : value -> value) (V : Type) (M : streaming value V)
         (columns : value -> result value) (filters : value -> result bool) (c : value -> value) (p : value -> bool)
         (k : kind) (t : list seg) (es : list cevent) (ns : list nat) (os : list (result nat)) (s : cstate) (s0 s1 : stored)
         (now : datetime) (rnd : str) (y m d hh mm ss y' m' d' hh' mm' ss' : Z),
    let history := es ++ Event SFinalize :: map Collect ns in
    failing_settings parse unzstd other fits image M ->
    daily_template t -> chronological t -> proper_template (map Date t) ->
    m_template M = template_text t \/ m_template M = template_text (t ++ hour_folders) ->
    Adapters.proper k s0 -> crun M new_collected history = (os, s) ->
    c_dropped s = [] -> destructors_succeed history os ->
    (forall r at_, In (Event (SAppend r at_)) history -> clock_time at_) ->
    good_clock (m_base M) (attempts (world_of (c_stream s))) ->
    valid_date y m d -> valid_time hh mm ss -> valid_date y' m' d' -> valid_time hh' mm' ss' -> 1000 <= y -> y' <= 9999 ->
    let start := of_fields y m d hh mm ss in let stop := of_fields y' m' d' hh' mm' ss' in
    start <= stop ->
    (forall date, within (y, m, d) (y', m', d') date ->
       clean_folder (day_folder t date) /\ listing k rnd (range_hours now start stop) (day_folder t date) s0 = []) ->
    let returned := returned_on M (within_days (y, m, d) (y', m', d')) history os in
    let raised := raised_on M (within_days (y, m, d) (y', m', d')) history os in
    (forall r, In r (returned ++ raised) -> fits r /\ applies columns filters c p (image r)) ->
    stored_as k M (partition_appended M history) (puts (world_of (c_stream s))) s0 s1 ->
    exists kept some rest, Permutation kept (returned ++ some) /\ Permutation (some ++ rest) raised /\
    forall hash loads n, records_read (read_selected parse unzstd other columns filters hash loads k now rnd t start stop n s1)
                         = found kept n (filter p (map c (map image kept))).
Proof.
  intros parse unzstd other fits image V M columns filters c p k t es ns os s s0 s1 now rnd y m d hh mm ss y' m' d' hh' mm' ss'
         history S DT CH P T P0 RUN D N HC CL V1 T1 V2 T2 Y1 Y2 start stop LE HF returned raised HA HS.
  exact (FailingStore.stored_collected parse unzstd other fits image M columns filters c p k S t history os s s0 now rnd
           y m d hh mm ss y' m' d' hh' mm' ss' DT CH P T P0 RUN HC CL V1 T1 V2 T2 Y1 Y2 LE HF HA es ns s1 HS eq_refl D N).
Qed.
Print Assumptions stored_failing_stream_is_read_complete.

(** The stream of C101, which failed at three attempts, in every kind of storage, which held a blob of another dataset. *)
Section Example.
  Import ReaderCases StreamReadCases StreamStoreCases FailingReadCases FailingStoreCases.
  Example ex_hypotheses : forall k,
    daily_template st_template /\ chronological st_template /\ proper_template (map Date st_template) /\
    (forall other, failing_settings Json.loads unz other distinct_keys (fun r => r) (fr_writer fr_bad st_template)) /\
    m_template (fr_writer fr_bad st_template) = template_text st_template /\
    Adapters.proper k (ss_before k) /\
    c_dropped (snd (fr_run fr_bad st_template fr_ns)) = [] /\
    destructors_succeed (fr_history fr_ns) (fst (fr_run fr_bad st_template fr_ns)) /\
    (forall r at_, In (Event (SAppend r at_)) (fr_history fr_ns) -> clock_time at_) /\
    good_clock (m_base (fr_writer fr_bad st_template)) (attempts (world_of (c_stream (snd (fr_run fr_bad st_template fr_ns))))) /\
    forall date, within (2024, 2, 28) (2024, 3, 1) date ->
      clean_folder (day_folder st_template date) /\
      listing k [] (range_hours 0 (of_fields 2024 2 28 0 0 0) (of_fields 2024 3 1 12 0 0)) (day_folder st_template date) (ss_before k) = [].
  Proof.
    intros k. split; [exact st_daily|]. split; [exact st_chronological|]. split; [exact st_proper|].
    split; [intros other; apply fr_settings|]. split; [reflexivity|]. split; [apply ss_proper|].
    split; [vm_compute; reflexivity|].
    split; [intros n e H; vm_compute in H; repeat (destruct H as [H|H]; [discriminate H|]); destruct H|].
    split; [exact (fr_clock_times fr_ns)|].
    split; [apply (fr_ran _ _ _ _ (proj1 fr_attempts)); repeat constructor|]. exact (ss_nothing k).
  Qed.
  Example ex_records : forall k,
    fs_read k st_template [] = Ok (map a_record [1; 5]) /\
    fs_read k st_template fr_ns = Ok (map a_record [1; 2; 3; 5]) /\
    fs_read k (st_template ++ hour_folders) fr_ns = Ok (map a_record [1; 2; 3; 4; 5]) /\
    fs_named k st_template fr_ns = true /\ fs_named k (st_template ++ hour_folders) fr_ns = true.
  Proof. exact fs_records. Qed.
End Example.
