(** * C107: streams partitioned by a field of their records, with storage that fails now and then *)
From Coq Require Import Permutation.
From Verif.Base Require Import Py Value.
From Verif.Model Require Import Paths Dates Frames ReadRange Cursor Storage Writers Stream Adapters Reader Collector.
From Verif.Model Require Json.
From Verif.Spec Require Import Paths Dates Json Writers Stream Reader StreamRead StreamField Collector FailingSessions FailingLevels.
From Verif.Spec Require Adapters.
From Verif.Spec Require Import System StreamStore FailingStore.
From Verif.Proofs Require FailingField FailingFieldCases StreamFieldCases FailingReadCases StreamReadCases StreamStoreCases ReaderCases.
Local Open Scope Z_scope.

(** Any number of stream writers with the same settings wrote one after the other to folders of days, and in each by the values
    of the field F (/by_F/F={F}), while the storage failed now and then.  Each ended well, or was killed before or after any
    blob was stored, or left records which could not be stored.  A reader which asks for F = v over a range of days gets, of
    every writer that ended well, every record of the value whose append returned on these days, as often as it was appended,
    and possibly some of those whose append raised; of the others no record more often than it was appended; and records of the
    value only ([wanted_kept]). *)
Theorem failing_streams_by_field_are_read :
  forall (parse : str -> result value) (unzstd : str -> result str) (other : str -> str -> generator value)
         (fits : value -> Prop) (image : value -> value) (V : Type) (M : streaming value V),
    failing_settings parse unzstd other fits image M ->
    forall (t : list seg) (F : str), daily_template t -> chronological t -> proper_template (map Date t) -> field_name F ->
    m_template M = stream_template (field_template t F) ->
    forall (xs : list spell) (w : world),
    spells_ran M (mkWorld 0 []) xs w ->
    (forall x r at_, In x xs -> In (Event (SAppend r at_)) (history_of x) -> clock_time at_ /\ texts_differ M F r) ->
    good_clock (m_base M) (attempts w) ->
    forall (op v : str), In op [$"="; $"=="] -> contains $"BACKOUT" (kept_text v) = false ->
    forall (now : datetime) (rnd : str) (y m d hh mm ss y' m' d' hh' mm' ss' : Z),
    valid_date y m d -> valid_time hh mm ss -> valid_date y' m' d' -> valid_time hh' mm' ss' -> 1000 <= y -> y' <= 9999 ->
    of_fields y m d hh mm ss <= of_fields y' m' d' hh' mm' ss' ->
    forall (read_blob : str -> result str) (store : str -> list str),
    reads_log read_blob (puts w) ->
    (forall date, within (y, m, d) (y', m', d') date ->
       clean_folder (day_folder t date) /\ lists_folder store (puts w) (day_folder t date)) ->
    exists kept stored, Forall2 (wanted_kept M (has_text M F (kept_text v)) (within_days (y, m, d) (y', m', d'))) xs kept /\ Permutation stored (concat kept) /\
    (forall columns filters c p, (forall r, In r stored -> fits r /\ applies columns filters c p (image r)) ->
     forall hash loads n, gives stored (firstn n (filter p (map c (map image stored)))) (read_records hash loads
       (fun _ => list_range (Some (F, op, v)) store now rnd (template_text t ++ $"/") (of_fields y m d hh mm ss) (of_fields y' m' d' hh' mm' ss'))
       0 (blob_records parse unzstd other read_blob columns filters None) NoCursor n)).
Proof. exact (@FailingField.value_spells_read). Qed.
Print Assumptions failing_streams_by_field_are_read.

(** The same on disk, in MinIO and in Google Cloud Storage, where the days to read held nothing before. *)
Theorem stored_failing_streams_by_field_are_read :
  forall (parse : str -> result value) (unzstd : str -> result str) (other : str -> str -> generator value)
         (fits : value -> Prop) (image : value -> value) (V : Type) (M : streaming value V),
    failing_settings parse unzstd other fits image M ->
    forall (t : list seg) (F : str), daily_template t -> chronological t -> proper_template (map Date t) -> field_name F ->
    m_template M = stream_template (field_template t F) ->
    forall (xs : list spell) (w : world),
    spells_ran M (mkWorld 0 []) xs w ->
    (forall x r at_, In x xs -> In (Event (SAppend r at_)) (history_of x) -> clock_time at_ /\ texts_differ M F r) ->
    good_clock (m_base M) (attempts w) ->
    forall (k : kind) (s0 : stored), Adapters.proper k s0 ->
    let written := partition_appended M (flat_map history_of xs) in
    (exists s1, stored_as k M written (puts w) s0 s1) /\
    forall (op v : str) (now : datetime) (rnd : str) (y m d hh mm ss y' m' d' hh' mm' ss' : Z) (s1 : stored),
    let start := of_fields y m d hh mm ss in let stop := of_fields y' m' d' hh' mm' ss' in
    In op [$"="; $"=="] -> contains $"BACKOUT" (kept_text v) = false ->
    valid_date y m d -> valid_time hh mm ss -> valid_date y' m' d' -> valid_time hh' mm' ss' -> 1000 <= y -> y' <= 9999 ->
    start <= stop ->
    (forall date, within (y, m, d) (y', m', d') date ->
       clean_folder (day_folder t date) /\ listing k rnd (range_hours now start stop) (day_folder t date) s0 = []) ->
    stored_as k M written (puts w) s0 s1 ->
    exists kept stored, Forall2 (wanted_kept M (has_text M F (kept_text v)) (within_days (y, m, d) (y', m', d'))) xs kept /\ Permutation stored (concat kept) /\
    (forall columns filters c p, (forall r, In r stored -> fits r /\ applies columns filters c p (image r)) ->
     forall hash loads n, records_read (read_asked parse unzstd other columns filters hash loads k now rnd t (Some (F, op, v)) start stop n s1)
                          = found stored n (filter p (map c (map image stored)))).
Proof.
  intros parse unzstd other fits image V M S t F DT CH P FN T xs w RUN HN CL k s0 P0 written.
  exact (conj (FailingField.value_spells_storable parse unzstd other fits image M S t F P FN T xs w RUN k s0)
              (FailingField.value_spells_stored parse unzstd other fits image M S t F DT CH P FN T xs w RUN HN k s0 CL P0)).
Qed.
Print Assumptions stored_failing_streams_by_field_are_read.

(** The stream of C90: a writer killed after two blobs, then one which failed to store twice and ended well. *)
Section Example.
  Import ReaderCases StreamReadCases StreamStoreCases StreamFieldCases FailingReadCases FailingFieldCases.
  Example ex_hypotheses :
    (forall other, failing_settings Json.loads unz other distinct_keys (fun r => r) ff_M) /\
    daily_template st_template /\ chronological st_template /\ proper_template (map Date st_template) /\ field_name $"user" /\
    m_template ff_M = stream_template (field_template st_template $"user") /\
    spells_ran ff_M (mkWorld 0 []) ff_spells ff_world /\
    (forall x r at_, In x ff_spells -> In (Event (SAppend r at_)) (history_of x) -> clock_time at_ /\ texts_differ ff_M $"user" r) /\
    good_clock (m_base ff_M) (attempts ff_world) /\
    contains $"BACKOUT" (kept_text $"ann") = false /\
    reads_log (read_from (puts ff_world)) (puts ff_world) /\
    (forall date, within (2024, 2, 28) (2024, 3, 1) date ->
      clean_folder (day_folder st_template date) /\ lists_folder ff_store (puts ff_world) (day_folder st_template date)) /\
    (forall k, Adapters.proper k (ss_before k)) /\
    forall k date, within (2024, 2, 28) (2024, 3, 1) date ->
      clean_folder (day_folder st_template date) /\
      listing k [] (range_hours 0 (of_fields 2024 2 28 0 0 0) (of_fields 2024 3 1 12 0 0)) (day_folder st_template date) (ss_before k) = [].
  Proof.
    exact (conj ff_settings (conj st_daily (conj st_chronological (conj st_proper (conj f_name (conj eq_refl (conj ff_ran (conj ff_appends
      (conj ff_clock (conj eq_refl (conj ff_reads (conj ff_folders (conj ss_proper ff_nothing))))))))))))).
  Qed.
  (** the append of the record of both users raised; it was kept for the first of them *)
  Example ex_read :
    ff_read $"=" $"ann" = [one $"user" 1 $"ann"; one $"user" 1 $"ann"; both $"user" 3 [$"ann"; $"bob b"]] /\
    ff_read $"==" $"bob b" = [one $"user" 2 $"bob b"; one $"user" 5 $"bob b"] /\
    In (Raise StorageError) (fst ff_first) /\ In (Raise StorageError) (fst ff_second) /\
    attempts ff_world = 13%nat /\ length (puts ff_world) = 8%nat.
  Proof. exact (conj ff_ann (conj ff_bob (conj (proj1 ff_answers) (conj (proj2 ff_answers) ff_attempts)))). Qed.
End Example.
