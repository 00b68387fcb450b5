(** * C105: streams divided by fields of their records, with storage that fails now and then *)
From Coq Require Import Permutation.
From Verif.Base Require Import Py Value.
From Verif.Model Require Import Paths Dates Frames ReadRange Cursor Storage Writers Stream Adapters Reader Collector.
From Verif.Model Require Json.
From Verif.Spec Require Import Paths Dates Json Writers Stream Reader StreamRead StreamField StreamLevels Collector FailingSessions FailingLevels.
From Verif.Spec Require Adapters.
From Verif.Spec Require Import System StreamStore FailingStore.
From Verif.Proofs Require FailingLevels FailingLevelsCases LevelsCases FailingReadCases StreamReadCases StreamStoreCases ReaderCases.
Local Open Scope Z_scope.

(** Any number of stream writers with the same settings wrote one after the other to a template with fields of the record in
    the names of folders, while the storage failed now and then.  Each ended well, or was killed before or after any blob was
    stored, or left records which could not be stored.  A reader of the folders of given texts over a range of days gets, of
    every writer that ended well, every record with these texts whose append returned on these days, as often as it was
    appended, and possibly some of those whose append raised; of the others no record more often than it was appended; and
    records with these texts only ([wanted_kept]). *)
Theorem failing_streams_are_divided_by_their_fields :
  forall (parse : str -> result value) (unzstd : str -> result str) (other : str -> str -> generator value)
         (fits : value -> Prop) (image : value -> value) (V : Type) (M : streaming value V),
    failing_settings parse unzstd other fits image M ->
    forall (ls : list level), levels_ok ls -> m_template M = stream_template (levels_template ls) ->
    forall (xs : list spell) (w : world),
    spells_ran M (mkWorld 0 []) xs w ->
    (forall x r at_, In x xs -> In (Event (SAppend r at_)) (history_of x) -> clock_time at_ /\ names_folders M ls r) ->
    good_clock (m_base M) (attempts w) ->
    forall (values : str -> str), let t := levels_of values ls in
    values_ok ls values -> daily_template t -> chronological t ->
    forall (now : datetime) (rnd : str) (y m d hh mm ss y' m' d' hh' mm' ss' : Z),
    valid_date y m d -> valid_time hh mm ss -> valid_date y' m' d' -> valid_time hh' mm' ss' -> 1000 <= y -> y' <= 9999 ->
    of_fields y m d hh mm ss <= of_fields y' m' d' hh' mm' ss' ->
    forall (read_blob : str -> result str) (store : str -> list str),
    reads_log read_blob (puts w) ->
    (forall date, within (y, m, d) (y', m', d') date ->
       clean_folder (day_folder t date) /\ lists_folder store (puts w) (day_folder t date)) ->
    exists kept stored, Forall2 (wanted_kept M (has_texts M ls values) (within_days (y, m, d) (y', m', d'))) xs kept /\ Permutation stored (concat kept) /\
    (forall columns filters c p, (forall r, In r stored -> fits r /\ applies columns filters c p (image r)) ->
     forall hash loads n, gives stored (firstn n (filter p (map c (map image stored)))) (read_records hash loads
       (fun _ => list_range None store now rnd (template_text t ++ $"/") (of_fields y m d hh mm ss) (of_fields y' m' d' hh' mm' ss'))
       0 (blob_records parse unzstd other read_blob columns filters None) NoCursor n)).
Proof. exact (@FailingLevels.levels_spells_read). Qed.
Print Assumptions failing_streams_are_divided_by_their_fields.

(** The same on disk, in MinIO and in Google Cloud Storage, where the days to read held nothing before. *)
Theorem stored_failing_streams_are_divided_by_their_fields :
  forall (parse : str -> result value) (unzstd : str -> result str) (other : str -> str -> generator value)
         (fits : value -> Prop) (image : value -> value) (V : Type) (M : streaming value V),
    failing_settings parse unzstd other fits image M ->
    forall (ls : list level), levels_ok ls -> m_template M = stream_template (levels_template ls) ->
    forall (xs : list spell) (w : world),
    spells_ran M (mkWorld 0 []) xs w ->
    (forall x r at_, In x xs -> In (Event (SAppend r at_)) (history_of x) -> clock_time at_ /\ names_folders M ls r) ->
    good_clock (m_base M) (attempts w) ->
    forall (k : kind) (s0 : stored), Adapters.proper k s0 ->
    let written := partition_appended M (flat_map history_of xs) in
    (exists s1, stored_as k M written (puts w) s0 s1) /\
    forall (values : str -> str) (now : datetime) (rnd : str) (y m d hh mm ss y' m' d' hh' mm' ss' : Z) (s1 : stored),
    let t := levels_of values ls in let start := of_fields y m d hh mm ss in let stop := of_fields y' m' d' hh' mm' ss' in
    values_ok ls values -> daily_template t -> chronological t ->
    valid_date y m d -> valid_time hh mm ss -> valid_date y' m' d' -> valid_time hh' mm' ss' -> 1000 <= y -> y' <= 9999 ->
    start <= stop ->
    (forall date, within (y, m, d) (y', m', d') date ->
       clean_folder (day_folder t date) /\ listing k rnd (range_hours now start stop) (day_folder t date) s0 = []) ->
    stored_as k M written (puts w) s0 s1 ->
    exists kept stored, Forall2 (wanted_kept M (has_texts M ls values) (within_days (y, m, d) (y', m', d'))) xs kept /\ Permutation stored (concat kept) /\
    (forall columns filters c p, (forall r, In r stored -> fits r /\ applies columns filters c p (image r)) ->
     forall hash loads n, records_read (read_asked parse unzstd other columns filters hash loads k now rnd t None start stop n s1)
                          = found stored n (filter p (map c (map image stored)))).
Proof.
  intros parse unzstd other fits image V M S ls OK T xs w RUN HN CL k s0 P0 written.
  exact (conj (FailingLevels.levels_spells_storable parse unzstd other fits image M S ls OK T xs w RUN HN k s0)
              (FailingLevels.levels_spells_stored parse unzstd other fits image M S ls OK T xs w RUN HN k s0 CL P0)).
Qed.
Print Assumptions stored_failing_streams_are_divided_by_their_fields.

(** The stream of C98: a writer killed after one blob, then one which failed to store three times and ended well. *)
Section Example.
  Import ReaderCases StreamReadCases StreamStoreCases LevelsCases FailingReadCases FailingLevelsCases.
  Example ex_hypotheses :
    (forall other, failing_settings Json.loads unz other distinct_keys (fun r => r) fl_M) /\
    levels_ok lv_levels /\ m_template fl_M = stream_template (levels_template lv_levels) /\
    spells_ran fl_M (mkWorld 0 []) fl_spells fl_world /\
    (forall x r at_, In x fl_spells -> In (Event (SAppend r at_)) (history_of x) -> clock_time at_ /\ names_folders fl_M lv_levels r) /\
    good_clock (m_base fl_M) (attempts fl_world) /\
    values_ok lv_levels (lv_values $"ann" $"x") /\
    daily_template (levels_of (lv_values $"ann" $"x") lv_levels) /\ chronological (levels_of (lv_values $"ann" $"x") lv_levels) /\
    reads_log (read_from (puts fl_world)) (puts fl_world) /\
    (forall date, within (2024, 2, 28) (2024, 3, 1) date ->
      clean_folder (day_folder (levels_of (lv_values $"ann" $"x") lv_levels) date) /\
      lists_folder fl_store (puts fl_world) (day_folder (levels_of (lv_values $"ann" $"x") lv_levels) date)) /\
    (forall k, Adapters.proper k (ss_before k)) /\
    forall k date, within (2024, 2, 28) (2024, 3, 1) date ->
      clean_folder (day_folder (levels_of (lv_values $"ann" $"x") lv_levels) date) /\
      listing k [] (range_hours 0 (of_fields 2024 2 28 0 0 0) (of_fields 2024 3 1 12 0 0))
        (day_folder (levels_of (lv_values $"ann" $"x") lv_levels) date) (ss_before k) = [].
  Proof.
    exact (conj fl_settings (conj lv_ok (conj eq_refl (conj fl_ran (conj fl_appends (conj fl_clock (conj lv_values_ok (conj lv_daily
      (conj lv_chronological (conj fl_reads (conj fl_folders (conj ss_proper lv_nothing)))))))))))).
  Qed.
  Example ex_read : fl_read $"ann" $"x"
      = [pair_of 1 $"ann" [$"x"]; pair_of 1 $"ann" [$"x"]; pair_of 3 $"ann" [$"x"; $"y"]; pair_of 5 $"an-n" [$"y"; $"x"]] /\
    In (Raise StorageError) (fst fl_first) /\ In (Raise StorageError) (fst fl_second) /\
    attempts fl_world = 15%nat /\ length (puts fl_world) = 10%nat.
  Proof. exact (conj fl_ann_x (conj (proj1 fl_answers) (conj (proj2 fl_answers) fl_attempts))). Qed.
End Example.
