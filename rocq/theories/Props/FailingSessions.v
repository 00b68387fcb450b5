(** * C104: stream writers one after the other, with storage that fails now and then *)
From Coq Require Import Permutation.
From Verif.Base Require Import Py Value.
From Verif.Model Require Import Paths Dates Frames ReadRange Cursor Storage Writers Stream Adapters Reader Collector.
From Verif.Model Require Json.
From Verif.Spec Require Import Paths Dates Json Writers Stream Reader StreamRead Collector FailingSessions.
From Verif.Spec Require Adapters.
From Verif.Spec Require Import System StreamStore FailingStore.
From Verif.Proofs Require FailingSessions FailingSessionsCases FailingReadCases StreamReadCases StreamStoreCases ReaderCases.
Local Open Scope Z_scope.

(** Any number of stream writers with the same settings wrote one after the other, while the storage failed now and then.
    Each ended well, or was killed before or after any blob was stored, or left records which could not be stored.  A reader
    of a range of days gets of every writer that ended well every record whose append returned on these days, as often as it
    was appended, and possibly some of those whose append raised; and of the others no record more often than it was
    appended ([spell_kept]). *)
Theorem failing_writers_after_each_other :
  forall (parse : str -> result value) (unzstd : str -> result str) (other : str -> str -> generator value)
         (fits : value -> Prop) (image : value -> value) (V : Type) (M : streaming value V),
    failing_settings parse unzstd other fits image M ->
    forall (xs : list spell) (w : world),
    spells_ran M (mkWorld 0 []) xs w ->
    (forall x r at_, In x xs -> In (Event (SAppend r at_)) (history_of x) -> clock_time at_) ->
    good_clock (m_base M) (attempts w) ->
    forall (t : list seg),
    daily_template t -> chronological t -> proper_template (map Date t) ->
    m_template M = template_text t \/ m_template M = template_text (t ++ hour_folders) ->
    forall (now : datetime) (rnd : str) (y m d hh mm ss y' m' d' hh' mm' ss' : Z),
    valid_date y m d -> valid_time hh mm ss -> valid_date y' m' d' -> valid_time hh' mm' ss' -> 1000 <= y -> y' <= 9999 ->
    of_fields y m d hh mm ss <= of_fields y' m' d' hh' mm' ss' ->
    forall (read_blob : str -> result str) (store : str -> list str),
    reads_log read_blob (puts w) ->
    (forall date, within (y, m, d) (y', m', d') date ->
       clean_folder (day_folder t date) /\ lists_folder store (puts w) (day_folder t date)) ->
    exists kept stored, Forall2 (spell_kept M (within_days (y, m, d) (y', m', d'))) xs kept /\ Permutation stored (concat kept) /\
    (forall columns filters c p, (forall r, In r stored -> fits r /\ applies columns filters c p (image r)) ->
     forall hash loads n, gives stored (firstn n (filter p (map c (map image stored)))) (read_records hash loads
       (fun _ => list_range None store now rnd (template_text t ++ $"/") (of_fields y m d hh mm ss) (of_fields y' m' d' hh' mm' ss'))
       0 (blob_records parse unzstd other read_blob columns filters None) NoCursor n)).
Proof. exact (@FailingSessions.spells_read). Qed.
Print Assumptions failing_writers_after_each_other.

(** The same on disk, in MinIO and in Google Cloud Storage, where the days to read held nothing before. *)
Theorem stored_failing_writers_after_each_other :
  forall (parse : str -> result value) (unzstd : str -> result str) (other : str -> str -> generator value)
         (fits : value -> Prop) (image : value -> value) (V : Type) (M : streaming value V),
    failing_settings parse unzstd other fits image M ->
    forall (xs : list spell) (w : world),
    spells_ran M (mkWorld 0 []) xs w ->
    (forall x r at_, In x xs -> In (Event (SAppend r at_)) (history_of x) -> clock_time at_) ->
    good_clock (m_base M) (attempts w) ->
    forall (t : list seg),
    daily_template t -> chronological t -> proper_template (map Date t) ->
    m_template M = template_text t \/ m_template M = template_text (t ++ hour_folders) ->
    forall (now : datetime) (rnd : str) (y m d hh mm ss y' m' d' hh' mm' ss' : Z),
    valid_date y m d -> valid_time hh mm ss -> valid_date y' m' d' -> valid_time hh' mm' ss' -> 1000 <= y -> y' <= 9999 ->
    let start := of_fields y m d hh mm ss in let stop := of_fields y' m' d' hh' mm' ss' in
    start <= stop ->
    forall (k : kind) (s0 : stored),
    Adapters.proper k s0 ->
    (forall date, within (y, m, d) (y', m', d') date ->
       clean_folder (day_folder t date) /\ listing k rnd (range_hours now start stop) (day_folder t date) s0 = []) ->
    let written := partition_appended M (flat_map history_of xs) in
    (exists s1, stored_as k M written (puts w) s0 s1) /\
    forall s1, stored_as k M written (puts w) s0 s1 ->
    exists kept stored, Forall2 (spell_kept M (within_days (y, m, d) (y', m', d'))) xs kept /\ Permutation stored (concat kept) /\
    (forall columns filters c p, (forall r, In r stored -> fits r /\ applies columns filters c p (image r)) ->
     forall hash loads n, records_read (read_selected parse unzstd other columns filters hash loads k now rnd t start stop n s1)
                          = found stored n (filter p (map c (map image stored)))).
Proof.
  intros parse unzstd other fits image V M S xs w RUN HC CL t DT CH P T now rnd y m d hh mm ss y' m' d' hh' mm' ss'
         V1 T1 V2 T2 Y1 Y2 start stop LE k s0 P0 HF written.
  exact (conj (FailingSessions.spells_storable parse unzstd other fits image M S xs w RUN t P T k s0)
              (fun s1 => FailingSessions.spells_stored parse unzstd other fits image M S xs w RUN HC CL t DT CH P T
                 now rnd y m d hh mm ss y' m' d' hh' mm' ss' V1 T1 V2 T2 Y1 Y2 LE k s0 s1 P0 HF)).
Qed.
Print Assumptions stored_failing_writers_after_each_other.

(** The stream of C101: a writer killed after its first blob, then one which failed to store twice and ended well. *)
Section Example.
  Import ReaderCases StreamReadCases StreamStoreCases FailingReadCases FailingSessionsCases.
  Example ex_hypotheses :
    (forall other, failing_settings Json.loads unz other distinct_keys (fun r => r) fx_M) /\
    spells_ran fx_M (mkWorld 0 []) fx_spells fx_world /\
    (forall x r at_, In x fx_spells -> In (Event (SAppend r at_)) (history_of x) -> clock_time at_) /\
    good_clock (m_base fx_M) (attempts fx_world) /\
    daily_template st_template /\ chronological st_template /\ proper_template (map Date st_template) /\
    m_template fx_M = template_text st_template /\
    reads_log (read_from (puts fx_world)) (puts fx_world) /\
    (forall date, within (2024, 2, 28) (2024, 3, 1) date ->
      clean_folder (day_folder st_template date) /\ lists_folder fx_store (puts fx_world) (day_folder st_template date)) /\
    forall k, Adapters.proper k (ss_before k).
  Proof.
    exact (conj (fun other => fr_settings other fx_bad st_template) (conj fx_ran (conj fx_clock_times (conj fx_clock (conj st_daily
      (conj st_chronological (conj st_proper (conj eq_refl (conj fx_reads (conj fx_folders ss_proper)))))))))).
  Qed.
  Example ex_read : fx_read = map a_record [1; 1; 2; 3; 4; 5] /\
    In (Raise StorageError) (fst fx_first) /\ In (Raise StorageError) (fst fx_second) /\
    returned_on fx_M (within_days (2024, 2, 28) (2024, 3, 1)) (fr_history fx_ns) (fst fx_second) = map a_record [1; 2; 3; 4; 5].
  Proof. exact (conj fx_records (conj (proj1 fx_answers) (conj (proj1 (proj2 fx_answers)) fx_returned))). Qed.
End Example.
