(** * C92: streams on disk, in MinIO and in Google Cloud Storage *)
From Verif.Base Require Import Py Value.
From Verif.Model Require Import Paths Dates Frames ReadRange Cursor Storage Writers Stream Adapters Reader.
From Verif.Spec Require Import Paths Dates Json Writers Stream Reader StreamRead.
From Verif.Spec Require Adapters.
From Verif.Spec Require Import System StreamStore.
From Verif.Proofs Require StreamRead StreamStore StreamReadCases StreamStoreCases SessionsCases ReaderCases.
Local Open Scope Z_scope.

(** A stream writer was given records in the order of the clock and finalized; the inner writers of its partitions
    committed its blobs to a file system, to MinIO or to Google Cloud Storage, in which the days to read held nothing.
    That can always be done ([stored_as]); and then a reader of the same storage, with the same template of daily
    partitions which write the year, then the month, then the day, over any range of days, by hour or not, gives the valid records whose append
    returned on these days, in the order of the appends ([found]: DataNotFoundError when there are none).
    Storage that fails is in C103 and C104.  What is missing for all: templates with fields of the record (C98). *)
Theorem stored_stream_is_read_in_order_partial :
  forall (parse : str -> result value) (unzstd : str -> result str) (other : str -> str -> generator value)
         (fits : value -> Prop) (image : value -> value) (V : Type) (M : streaming value V)
         (columns : value -> result value) (filters : value -> result bool) (c : value -> value) (p : value -> bool)
         (k : kind) (hash : str -> Z) (loads : str -> result cdict)
         (t : list seg) (es : list event) (os : list (result nat)) (s : sstate) (s0 : stored)
         (now : datetime) (rnd : str) (y m d hh mm ss y' m' d' hh' mm' ss' : Z) (n : nat),
    stream_settings parse unzstd other fits image M ->
    daily_template t -> chronological t -> proper_template (map Date t) ->
    m_template M = template_text t \/ m_template M = template_text (t ++ hour_folders) ->
    Adapters.proper k s0 ->
    srun M new_stream (es ++ [SFinalize]) = (os, s) ->
    (forall r at_, In (SAppend r at_) es -> clock_time at_) -> in_order es ->
    good_clock (m_base M) (attempts (world_of s)) ->
    valid_date y m d -> valid_time hh mm ss -> valid_date y' m' d' -> valid_time hh' mm' ss' -> 1000 <= y -> y' <= 9999 ->
    let start := of_fields y m d hh mm ss in let stop := of_fields y' m' d' hh' mm' ss' in
    start <= stop ->
    (forall date, within (y, m, d) (y', m', d') date ->
       clean_folder (day_folder t date) /\ listing k rnd (range_hours now start stop) (day_folder t date) s0 = []) ->
    let wanted := accepted_on M (within_days (y, m, d) (y', m', d')) es os in
    (forall r, In r wanted -> fits r /\ applies columns filters c p (image r)) ->
    (exists s1, stored_as k M (partition_written M es) (puts (world_of s)) s0 s1) /\
    forall s1, stored_as k M (partition_written M es) (puts (world_of s)) s0 s1 ->
    records_read (read_selected parse unzstd other columns filters hash loads k now rnd t start stop n s1)
    = found wanted n (filter p (map c (map image wanted))).
Proof.
  intros parse unzstd other fits image V M columns filters c p k hash loads t es os s s0 now rnd y m d hh mm ss y' m' d' hh' mm' ss' n HM DT CH P T.
  exact (StreamStore.stored_either parse unzstd other fits image M columns filters c p k hash loads HM t es os s s0 DT P T CH now rnd y m d hh mm ss y' m' d' hh' mm' ss' n).
Qed.
Print Assumptions stored_stream_is_read_in_order_partial.

(** One day of a stream, with a clock that need not go forward. *)
Theorem stored_stream_day_is_read_partial :
  forall (parse : str -> result value) (unzstd : str -> result str) (other : str -> str -> generator value)
         (fits : value -> Prop) (image : value -> value) (V : Type) (M : streaming value V)
         (columns : value -> result value) (filters : value -> result bool) (c : value -> value) (p : value -> bool)
         (k : kind) (hash : str -> Z) (loads : str -> result cdict)
         (t : list seg) (es : list event) (os : list (result nat)) (s : sstate) (s0 : stored)
         (now : datetime) (rnd : str) (y m d hh mm ss hh' mm' ss' : Z) (n : nat),
    stream_settings parse unzstd other fits image M ->
    daily_template t -> proper_template (map Date t) -> m_template M = template_text t ->
    Adapters.proper k s0 ->
    srun M new_stream (es ++ [SFinalize]) = (os, s) ->
    (forall r at_, In (SAppend r at_) es -> clock_time at_) ->
    good_clock (m_base M) (attempts (world_of s)) ->
    valid_date y m d -> valid_time hh mm ss -> valid_time hh' mm' ss' ->
    let start := of_fields y m d hh mm ss in let stop := of_fields y m d hh' mm' ss' in
    start <= stop -> clean_folder (day_folder t (y, m, d)) ->
    listing k rnd (range_hours now start stop) (day_folder t (y, m, d)) s0 = [] ->
    let wanted := accepted_on M (on_day (y, m, d)) es os in
    (forall r, In r wanted -> fits r /\ applies columns filters c p (image r)) ->
    (exists s1, stored_as k M (partition_written M es) (puts (world_of s)) s0 s1) /\
    forall s1, stored_as k M (partition_written M es) (puts (world_of s)) s0 s1 ->
    records_read (read_selected parse unzstd other columns filters hash loads k now rnd t start stop n s1)
    = found wanted n (filter p (map c (map image wanted))).
Proof.
  intros parse unzstd other fits image V M columns filters c p k hash loads t es os s s0 now rnd y m d hh mm ss hh' mm' ss' n HM DT P T.
  exact (StreamStore.stored_one_day parse unzstd other fits image M columns filters c p k hash loads HM t es os s s0 DT P T now rnd y m d hh mm ss hh' mm' ss' n).
Qed.
Print Assumptions stored_stream_day_is_read_partial.

(** One day to which several stream writers wrote one after the other, each finished or killed: all the records of the day of
    those which finished, and of those which were killed the first ones. *)
Theorem stored_sessions_are_read_partial :
  forall (parse : str -> result value) (unzstd : str -> result str) (other : str -> str -> generator value)
         (fits : value -> Prop) (image : value -> value) (V : Type) (M : streaming value V)
         (columns : value -> result value) (filters : value -> result bool) (c : value -> value) (p : value -> bool)
         (k : kind) (hash : str -> Z) (loads : str -> result cdict),
    stream_settings parse unzstd other fits image M ->
    forall (t : list seg) (xs : list session) (w : world) (s0 : stored),
    daily_template t -> proper_template (map Date t) -> m_template M = template_text t ->
    Adapters.proper k s0 -> sessions_ran M (mkWorld 0 []) xs w ->
    (forall x r at_, In x xs -> In (SAppend r at_) (asked_of x) -> clock_time at_) ->
    good_clock (m_base M) (attempts w) ->
    forall (now : datetime) (rnd : str) (y m d hh mm ss hh' mm' ss' : Z),
    valid_date y m d -> valid_time hh mm ss -> valid_time hh' mm' ss' ->
    let start := of_fields y m d hh mm ss in let stop := of_fields y m d hh' mm' ss' in
    start <= stop -> clean_folder (day_folder t (y, m, d)) ->
    listing k rnd (range_hours now start stop) (day_folder t (y, m, d)) s0 = [] ->
    let written := partition_written M (flat_map asked_of xs) in
    (exists s1, stored_as k M written (puts w) s0 s1) /\
    forall s1, stored_as k M written (puts w) s0 s1 ->
    exists kept, Forall2 (fun x => remains M x (y, m, d)) xs kept /\
    let wanted := concat kept in
    ((forall r, In r wanted -> fits r /\ applies columns filters c p (image r)) ->
     forall n, records_read (read_selected parse unzstd other columns filters hash loads k now rnd t start stop n s1)
               = found wanted n (filter p (map c (map image wanted)))).
Proof. exact (@StreamStore.stored_sessions). Qed.
Print Assumptions stored_sessions_are_read_partial.

(** What is stored besides: nothing else appears or disappears, and every other blob is read as before. *)
Theorem stored_stream_keeps_other_blobs :
  forall (parse : str -> result value) (unzstd : str -> result str) (other : str -> str -> generator value)
         (fits : value -> Prop) (image : value -> value) (V : Type) (M : streaming value V) (k : kind),
    stream_settings parse unzstd other fits image M ->
    forall (t : list seg) (es : list event) (log : list (str * str)) (s0 s1 : stored),
    proper_template (map Date t) ->
    m_template M = template_text t \/ m_template M = template_text (t ++ hour_folders) ->
    Adapters.proper k s0 -> stored_as k M (partition_written M es) log s0 s1 ->
    Adapters.proper k s1 /\
    (forall name, (exists data, Adapters.holds k s1 name data) <-> (exists data, Adapters.holds k s0 name data) \/ In name (map fst log)) /\
    (forall name, (forall stored, In stored (map fst log) -> components_of name <> components_of stored) ->
       get_blob_bytes k name s1 = get_blob_bytes k name s0).
Proof. exact (@StreamStore.stored_others). Qed.
Print Assumptions stored_stream_keeps_other_blobs.

(** The stream of C81, in every kind of storage, which held a blob of another dataset. *)
Section Example.
  Import ReaderCases StreamReadCases StreamStoreCases SessionsCases.
  Example ex_hypotheses : forall k,
    daily_template st_template /\ chronological st_template /\ proper_template (map Date st_template) /\
    (forall other, stream_settings Json.loads unz other distinct_keys (fun r => r) (st_writer st_template)) /\
    m_template (st_writer st_template) = template_text st_template /\
    Adapters.proper k (ss_before k) /\ ss_before k <> [] /\
    (forall r at_, In (SAppend r at_) st_events -> clock_time at_) /\
    good_clock (m_base (st_writer st_template)) (attempts (world_of (snd (st_run st_template)))) /\
    sessions_ran (st_writer st_template) (mkWorld 0 []) se_sessions se_world /\
    forall date, within (2024, 2, 28) (2024, 3, 1) date ->
      clean_folder (day_folder st_template date) /\
      listing k [] (range_hours 0 (of_fields 2024 2 28 0 0 0) (of_fields 2024 3 1 12 0 0)) (day_folder st_template date) (ss_before k) = [].
  Proof.
    intros k. split; [exact st_daily|]. split; [exact st_chronological|]. split; [exact st_proper|].
    split; [intros other; apply st_settings|]. split; [reflexivity|]. split; [apply ss_proper|].
    split; [destruct k; discriminate|]. split; [exact st_clock_times|].
    split; [apply (st_ran _ _ (proj1 st_attempts)); repeat constructor|]. split; [exact se_ran|]. exact (ss_nothing k).
  Qed.
  Example ex_records : forall k, ss_read k st_template = Ok (map a_record [1; 2; 3; 4; 5]) /\
                                 ss_read k (st_template ++ hour_folders) = Ok (map a_record [1; 2; 3; 4; 5]).
  Proof. exact ss_records. Qed.
End Example.
