(** C88: stream writers one after the other over the same storage, some of them killed. *)
From Verif.Base Require Import Py Value.
From Verif.Model Require Import Paths Dates Frames ReadRange Cursor Storage Writers Stream Reader.
From Verif.Model Require Json.
From Verif.Spec Require Import Paths Dates Frames Cursor Json Writers Stream Reader StreamRead.
From Verif.Proofs Require Sessions SessionsCases StreamReadCases ReaderCases RoundTrip.
Local Open Scope Z_scope.

(** Any number of stream writers of a format which is read back (C24), each started when the one before has ended: by its finalize or killed, at any
    point.  A reader of one day, with the same template of any daily partitions, gives the writers' records of that day,
    one writer after the other: all records a finished writer accepted, the first ones a killed writer accepted.
    Storage that fails is in C104.  What is missing for all: templates with fields of the record (these are in C98). *)
Theorem writers_after_each_other_day_partial :
  forall (parse : str -> result value) (unzstd : str -> result str)
         (other : str -> str -> generator value) (read_blob : str -> result str)
         (fits : value -> Prop) (image : value -> value)
         (V : Type) (M : streaming value V)
         (columns : value -> result value) (filters : value -> result bool) (c : value -> value) (p : value -> bool)
         (xs : list session) (w : world) (store : str -> list str),
    stream_settings parse unzstd other fits image M ->
    sessions_ran M (mkWorld 0 []) xs w ->
    (forall x r at_, In x xs -> In (SAppend r at_) (asked_of x) -> clock_time at_) ->
    good_clock (m_base M) (attempts w) -> reads_log read_blob (puts w) ->
    forall (t : list seg) (now : datetime) (rnd : str) (y m d hh mm ss hh' mm' ss' : Z),
    daily_template t -> proper_template (map Date t) -> m_template M = template_text t ->
    valid_date y m d -> valid_time hh mm ss -> valid_time hh' mm' ss' ->
    of_fields y m d hh mm ss <= of_fields y m d hh' mm' ss' ->
    clean_folder (day_folder t (y, m, d)) -> lists_folder store (puts w) (day_folder t (y, m, d)) ->
    exists kept, Forall2 (fun x => remains M x (y, m, d)) xs kept /\
    let wanted := concat kept in
    ((forall r, In r wanted -> fits r /\ applies columns filters c p (image r)) ->
     forall hash loads n, gives wanted (firstn n (filter p (map c (map image wanted)))) (read_records hash loads
       (fun _ => list_range None store now rnd (template_text t ++ $"/") (of_fields y m d hh mm ss) (of_fields y m d hh' mm' ss'))
       0 (blob_records parse unzstd other read_blob columns filters None) NoCursor n)).
Proof. exact (@Sessions.sessions_one_day). Qed.
Print Assumptions writers_after_each_other_day_partial.

(** Over a range of days, with any partitions which write the year, then the month, then the day: day after day, within a day one writer after the other. *)
Theorem writers_after_each_other_range_partial :
  forall (parse : str -> result value) (unzstd : str -> result str)
         (other : str -> str -> generator value) (read_blob : str -> result str)
         (fits : value -> Prop) (image : value -> value)
         (V : Type) (M : streaming value V)
         (columns : value -> result value) (filters : value -> result bool) (c : value -> value) (p : value -> bool)
         (xs : list session) (w : world) (store : str -> list str),
    stream_settings parse unzstd other fits image M ->
    sessions_ran M (mkWorld 0 []) xs w ->
    (forall x r at_, In x xs -> In (SAppend r at_) (asked_of x) -> clock_time at_) ->
    good_clock (m_base M) (attempts w) -> reads_log read_blob (puts w) ->
    forall (t : list seg) (now : datetime) (rnd : str) (y m d hh mm ss y' m' d' hh' mm' ss' : Z),
    daily_template t -> chronological t -> proper_template (map Date t) -> m_template M = template_text t ->
    valid_date y m d -> valid_time hh mm ss -> valid_date y' m' d' -> valid_time hh' mm' ss' -> 1000 <= y -> y' <= 9999 ->
    of_fields y m d hh mm ss <= of_fields y' m' d' hh' mm' ss' ->
    (forall date, within (y, m, d) (y', m', d') date ->
       clean_folder (day_folder t date) /\ lists_folder store (puts w) (day_folder t date)) ->
    exists days kept, consecutive days /\ hd_error days = Some (y, m, d) /\ last days (y', m', d') = (y', m', d') /\
    Forall2 (fun x of_day => forall date, In date days -> remains M x date (of_day date)) xs kept /\
    let wanted := flat_map (fun date => flat_map (fun of_day => of_day date) kept) days in
    ((forall r, In r wanted -> fits r /\ applies columns filters c p (image r)) ->
     forall hash loads n, gives wanted (firstn n (filter p (map c (map image wanted)))) (read_records hash loads
       (fun _ => list_range None store now rnd (template_text t ++ $"/") (of_fields y m d hh mm ss) (of_fields y' m' d' hh' mm' ss'))
       0 (blob_records parse unzstd other read_blob columns filters None) NoCursor n)).
Proof. exact (@Sessions.sessions_ordered). Qed.
Print Assumptions writers_after_each_other_range_partial.

(** A writer killed after two of its blobs, then one which is given the same records and runs to its end. *)
Section Example.
  Import ReaderCases StreamReadCases SessionsCases.
  Example ex_hypotheses :
    daily_template st_template /\ proper_template (map Date st_template) /\
    (forall other, stream_settings Json.loads unz other distinct_keys (fun r => r) (st_writer st_template)) /\ m_template (st_writer st_template) = template_text st_template /\
    sessions_ran (st_writer st_template) (mkWorld 0 []) se_sessions se_world /\
    (forall x r at_, In x se_sessions -> In (SAppend r at_) (asked_of x) -> clock_time at_) /\
    good_clock (m_base (st_writer st_template)) (attempts se_world) /\ reads_log (read_from (puts se_world)) (puts se_world) /\
    (forall date, within (2024, 2, 28) (2024, 3, 1) date ->
       clean_folder (day_folder st_template date) /\ lists_folder se_store (puts se_world) (day_folder st_template date)).
  Proof.
    split; [exact st_daily|]. split; [exact st_proper|].
    split; [intros other; apply st_settings|]. split; [reflexivity|]. split; [exact se_ran|]. split; [exact se_clock_times|].
    split; [exact se_good_clock|]. split; [exact se_reads|exact se_folders].
  Qed.
  Example ex_read :
    match read_records (fun _ => 0) (fun _ => Raise ValueError)
      (fun _ => list_range None se_store 0 [] (template_text st_template ++ $"/") (of_fields 2024 2 28 0 0 0) (of_fields 2024 3 1 12 0 0))
      0 (blob_records Json.loads unz no_other (read_from (puts se_world)) pass_thru pass_thru_filter None) NoCursor 20
    with Ok (rs, _) => rs | Raise _ => [] end
    = map a_record [1; 1; 2; 3; 2; 3; 4; 5].
  Proof. vm_compute. reflexivity. Qed.
End Example.
