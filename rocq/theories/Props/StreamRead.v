(** C81: what a stream writer stored is what a reader reads. *)
From Coq Require Import Sorted.
From Verif.Base Require Import Py Value.
From Verif.Model Require Import Paths Dates Frames ReadRange Cursor Storage Writers Stream Reader.
From Verif.Model Require Json.
From Verif.Spec Require Import Paths Dates Frames Cursor Json Writers Stream Reader StreamRead.
From Verif.Proofs Require StreamRange StreamReadCases ReaderCases RoundTrip.
Local Open Scope Z_scope.

(** a reader without select and filters *)
Theorem nothing_selected : forall r, applies pass_thru pass_thru_filter (fun r => r) truthy r.
Proof. exact RoundTrip.plain_fine. Qed.
Print Assumptions nothing_selected.

(** A stream of records of any number, of any format which is read back (C24), and at any times, with the attendant thread at work in between and
    writers evicted from the pool, then finalized.  A reader of one of its days, with the same template of any
    daily partitions, gives the valid records whose append returned on that day, in the order of the appends:
    none lost, none twice, none of another day.  When there are none, reading raises DataNotFoundError ([gives]).
    With a selection and a filter it gives what they make of these; without
    them, all which are not empty ([nothing_selected], C24).
    With storage that fails it is false; what holds then is C101.  What is missing for all: templates with fields of the record (C90, C98).  For folders that held blobs of writers before: C88. *)
Theorem stream_then_read_day_partial :
  forall (parse : str -> result value) (unzstd : str -> result str)
         (other : str -> str -> generator value) (read_blob : str -> result str)
         (fits : value -> Prop) (image : value -> value)
         (columns : value -> result value) (filters : value -> result bool) (c : value -> value) (p : value -> bool)
         (V : Type) (M : streaming value V) (es : list event) (os : list (result nat)) (s : sstate) (store : str -> list str)
         (t : list seg) (now : datetime) (rnd : str) (y m d hh mm ss hh' mm' ss' : Z)
         (hash : str -> Z) (loads : str -> result cdict) (n : nat),
    stream_settings parse unzstd other fits image M -> stream_ran read_blob M es os s ->
    daily_template t -> proper_template (map Date t) -> m_template M = template_text t ->
    valid_date y m d -> valid_time hh mm ss -> valid_time hh' mm' ss' ->
    of_fields y m d hh mm ss <= of_fields y m d hh' mm' ss' ->
    clean_folder (day_folder t (y, m, d)) -> lists_folder store (puts (world_of s)) (day_folder t (y, m, d)) ->
    let wanted := accepted_on M (on_day (y, m, d)) es os in
    (forall r, In r wanted -> fits r /\ applies columns filters c p (image r)) ->
    gives wanted (firstn n (filter p (map c (map image wanted)))) (read_records hash loads
      (fun _ => list_range None store now rnd (template_text t ++ $"/") (of_fields y m d hh mm ss) (of_fields y m d hh' mm' ss'))
      0 (blob_records parse unzstd other read_blob columns filters None) NoCursor n).
Proof.
  intros parse unzstd other read_blob fits image columns filters c p V M es os s store t now rnd y m d hh mm ss hh' mm' ss' hash loads n S R.
  exact (StreamRange.one_day_read parse unzstd other read_blob fits image M columns filters c p es os s store S R t now rnd y m d hh mm ss hh' mm' ss' hash loads n).
Qed.
Print Assumptions stream_then_read_day_partial.

(** Over a range of days, with any partitions which write the year, then the month, then the day ([chronological]): day after day, and within a day in the order of the
    appends.  The clock of the appends may go back. *)
Theorem stream_then_read_range_partial :
  forall (parse : str -> result value) (unzstd : str -> result str)
         (other : str -> str -> generator value) (read_blob : str -> result str)
         (fits : value -> Prop) (image : value -> value)
         (columns : value -> result value) (filters : value -> result bool) (c : value -> value) (p : value -> bool)
         (V : Type) (M : streaming value V) (es : list event) (os : list (result nat)) (s : sstate) (store : str -> list str)
         (t : list seg) (now : datetime) (rnd : str) (y m d hh mm ss y' m' d' hh' mm' ss' : Z)
         (hash : str -> Z) (loads : str -> result cdict) (n : nat),
    stream_settings parse unzstd other fits image M -> stream_ran read_blob M es os s ->
    daily_template t -> chronological t -> proper_template (map Date t) -> m_template M = template_text t ->
    valid_date y m d -> valid_time hh mm ss -> valid_date y' m' d' -> valid_time hh' mm' ss' -> 1000 <= y -> y' <= 9999 ->
    of_fields y m d hh mm ss <= of_fields y' m' d' hh' mm' ss' ->
    (forall date, within (y, m, d) (y', m', d') date ->
       clean_folder (day_folder t date) /\ lists_folder store (puts (world_of s)) (day_folder t date)) ->
    exists days, consecutive days /\ hd_error days = Some (y, m, d) /\ last days (y', m', d') = (y', m', d') /\
    let wanted := flat_map (fun date => accepted_on M (on_day date) es os) days in
    ((forall r, In r wanted -> fits r /\ applies columns filters c p (image r)) ->
     gives wanted (firstn n (filter p (map c (map image wanted)))) (read_records hash loads
       (fun _ => list_range None store now rnd (template_text t ++ $"/") (of_fields y m d hh mm ss) (of_fields y' m' d' hh' mm' ss'))
       0 (blob_records parse unzstd other read_blob columns filters None) NoCursor n)).
Proof.
  intros parse unzstd other read_blob fits image columns filters c p V M es os s store t now rnd y m d hh mm ss y' m' d' hh' mm' ss' hash loads n S R.
  exact (StreamRange.stream_daily parse unzstd other read_blob fits image M columns filters c p es os s store S R t now rnd y m d hh mm ss y' m' d' hh' mm' ss' hash loads n).
Qed.
Print Assumptions stream_then_read_range_partial.

(** The writer partitions by the hour (by_hour/hour=HH), the reader asks for the days: the hours of each day
    are read one after the other, all of them. *)
Theorem stream_by_hour_then_read_partial :
  forall (parse : str -> result value) (unzstd : str -> result str)
         (other : str -> str -> generator value) (read_blob : str -> result str)
         (fits : value -> Prop) (image : value -> value)
         (columns : value -> result value) (filters : value -> result bool) (c : value -> value) (p : value -> bool)
         (V : Type) (M : streaming value V) (es : list event) (os : list (result nat)) (s : sstate) (store : str -> list str)
         (t : list seg) (now : datetime) (rnd : str) (y m d hh mm ss y' m' d' hh' mm' ss' : Z)
         (hash : str -> Z) (loads : str -> result cdict) (n : nat),
    stream_settings parse unzstd other fits image M -> stream_ran read_blob M es os s ->
    daily_template t -> chronological t -> proper_template (map Date t) -> m_template M = template_text (t ++ hour_folders) ->
    valid_date y m d -> valid_time hh mm ss -> valid_date y' m' d' -> valid_time hh' mm' ss' -> 1000 <= y -> y' <= 9999 ->
    of_fields y m d hh mm ss <= of_fields y' m' d' hh' mm' ss' ->
    (forall date, within (y, m, d) (y', m', d') date ->
       clean_folder (day_folder t date) /\ lists_folder store (puts (world_of s)) (day_folder t date)) ->
    exists days, consecutive days /\ hd_error days = Some (y, m, d) /\ last days (y', m', d') = (y', m', d') /\
    let wanted :=
      flat_map (fun date => flat_map (fun h => accepted_on M (fun at_ => on_day date at_ && in_hour h at_) es os) (seq 0 24)) days in
    ((forall r, In r wanted -> fits r /\ applies columns filters c p (image r)) ->
     gives wanted (firstn n (filter p (map c (map image wanted)))) (read_records hash loads
       (fun _ => list_range None store now rnd (template_text t ++ $"/") (of_fields y m d hh mm ss) (of_fields y' m' d' hh' mm' ss'))
       0 (blob_records parse unzstd other read_blob columns filters None) NoCursor n)).
Proof.
  intros parse unzstd other read_blob fits image columns filters c p V M es os s store t now rnd y m d hh mm ss y' m' d' hh' mm' ss' hash loads n S R.
  exact (StreamRange.stream_hourly parse unzstd other read_blob fits image M columns filters c p es os s store S R t now rnd y m d hh mm ss y' m' d' hh' mm' ss' hash loads n).
Qed.
Print Assumptions stream_by_hour_then_read_partial.

(** With a clock that does not go back, both give the valid records appended on the days of the range, in the
    order of the appends, whichever of the two partitionings the writer used. *)
Theorem stream_then_read_in_order_partial :
  forall (parse : str -> result value) (unzstd : str -> result str)
         (other : str -> str -> generator value) (read_blob : str -> result str)
         (fits : value -> Prop) (image : value -> value)
         (columns : value -> result value) (filters : value -> result bool) (c : value -> value) (p : value -> bool)
         (V : Type) (M : streaming value V) (es : list event) (os : list (result nat)) (s : sstate) (store : str -> list str)
         (t : list seg) (now : datetime) (rnd : str) (y m d hh mm ss y' m' d' hh' mm' ss' : Z)
         (hash : str -> Z) (loads : str -> result cdict) (n : nat),
    stream_settings parse unzstd other fits image M -> stream_ran read_blob M es os s ->
    daily_template t -> chronological t -> proper_template (map Date t) ->
    m_template M = template_text t \/ m_template M = template_text (t ++ hour_folders) -> in_order es ->
    valid_date y m d -> valid_time hh mm ss -> valid_date y' m' d' -> valid_time hh' mm' ss' -> 1000 <= y -> y' <= 9999 ->
    of_fields y m d hh mm ss <= of_fields y' m' d' hh' mm' ss' ->
    (forall date, within (y, m, d) (y', m', d') date ->
       clean_folder (day_folder t date) /\ lists_folder store (puts (world_of s)) (day_folder t date)) ->
    let wanted := accepted_on M (within_days (y, m, d) (y', m', d')) es os in
    (forall r, In r wanted -> fits r /\ applies columns filters c p (image r)) ->
    gives wanted (firstn n (filter p (map c (map image wanted)))) (read_records hash loads
      (fun _ => list_range None store now rnd (template_text t ++ $"/") (of_fields y m d hh mm ss) (of_fields y' m' d' hh' mm' ss'))
      0 (blob_records parse unzstd other read_blob columns filters None) NoCursor n).
Proof.
  intros parse unzstd other read_blob fits image columns filters c p V M es os s store t now rnd y m d hh mm ss y' m' d' hh' mm' ss' hash loads n S R DT CH P [T|T].
  - exact (StreamRange.range_in_order parse unzstd other read_blob fits image M columns filters c p es os s store S R false t now rnd y m d hh mm ss y' m' d' hh' mm' ss' hash loads n DT CH P (eq_trans T (f_equal template_text (eq_sym (app_nil_r t))))).
  - exact (StreamRange.range_in_order parse unzstd other read_blob fits image M columns filters c p es os s store S R true t now rnd y m d hh mm ss y' m' d' hh' mm' ss' hash loads n DT CH P T).
Qed.
Print Assumptions stream_then_read_in_order_partial.

(** A concrete stream: six records and an invalid one on four days, a pool of two writers, three days read. *)
Section Example.
  Import ReaderCases StreamReadCases.
  Example ex_hypotheses :
    daily_template st_template /\ chronological st_template /\ proper_template (map Date st_template) /\
    (forall t, In t [st_template; st_template ++ hour_folders] ->
       (forall other, stream_settings Json.loads unz other distinct_keys (fun r => r) (st_writer t)) /\ m_template (st_writer t) = template_text t /\
       stream_ran (read_from (st_log t)) (st_writer t) st_events (fst (st_run t)) (snd (st_run t)) /\
       forall date, within (2024, 2, 28) (2024, 3, 1) date ->
         clean_folder (day_folder st_template date) /\ lists_folder (st_store t) (st_log t) (day_folder st_template date)) /\
    in_order st_events.
  Proof.
    split; [exact st_daily|]. split; [exact st_chronological|]. split; [exact st_proper|]. split.
    - intros t [<-|[<-|[]]].
      + split; [intros other; apply st_settings|]. split; [reflexivity|]. split; [apply (st_ran _ _ (proj1 st_attempts)); repeat constructor|].
        exact (st_folders _ (proj1 st_distinct)).
      + split; [intros other; apply st_settings|]. split; [reflexivity|]. split; [apply (st_ran _ _ (proj2 st_attempts)); repeat constructor|].
        exact (st_folders _ (proj2 st_distinct)).
    - unfold in_order. cbn [moments st_events].
      repeat (constructor; [|repeat (constructor; [vm_compute; intuition discriminate|]); constructor]). constructor.
  Qed.
  Example ex_read : forall t, In t [st_template; st_template ++ hour_folders] ->
    match read_records (fun _ => 0) (fun _ => Raise ValueError)
      (fun _ => list_range None (st_store t) 0 [] (template_text st_template ++ $"/") (of_fields 2024 2 28 0 0 0) (of_fields 2024 3 1 12 0 0))
      0 (blob_records Json.loads unz no_other (read_from (st_log t)) pass_thru pass_thru_filter None) NoCursor 10
    with Ok (rs, _) => rs | Raise _ => [] end
    = map a_record [1; 2; 3; 4; 5] /\
    accepted_on (st_writer t) (within_days (2024, 2, 28) (2024, 3, 1)) st_events (fst (st_run t)) = map a_record [1; 2; 3; 4; 5].
  Proof. intros t [<-|[<-|[]]]; split; vm_compute; reflexivity. Qed.
  Example ex_read_none : forall t, In t [st_template; st_template ++ hour_folders] ->
    read_records (fun _ => 0) (fun _ => Raise ValueError)
      (fun _ => list_range None (st_store t) 0 [] (template_text st_template ++ $"/") (of_fields 2024 5 1 0 0 0) (of_fields 2024 5 2 12 0 0))
      0 (blob_records Json.loads unz no_other (read_from (st_log t)) pass_thru pass_thru_filter None) NoCursor 10
    = Raise DataNotFoundError /\
    accepted_on (st_writer t) (within_days (2024, 5, 1) (2024, 5, 2)) st_events (fst (st_run t)) = [].
  Proof. intros t [<-|[<-|[]]]; split; vm_compute; reflexivity. Qed.
End Example.
