(** C84: a range of days is read as its days one after the other. *)
From Verif.Base Require Import Py Value.
From Verif.Model Require Import Paths Dates ReadRange Cursor Storage Adapters Reader.
From Verif.Model Require Json.
From Verif.Spec Require Import Paths Dates Cursor StreamRead.
From Verif.Spec Require Adapters.
From Verif.Spec Require Import System.
From Verif.Proofs Require RangeDays SystemCases ReaderCases RangeDaysCases.

(** Any storage in which the listing of a day's folder has only names below it, any content of the blobs, any partition
    filter: the read from one moment to another gives what the reads of the whole days it touches give, the days in
    order, and finds no data only if none of the days has any.  [days] are all the days between the two.  The partitions are
    folders naming the day, the year before the month before the day. *)
Theorem range_is_read_day_after_day :
  forall (names : list str) (folders : list (list seg)),
  let t := dataset_template (join $"/" names) folders in
  folder_names names -> daily_partitions folders -> chronological t ->
  forall (hash : str -> Z) (loads : str -> result cdict) (records : str -> list value) (n : nat)
         (pf : option (str * str * str)) (now : datetime) (rnd : str) (y m d hh mm ss y' m' d' hh' mm' ss' : Z),
    valid_date y m d -> valid_time hh mm ss -> valid_date y' m' d' -> valid_time hh' mm' ss' ->
    (1000 <= y)%Z -> (y' <= 9999)%Z -> (of_fields y m d hh mm ss <= of_fields y' m' d' hh' mm' ss')%Z ->
    forall (store : str -> list str),
    (forall date b, within (y, m, d) (y', m', d') date -> In b (store (day_folder t date)) ->
       exists rest, b = day_folder t date ++ $"/" ++ rest) ->
    let read a b := records_read (read_records hash loads
      (fun _ => list_range pf store now rnd (template_text t ++ $"/") a b) 0 records NoCursor n) in
    let day date := let '(y, m, d) := date in read (of_fields y m d 0 0 0) (of_fields y m d 23 59 59) in
    let whole := read (of_fields y m d hh mm ss) (of_fields y' m' d' hh' mm' ss') in
    exists days, consecutive days /\ hd_error days = Some (y, m, d) /\ last days (y', m', d') = (y', m', d') /\
    forall parts,
      Forall2 (fun date part => day date = Ok part \/ (day date = Raise DataNotFoundError /\ part = [])) days parts ->
      (Forall (fun date => day date = Raise DataNotFoundError) days -> whole = Raise DataNotFoundError) /\
      (~ Forall (fun date => day date = Raise DataNotFoundError) days -> whole = Ok (firstn n (concat parts))).
Proof. exact RangeDays.range_of_days. Qed.
Print Assumptions range_is_read_day_after_day.

(** The same over the bytes stored on disk, in MinIO or in Google Cloud Storage, with any selection of columns and any
    filter of the reader. *)
Theorem stored_range_is_read_day_after_day :
  forall (parse : str -> result value) (unzstd : str -> result str) (other : str -> str -> generator value)
         (columns : value -> result value) (filters : value -> result bool)
         (hash : str -> Z) (loads : str -> result cdict) (k : kind) (now : datetime) (rnd : str) (names : list str)
         (folders : list (list seg)) (n : nat) (s : stored) (y m d hh mm ss y' m' d' hh' mm' ss' : Z),
    let t := dataset_template (join $"/" names) folders in
    folder_names names -> daily_partitions folders -> chronological t -> Adapters.proper k s ->
    valid_date y m d -> valid_time hh mm ss -> valid_date y' m' d' -> valid_time hh' mm' ss' ->
    (1000 <= y)%Z -> (y' <= 9999)%Z -> (of_fields y m d hh mm ss <= of_fields y' m' d' hh' mm' ss')%Z ->
    let read a b := records_read (read_selected parse unzstd other columns filters hash loads k now rnd t a b n s) in
    let day date := let '(y, m, d) := date in read (of_fields y m d 0 0 0) (of_fields y m d 23 59 59) in
    let whole := read (of_fields y m d hh mm ss) (of_fields y' m' d' hh' mm' ss') in
    exists days, consecutive days /\ hd_error days = Some (y, m, d) /\ last days (y', m', d') = (y', m', d') /\
    forall parts,
      Forall2 (fun date part => day date = Ok part \/ (day date = Raise DataNotFoundError /\ part = [])) days parts ->
      (Forall (fun date => day date = Raise DataNotFoundError) days -> whole = Raise DataNotFoundError) /\
      (~ Forall (fun date => day date = Raise DataNotFoundError) days -> whole = Ok (firstn n (concat parts))).
Proof. exact RangeDays.stored_days. Qed.
Print Assumptions stored_range_is_read_day_after_day.

(** Three days, on each kind of storage: plain blobs on the 28th, nothing on the 1st, a frame on the 29th. *)
Import SystemCases ReaderCases RangeDaysCases.
Example ex_three_days : folder_names names /\
  forall k, Adapters.proper k (days_stored k) /\
    read_days k (of_fields 2024 2 28 0 0 0) (of_fields 2024 2 28 23 59 59) = Ok [a_record 1; a_record 2] /\
    read_days k (of_fields 2024 2 29 0 0 0) (of_fields 2024 2 29 23 59 59) = Ok [a_record 9] /\
    read_days k (of_fields 2024 3 1 0 0 0) (of_fields 2024 3 1 23 59 59) = Raise DataNotFoundError /\
    read_days k (of_fields 2024 2 28 15 0 0) (of_fields 2024 3 1 4 0 0) = Ok [a_record 1; a_record 2; a_record 9].
Proof. exact RangeDaysCases.three_days. Qed.
(** the default partitions, those of datasets written in the old way, a folder for the whole date *)
Example ex_partitions : forall folders texts,
  In (folders, texts) [(default_folders, [$"year_{yyyy}/month_{mm}/day_{dd}"]); ([[Year]; [Month]; [Day]], [$"{yyyy}"; $"{mm}/{dd}"]);
                       ([[Lit $"date_"; Year; Lit $"-"; Month; Lit $"-"; Day]], [$"date_{yyyy}-{mm}-{dd}"])] ->
  daily_partitions folders /\ chronological (dataset_template $"bucket/set" folders) /\ written_as folders texts.
Proof. exact RangeDaysCases.partitions_ok. Qed.

(** Partitions with the day first: the days are read in the order of their folders, the first of March before the 28th of
    February. *)
Theorem day_first_partitions_out_of_order_refuted :
  exists folders, daily_partitions folders /\
  let read a b s := records_read (read_stored Json.loads unz no_other (fun _ => 0%Z) (fun _ => Raise ValueError) Disk 0%Z []
                                    (dataset_template $"bucket/set" folders) a b 10 s) in
  exists s, Adapters.proper Disk s /\
    read (of_fields 2024 2 28 0 0 0) (of_fields 2024 2 28 23 59 59) s = Ok [a_record 1] /\
    read (of_fields 2024 2 29 0 0 0) (of_fields 2024 2 29 23 59 59) s = Raise DataNotFoundError /\
    read (of_fields 2024 3 1 0 0 0) (of_fields 2024 3 1 23 59 59) s = Ok [a_record 2] /\
    read (of_fields 2024 2 28 0 0 0) (of_fields 2024 3 1 23 59 59) s = Ok [a_record 2; a_record 1].
Proof. exact RangeDaysCases.out_of_order. Qed.
Print Assumptions day_first_partitions_out_of_order_refuted.
