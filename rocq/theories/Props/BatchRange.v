(** C85: a batch of one day among other days and datasets. *)
From Verif.Base Require Import Py Value.
From Verif.Model Require Import Paths Dates Frames ReadRange Cursor Storage Writers Adapters Reader.
From Verif.Spec Require Import Paths Dates Frames Cursor Json Writers Reader StreamRead.
From Verif.Spec Require Adapters.
From Verif.Spec Require Import System.
From Verif.Proofs Require BatchRange SystemCases RangeDaysCases ReaderCases.

(** A batch writer as in C82, killed at any point, with any failing attempts.  What any reader gives from any range of
    days of any dataset whose folders are not above the folder of the batch is what it gave before.  Both datasets may
    have any partitions which name the day. *)
Theorem batch_leaves_other_days_and_datasets_alone :
  forall k (E : setting value) ext names folders texts y m d w rnd ds i,
    folder_names names -> daily_partitions folders -> written_as folders texts ->
    let root := day_folder (dataset_template (join $"/" names) folders) (y, m, d) in
    new_frame_id rnd (join $"/" names) texts w (a_day y m d) = Ok ds ->
    inner_filename (s_format E) ext ds = Ok (s_filename E) -> new_inner k (s_format E) ext ds = Ok i ->
    data_file_extension (extension (s_format E) ext) ->
    plain ext -> plain (s_node E) -> clean_failures E -> contains $"BACKOUT" (root ++ $"/" ++ as_at_text w) = false ->
    forall es rs fs os (st : state (R:=value)) log' s0,
    Adapters.proper k s0 -> tidy root (live root es) ->
    run E (new_writer nothing) (map Append rs ++ map Finalize fs) = (os, st) ->
    good_clock E (attempts (st_world st)) -> crashed (puts (st_world st)) log' ->
    (k = Gcs -> taken E (map Append rs ++ map Finalize fs) os <> []) ->
    forall ops i' s1, operations_of E log' ops -> operate k i (s_node E) ops s0 = Ok (i', s1) ->
    forall parse unzstd other columns filters hash loads now rnd' n names2 folders2 y1 m1 d1 hh1 mm1 ss1 y2 m2 d2 hh2 mm2 ss2,
    folder_names names2 -> daily_partitions folders2 -> valid_date y1 m1 d1 -> valid_time hh1 mm1 ss1 -> valid_date y2 m2 d2 -> valid_time hh2 mm2 ss2 ->
    let start := of_fields y1 m1 d1 hh1 mm1 ss1 in
    let stop := of_fields y2 m2 d2 hh2 mm2 ss2 in
    (start <= stop)%Z ->
    let t2 := dataset_template (join $"/" names2) folders2 in
    (forall date, within (y1, m1, d1) (y2, m2, d2) date ->
      startswith (day_folder t2 date ++ $"/") (root ++ $"/" ++ as_at_text w ++ $"/") = false) ->
    let read s := records_read (read_selected parse unzstd other columns filters hash loads k now rnd' t2 start stop n s) in
    read s1 = read s0.
Proof. exact BatchRange.batch_and_others. Qed.
Print Assumptions batch_leaves_other_days_and_datasets_alone.

(** The other days of the same dataset are such folders. *)
Theorem other_days_are_not_above : forall names folders y m d y2 m2 d2 w,
  folder_names names -> daily_partitions folders -> valid_date y m d -> valid_date y2 m2 d2 -> (y2, m2, d2) <> (y, m, d) ->
  let folder date := day_folder (dataset_template (join $"/" names) folders) date in
  startswith (folder (y2, m2, d2) ++ $"/") (folder (y, m, d) ++ $"/" ++ as_at_text w ++ $"/") = false.
Proof. exact BatchRange.other_day. Qed.
Print Assumptions other_days_are_not_above.

(** Every range of days with the day of the batch in it: as long as the completion marker is not stored the range gives
    what it gave before; afterwards the records the writer took, in the place of those of their day.  The parts are what
    the other days give, or nothing where there is no data.
    The partitions write the year before the month and the month before the day ([chronological]); otherwise the days are
    not read in their order.
    What is missing for all is what is missing in C82: folders with by_ partitions, and in Google Cloud Storage a batch
    without records. *)
Theorem batch_changes_its_day_in_every_range_partial :
  forall parse unzstd other fits image columns filters c p hash loads k (E : setting value) ext names folders texts y m d w rnd ds i,
    folder_names names -> daily_partitions folders -> written_as folders texts ->
    let dataset := join $"/" names in
    let t := dataset_template dataset folders in
    chronological t ->
    let root := day_folder t (y, m, d) in
    let frame := as_at_text w in
    new_frame_id rnd dataset texts w (a_day y m d) = Ok ds ->
    inner_filename (s_format E) ext ds = Ok (s_filename E) -> new_inner k (s_format E) ext ds = Ok i ->
    read_as parse unzstd other E (extension (s_format E) ext) fits image ->
    plain ext -> plain (s_node E) -> clean_failures E -> contains $"BACKOUT" (root ++ $"/" ++ frame) = false ->
    forall now rnd' n es rs fs os (st : state (R:=value)) log' s0,
    valid_date y m d -> Adapters.proper k s0 -> NoDup es ->
    (forall name, In name (listing k rnd' (range_hours now (of_fields y m d 0 0 0) (of_fields y m d 23 59 59)) root s0) <->
                  In name (map (name_in root) es)) ->
    tidy root (live root es) -> older_frames (live root es) frame ->
    run E (new_writer nothing) (map Append rs ++ map Finalize fs) = (os, st) ->
    good_clock E (attempts (st_world st)) -> crashed (puts (st_world st)) log' ->
    let written := taken E (map Append rs ++ map Finalize fs) os in
    (k = Gcs -> written <> []) -> (forall r, In r written -> fits r /\ applies columns filters c p (image r)) ->
    forall y1 m1 d1 hh1 mm1 ss1 y2 m2 d2 hh2 mm2 ss2,
    valid_date y1 m1 d1 -> valid_time hh1 mm1 ss1 -> valid_date y2 m2 d2 -> valid_time hh2 mm2 ss2 ->
    (1000 <= y1)%Z -> (y2 <= 9999)%Z ->
    let start := of_fields y1 m1 d1 hh1 mm1 ss1 in
    let stop := of_fields y2 m2 d2 hh2 mm2 ss2 in
    (start <= stop)%Z -> within (y1, m1, d1) (y2, m2, d2) (y, m, d) ->
    forall ops, operations_of E log' ops ->
    exists i' s1, operate k i (s_node E) ops s0 = Ok (i', s1) /\
    let read s a b := records_read (read_selected parse unzstd other columns filters hash loads k now rnd' t a b n s) in
    let day s date := let '(y, m, d) := date in read s (of_fields y m d 0 0 0) (of_fields y m d 23 59 59) in
    exists days, consecutive days /\ hd_error days = Some (y1, m1, d1) /\ last days (y2, m2, d2) = (y2, m2, d2) /\
      (~ marked (root ++ $"/" ++ frame) log' ->
       (forall date, In date days -> day s1 date = day s0 date) /\
       forall parts, Forall2 (fun date part => day s0 date = Ok part \/ (day s0 date = Raise DataNotFoundError /\ part = [])) days parts ->
         read s1 start stop = read s0 start stop) /\
      (marked (root ++ $"/" ++ frame) log' ->
       forall parts, Forall2 (fun date part =>
           (date = (y, m, d) /\ part = filter p (map c (map image written))) \/
           (date <> (y, m, d) /\ (day s0 date = Ok part \/ (day s0 date = Raise DataNotFoundError /\ part = [])))) days parts ->
         let nothing := written = [] /\ (forall date, In date days -> date <> (y, m, d) -> day s0 date = Raise DataNotFoundError) in
         (nothing -> read s1 start stop = Raise DataNotFoundError) /\ (~ nothing -> read s1 start stop = Ok (firstn n (concat parts)))).
Proof. exact BatchRange.batch_in_range. Qed.
Print Assumptions batch_changes_its_day_in_every_range_partial.

(** *** Example *)
Import SystemCases RangeDaysCases ReaderCases.
(** The batch of C82 (see the examples there for the writer's side) for the 29th, over storage with blobs on the 28th too:
    read from the 28th to the 1st, killed after no, one or two blobs, and after the marker. *)
Example ex_before_batch : forall k, Adapters.proper k (days_stored k) /\
  (forall name, In name (listing k [] (range_hours 0%Z (of_fields 2024 2 29 0 0 0) (of_fields 2024 2 29 23 59 59)) day_root (days_stored k)) <->
                In name (map (name_in day_root) earlier)) /\
  within (2024, 2, 28)%Z (2024, 3, 1)%Z (2024, 2, 29)%Z.
Proof. exact RangeDaysCases.days_ok. Qed.
Example ex_batch_range : forall k, map (after_batch k) [0; 1; 2; 3]%nat =
  let old := [a_record 1; a_record 2; a_record 9] in
  [Ok old; Ok old; Ok old; Ok [a_record 1; a_record 2; a_record 1; a_record 2; a_record 3; a_record 4]].
Proof. exact RangeDaysCases.batch_range. Qed.
