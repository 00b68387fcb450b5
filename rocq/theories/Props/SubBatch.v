(** C96: batches for a part of a day. *)
From Coq Require Import Sorted.
From Verif.Base Require Import Py Value.
From Verif.Model Require Import Paths Dates Frames ReadRange Cursor Storage Writers Adapters Reader.
From Verif.Model Require Json.
From Verif.Spec Require Import Paths Dates Frames Cursor Json Writers Reader StreamField StreamRead.
From Verif.Spec Require Adapters.
From Verif.Spec Require Import System StreamStore SubBatch.
From Verif.Proofs Require BatchBeside SubBatchStore SubBatchCases SystemCases ReaderCases.

(** A batch writer whose partitions name the day and then by_<field>/<field>=<fields of the date>, over any storage, killed
    at any point, with any failing attempts, after which a reader of the day with or without a value asked for of the field.
    The live blobs of the day are in frames of such parts, and those of the part of the batch are older ([parts_before]).
    - Another part gives what it gave before.
    - The part of the batch gives what it gave before as long as the completion marker is not stored; afterwards, the
      records the writer took.
    - Before and after, the day gives what its parts give, one after the other. *)
Theorem part_batch_is_all_or_nothing :
  forall parse unzstd other fits image (columns : value -> result value) (filters : value -> result bool) (c : value -> value) (p : value -> bool) hash loads k (E : setting value) ext names folders field sub texts y m d at_ w rnd ds i,
    folder_names names -> daily_partitions folders -> field_name field -> date_fields sub ->
    written_as (folders ++ names_part field sub) texts -> same_day at_ (a_day y m d) ->
    let dataset := join $"/" names in
    let t := dataset_template dataset folders in
    let root := day_folder t (y, m, d) in
    let one := fill sub at_ in
    let frame := as_at_text w in
    let dir := root ++ $"/" ++ part_path field one ++ $"/" ++ frame in
    new_frame_id rnd dataset texts w at_ = Ok ds ->
    inner_filename (s_format E) ext ds = Ok (s_filename E) -> new_inner k (s_format E) ext ds = Ok i ->
    read_as parse unzstd other E (extension (s_format E) ext) fits image ->
    plain ext -> plain (s_node E) -> clean_failures E -> contains $"BACKOUT" dir = false ->
    (forall c, In c (split "/"%char root) -> endswith ($"by_" ++ field) c = false) ->
    forall now hh mm ss hh' mm' ss' rnd' n es rs fs os (st : state (R:=value)) log' s0,
    let start := of_fields y m d hh mm ss in
    let stop := of_fields y m d hh' mm' ss' in
    valid_date y m d -> valid_time hh mm ss -> valid_time hh' mm' ss' -> (start <= stop)%Z ->
    Adapters.proper k s0 -> NoDup es ->
    (forall name, In name (listing k rnd' (range_hours now start stop) root s0) <-> In name (map (name_in root) es)) ->
    tidy root (live root es) -> parts_before (live root es) field one frame ->
    run E (new_writer nothing) (map Append rs ++ map Finalize fs) = (os, st) ->
    good_clock E (attempts (st_world st)) -> crashed (puts (st_world st)) log' ->
    let records := taken E (map Append rs ++ map Finalize fs) os in
    (k = Gcs -> records <> []) -> (forall r, In r records -> fits r /\ applies columns filters c p (image r)) ->
    (exists ops, operations_of E log' ops) /\
    forall ops, operations_of E log' ops ->
    exists i' s1, operate k i (s_node E) ops s0 = Ok (i', s1) /\
      let read a s := records_read (read_asked parse unzstd other columns filters hash loads k now rnd' t a start stop n s) in
      let part_of v s := read (Some (field, $"=", v)) s in
      let none s v := part_of v s = Raise DataNotFoundError in
      (forall v, kept_whole v -> v <> one -> part_of v s1 = part_of v s0) /\
      (~ marked dir log' -> part_of one s1 = part_of one s0) /\
      (marked dir log' -> part_of one s1 = found records n (filter p (map c (map image records)))) /\
      forall s values parts, s = s0 \/ s = s1 -> StronglySorted (fun a b => str_ltb a b = true) values ->
        (forall v, In v values -> kept_whole v /\ length v = length one) -> In one values ->
        (forall e v, live root es e -> e_by e = Some (part field v) -> In v values) ->
        Forall2 (fun v rows => part_of v s = Ok rows \/ (none s v /\ rows = [])) values parts ->
        (Forall (none s) values -> read None s = Raise DataNotFoundError) /\
        (~ Forall (none s) values -> read None s = Ok (firstn n (concat parts))).
Proof. exact SubBatchStore.part_batch. Qed.
Print Assumptions part_batch_is_all_or_nothing.

(** What any reader gives from any range of days of any dataset whose folders are not above the folder of the batch is
    what it gave before. *)
Theorem part_batch_leaves_other_days_and_datasets_alone :
  forall k (E : setting value) ext names folders field sub texts y m d at_ w rnd ds i,
    folder_names names -> daily_partitions folders -> field_name field -> date_fields sub ->
    written_as (folders ++ names_part field sub) texts -> same_day at_ (a_day y m d) ->
    let root := day_folder (dataset_template (join $"/" names) folders) (y, m, d) in
    let dir := root ++ $"/" ++ part_path field (fill sub at_) ++ $"/" ++ as_at_text w in
    new_frame_id rnd (join $"/" names) texts w at_ = Ok ds ->
    inner_filename (s_format E) ext ds = Ok (s_filename E) -> new_inner k (s_format E) ext ds = Ok i ->
    data_file_extension (extension (s_format E) ext) ->
    plain ext -> plain (s_node E) -> clean_failures E ->
    forall rs fs os (st : state (R:=value)) log' s0,
    Adapters.proper k s0 ->
    run E (new_writer nothing) (map Append rs ++ map Finalize fs) = (os, st) ->
    good_clock E (attempts (st_world st)) -> crashed (puts (st_world st)) log' ->
    (k = Gcs -> taken E (map Append rs ++ map Finalize fs) os <> []) ->
    forall ops i' s1, operations_of E log' ops -> operate k i (s_node E) ops s0 = Ok (i', s1) ->
    forall parse unzstd other columns filters hash loads now rnd' n names2 folders2 y1 m1 d1 hh1 mm1 ss1 y2 m2 d2 hh2 mm2 ss2,
    folder_names names2 -> daily_partitions folders2 -> valid_date y1 m1 d1 -> valid_time hh1 mm1 ss1 -> valid_date y2 m2 d2 -> valid_time hh2 mm2 ss2 ->
    let start := of_fields y1 m1 d1 hh1 mm1 ss1 in
    let stop := of_fields y2 m2 d2 hh2 mm2 ss2 in
    (start <= stop)%Z ->
    let t2 := dataset_template (join $"/" names2) folders2 in
    (forall date, within (y1, m1, d1) (y2, m2, d2) date -> startswith (day_folder t2 date ++ $"/") (dir ++ $"/") = false) ->
    let read s := records_read (read_selected parse unzstd other columns filters hash loads k now rnd' t2 start stop n s) in
    read s1 = read s0.
Proof. exact SubBatchStore.part_and_others. Qed.
Print Assumptions part_batch_leaves_other_days_and_datasets_alone.

(** The other days of the same dataset are such folders. *)
Theorem other_days_are_not_above_parts : forall names folders field sub y m d at_ y2 m2 d2 w, folder_names names -> daily_partitions folders ->
  valid_date y m d -> valid_date y2 m2 d2 -> (y2, m2, d2) <> (y, m, d) ->
  let folder date := day_folder (dataset_template (join $"/" names) folders) date in
  startswith (folder (y2, m2, d2) ++ $"/") ((folder (y, m, d) ++ $"/" ++ part_path field (fill sub at_) ++ $"/" ++ as_at_text w) ++ $"/") = false.
Proof. exact SubBatchStore.part_other_day. Qed.
Print Assumptions other_days_are_not_above_parts.

(** A batch for the whole day beside parts: once the day has live data in any by_ folder, a batch for the day which is in no
    part changes nothing of what is read of the day, whatever the reader asks for, killed or complete: a complete batch is
    never read (C82). *)
Theorem batch_beside_parts_is_not_read :
  forall k (E : setting value) ext names folders texts y m d w rnd ds i,
    folder_names names -> daily_partitions folders -> written_as folders texts ->
    let t := dataset_template (join $"/" names) folders in
    let root := day_folder t (y, m, d) in
    new_frame_id rnd (join $"/" names) texts w (a_day y m d) = Ok ds ->
    inner_filename (s_format E) ext ds = Ok (s_filename E) -> new_inner k (s_format E) ext ds = Ok i ->
    data_file_extension (extension (s_format E) ext) ->
    plain ext -> plain (s_node E) -> clean_failures E -> contains $"BACKOUT" (root ++ $"/" ++ as_at_text w) = false ->
    forall now hh mm ss hh' mm' ss' rnd' es rs fs os (st : state (R:=value)) log' s0,
    let start := of_fields y m d hh mm ss in
    let stop := of_fields y m d hh' mm' ss' in
    valid_date y m d -> valid_time hh mm ss -> valid_time hh' mm' ss' -> (start <= stop)%Z ->
    Adapters.proper k s0 ->
    (forall name, In name (listing k rnd' (range_hours now start stop) root s0) <-> In name (map (name_in root) es)) ->
    tidy root (live root es) -> (exists e, live root es e /\ e_by e <> None) ->
    run E (new_writer nothing) (map Append rs ++ map Finalize fs) = (os, st) ->
    good_clock E (attempts (st_world st)) -> crashed (puts (st_world st)) log' ->
    (k = Gcs -> taken E (map Append rs ++ map Finalize fs) os <> []) ->
    (exists ops, operations_of E log' ops) /\
    forall ops, operations_of E log' ops ->
    exists i' s1, operate k i (s_node E) ops s0 = Ok (i', s1) /\
      forall parse unzstd other columns filters hash loads asked n,
      let read s := records_read (read_asked parse unzstd other columns filters hash loads k now rnd' t asked start stop n s) in
      read s1 = read s0.
Proof. exact BatchBeside.batch_beside_parts. Qed.
Print Assumptions batch_beside_parts_is_not_read.

Import SystemCases SubBatchCases ReaderCases.
(** Without the condition on what is there before, a killed batch is not without effect: the data of a day which is in no
    part is not read any more once a batch for a part has stored its first blob. *)
Theorem killed_part_batch_hides_the_day_refuted :
  exists j, (j < length log_hour)%nat /\ crashed log_hour (firstn j log_hour) /\
    ~ marked (day_root ++ $"/" ++ part_path $"hour" $"10" ++ $"/" ++ new_frame) (firstn j log_hour) /\
    forall k, after_hour_on_day k 0 = Ok [a_record 9] /\ after_hour_on_day k j = Raise DataNotFoundError.
Proof. exact SubBatchCases.hidden. Qed.
Print Assumptions killed_part_batch_hides_the_day_refuted.

(** *** Example *)
(** A batch for the hour from ten of a day with frames for the hours from nine and ten, killed after no, one or two blobs
    and after the marker. *)
Example ex_hour_setting :
  field_name $"hour" /\ date_fields [Hour] /\ written_as (default_folders ++ names_part $"hour" [Hour]) hour_texts /\ same_day batch_date (a_day 2024 2 29) /\
  new_frame_id [] (join $"/" names) hour_texts made batch_date = Ok hour_folder /\
  inner_filename (s_format EH) $".jsonl" hour_folder = Ok (s_filename EH) /\
  (forall k, new_inner k (s_format EH) $".jsonl" hour_folder = Ok (new_hour k)) /\
  (forall other, read_as Json.loads unz other EH (extension (s_format EH) $".jsonl") distinct_keys (fun r => r)) /\
  plain (s_node EH) /\ clean_failures EH /\ fill [Hour] batch_date = $"10" /\
  contains $"BACKOUT" (day_root ++ $"/" ++ part_path $"hour" $"10" ++ $"/" ++ new_frame) = false /\
  (forall c, In c (split "/"%char day_root) -> endswith ($"by_" ++ $"hour") c = false).
Proof. exact SubBatchCases.hour_setting_ok. Qed.
Example ex_hours_before : forall k, Adapters.proper k (before_hours k) /\ NoDup hours_before /\
  (forall name, In name (listing k [] (range_hours 0%Z (of_fields 2024 2 29 0 0 0) (of_fields 2024 2 29 23 59 59)) day_root (before_hours k)) <->
                In name (map (name_in day_root) hours_before)) /\
  tidy day_root (live day_root hours_before) /\ parts_before (live day_root hours_before) $"hour" $"10" new_frame.
Proof. exact SubBatchCases.hours_before_ok. Qed.
Example ex_hour_results : forall k,
  map (after_hour k (Some ($"hour", $"=", $"10"))) [0; 1; 2; 3]%nat =
    [Ok [a_record 9]; Ok [a_record 9]; Ok [a_record 9]; Ok [a_record 1; a_record 2; a_record 3; a_record 4]] /\
  map (after_hour k (Some ($"hour", $"=", $"09"))) [0; 1; 2; 3]%nat = [Ok [a_record 8]; Ok [a_record 8]; Ok [a_record 8]; Ok [a_record 8]] /\
  map (after_hour k None) [0; 1; 2; 3]%nat =
    [Ok [a_record 8; a_record 9]; Ok [a_record 8; a_record 9]; Ok [a_record 8; a_record 9]; Ok [a_record 8; a_record 1; a_record 2; a_record 3; a_record 4]].
Proof. exact SubBatchCases.hour_results. Qed.
(** The batch of C82's example over the day with parts by hour: complete after three operations, and not read. *)
Example ex_beside_parts : (exists e, live day_root hours_before e /\ e_by e <> None) /\
  marked (day_root ++ $"/" ++ new_frame) (firstn 3 log) /\
  forall k, map (fun j => let* (_, s) := operate k (new k) $"1f" (ops j) (before_hours k) in read_hour k None s) [0; 1; 2; 3]%nat =
    [Ok [a_record 8; a_record 9]; Ok [a_record 8; a_record 9]; Ok [a_record 8; a_record 9]; Ok [a_record 8; a_record 9]].
Proof.
  split; [|split].
  - exists (mkEntry (Some (part $"hour" $"09")) (Some old_frame) $"frame.complete"). split; [|discriminate].
    split; [right; left; reflexivity|vm_compute; reflexivity].
  - vm_compute. auto.
  - intros k. destruct k; vm_compute; reflexivity.
Qed.
