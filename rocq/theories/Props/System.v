(** C82: writer, storage and reader together. *)
From Verif.Base Require Import Py Value.
From Verif.Model Require Import Paths Dates Frames ReadRange Cursor Storage Writers Adapters Reader.
From Verif.Model Require Json.
From Verif.Spec Require Import Paths Dates Frames Cursor Json Writers Reader.
From Verif.Spec Require Adapters.
From Verif.Spec Require Import System.
From Verif.Proofs Require ReaderDataset SystemBatch SystemCases ReaderCases RoundTrip Repeats RangeDaysCases.

(** A batch writer made at [w] for the day y-m-d with any partitions which name the day stores records in a format which is read
    back (C24: JSON lines, plain or compressed or flattened, and Parquet) on disk, in MinIO or in Google Cloud Storage.  It takes any records, some attempts to store fail, it is killed at any
    point, even within an upload ([crashed]).  Then a reader of any part of that day over the same storage gives:
    the records as before the batch, if the completion marker was not stored; the records the writer took, in order and
    each once, if it was: of those the filter of the reader keeps, the columns it selects (of a reader without them all
    which are not empty, [nothing_selected]).  There is no third possibility, and whatever was stored before under other frames of the day
    (or anywhere else) does not matter.
    [operations_of] relates the log of the writer to the calls of the inner writer, which all succeed here: the failing
    attempts leave nothing in the log.
    A complete batch without records replaces the day by nothing: the reader raises DataNotFoundError ([found]); not in
    Google Cloud Storage, where the marker of such a batch is lost (see C66).
    What is missing for all: folders with by_ partitions. *)
Theorem stored_batch_is_read_whole_or_not_at_all_partial :
  forall (parse : str -> result value) (unzstd : str -> result str)
         (other : str -> str -> generator value)
         (fits : value -> Prop) (image : value -> value)
         (columns : value -> result value) (filters : value -> result bool) (c : value -> value) (p : value -> bool)
         (hash : str -> Z) (loads : str -> result cdict)
         (k : kind) (E : setting value) (ext : str) (names : list str) (folders : list (list seg)) (texts : list str) (y m d : Z) (w : moment) (rnd ds : str) (i : inner),
    folder_names names -> daily_partitions folders -> written_as folders texts ->
    let dataset := join $"/" names in
    let t := dataset_template dataset folders in
    let root := day_folder t (y, m, d) in
    let frame := as_at_text w in
    new_frame_id rnd dataset texts w (a_day y m d) = Ok ds ->
    inner_filename (s_format E) ext ds = Ok (s_filename E) -> new_inner k (s_format E) ext ds = Ok i ->
    read_as parse unzstd other E (extension (s_format E) ext) fits image ->
    plain ext -> plain (s_node E) -> clean_failures E -> contains $"BACKOUT" (root ++ $"/" ++ frame) = false ->
    forall (now : datetime) (hh mm ss hh' mm' ss' : Z) (rnd' : str) (n : nat) (es : list entry)
           (rs : list value) (fs : list bool) (os : list outcome) (st : state (R:=value)) (log' : list (str * str)) (s0 : stored),
    let start := of_fields y m d hh mm ss in
    let stop := of_fields y m d hh' mm' ss' in
    valid_date y m d -> valid_time hh mm ss -> valid_time hh' mm' ss' -> (start <= stop)%Z ->
    Adapters.proper k s0 -> NoDup es ->
    (forall name, In name (listing k rnd' (range_hours now start stop) root s0) <-> In name (map (name_in root) es)) ->
    tidy root (live root es) -> older_frames (live root es) frame ->
    run E (new_writer nothing) (map Append rs ++ map Finalize fs) = (os, st) ->
    good_clock E (attempts (st_world st)) -> crashed (puts (st_world st)) log' ->
    let written := taken E (map Append rs ++ map Finalize fs) os in
    (k = Gcs -> written <> []) -> (forall r, In r written -> fits r /\ applies columns filters c p (image r)) ->
    (exists ops, operations_of E log' ops) /\
    forall ops, operations_of E log' ops ->
    exists i' s1, operate k i (s_node E) ops s0 = Ok (i', s1) /\
      let read s := records_read (read_selected parse unzstd other columns filters hash loads k now rnd' t start stop n s) in
      ((~ marked (root ++ $"/" ++ frame) log' /\ read s1 = read s0) \/
       (marked (root ++ $"/" ++ frame) log' /\ read s1 = found written n (filter p (map c (map image written))))).
Proof. exact SystemBatch.selected_batch. Qed.
Print Assumptions stored_batch_is_read_whole_or_not_at_all_partial.

(** How often a blob is listed does not change what is read from the start: two listings with the same names give the
    same records, for any partition filter, folders and number of records (MinIO lists a blob once for every hour of the
    range).  It does change what a saved cursor means, see cursor_partition_listed_twice. *)
Theorem listing_repetitions_do_not_matter :
  forall (hash : str -> Z) (loads : str -> result cdict) (records : str -> list value)
         (filter : option (str * str * str)) (store1 store2 : str -> list str) (paths : list str) (n : nat),
    (forall p name, In p paths -> (In name (store1 p) <-> In name (store2 p))) ->
    records_read (read_records hash loads (fun _ => get_list_of_blobs filter store1 paths) 0 records NoCursor n) =
    records_read (read_records hash loads (fun _ => get_list_of_blobs filter store2 paths) 0 records NoCursor n).
Proof. exact Repeats.repetitions. Qed.
Print Assumptions listing_repetitions_do_not_matter.

(** The paths a reader with the dataset, with or without a slash at its end, and the partitions looks at are those of the
    theorem above. *)
Theorem reader_looks_below_the_dataset : forall names folders texts slash,
  folder_names names -> daily_partitions folders -> written_as folders texts -> slash = [] \/ slash = $"/" ->
  reader_dataset (join $"/" names ++ slash) texts = template_text (dataset_template (join $"/" names) folders) ++ $"/".
Proof. exact ReaderDataset.reads_below. Qed.
Print Assumptions reader_looks_below_the_dataset.

(** *** Examples *)
Import SystemCases.
(** five records of which the last is refused, an attempt to store that fails, and an earlier complete frame of the day *)
Example ex_setting : folder_names names /\
  new_frame_id [] (join $"/" names) [$"year_{yyyy}/month_{mm}/day_{dd}"] made (a_day 2024 2 29) = Ok frame_folder /\
  inner_filename (s_format E) $".jsonl" frame_folder = Ok (s_filename E) /\
  (forall k, new_inner k (s_format E) $".jsonl" frame_folder = Ok (new k)) /\
  (forall other, read_as Json.loads ReaderCases.unz other E (extension (s_format E) $".jsonl") distinct_keys (fun r => r)) /\
  plain $".jsonl" /\ plain (s_node E) /\ clean_failures E /\
  day_folder (dataset_template (join $"/" names) default_folders) (2024, 2, 29)%Z = day_root /\ as_at_text made = new_frame /\
  contains $"BACKOUT" (day_root ++ $"/" ++ new_frame) = false.
Proof. exact SystemCases.setting_ok. Qed.
(** other partitions: as in datasets written in the old way *)
Example ex_partitions : daily_partitions [[Year]; [Month]; [Day]] /\ written_as [[Year]; [Month]; [Day]] [$"{yyyy}"; $"{mm}/{dd}"] /\
  daily_partitions default_folders /\ written_as default_folders [$"year_{yyyy}/month_{mm}/day_{dd}"] /\
  new_frame_id [] (join $"/" names) [$"{yyyy}"; $"{mm}/{dd}"] made (a_day 2024 2 29) = Ok $"bucket/set/2024/02/29/as_at_20240229-102030/".
Proof.
  destruct (RangeDaysCases.partitions_ok [[Year]; [Month]; [Day]] [$"{yyyy}"; $"{mm}/{dd}"]) as (A & _ & B); [right; left; reflexivity|].
  destruct (RangeDaysCases.partitions_ok default_folders [$"year_{yyyy}/month_{mm}/day_{dd}"]) as (C & _ & D); [left; reflexivity|].
  split; [exact A|split; [exact B|split; [exact C|split; [exact D|reflexivity]]]].
Qed.
Example ex_before : forall k, Adapters.proper k (before k) /\ NoDup earlier /\
  (forall name, In name (listing k [] (range_hours 0%Z (of_fields 2024 2 29 0 0 0) (of_fields 2024 2 29 23 59 59)) day_root (before k)) <->
                In name (map (name_in day_root) earlier)) /\
  tidy day_root (live day_root earlier) /\ older_frames (live day_root earlier) new_frame.
Proof. exact SystemCases.before_ok. Qed.
Example ex_run : good_clock E (attempts (st_world (snd ran))) /\ crashed log log /\
  taken E (map Append records ++ map Finalize [false]) (fst ran) =
    [ReaderCases.a_record 1; ReaderCases.a_record 2; ReaderCases.a_record 3; ReaderCases.a_record 4] /\
  (forall r, In r [ReaderCases.a_record 1; ReaderCases.a_record 2; ReaderCases.a_record 3; ReaderCases.a_record 4] ->
     distinct_keys r /\ truthy r = true) /\
  forall j, (j <= 3)%nat -> operations_of E (firstn j log) (ops j).
Proof. exact SystemCases.run_ok. Qed.
(** killed after no, one or two blobs: the record of before; after the marker: the four records *)
Example ex_read : forall k, map (after k) [0; 1; 2; 3]%nat =
  [Ok [ReaderCases.a_record 9]; Ok [ReaderCases.a_record 9]; Ok [ReaderCases.a_record 9];
   Ok [ReaderCases.a_record 1; ReaderCases.a_record 2; ReaderCases.a_record 3; ReaderCases.a_record 4]].
Proof. intros k. destruct k; vm_compute; reflexivity. Qed.
(** with a selection and a filter *)
Example ex_applies : forall r, In r [ReaderCases.a_record 1; ReaderCases.a_record 2; ReaderCases.a_record 3; ReaderCases.a_record 4] ->
  applies pass_thru pass_thru_filter (fun r => r) truthy r.
Proof. intros r _. apply RoundTrip.plain_fine. Qed.
(** a batch without records: the day is empty afterwards, but not in Google Cloud Storage *)
Example ex_nothing : taken E0 (map Append [] ++ map Finalize [false]) (fst ran0) = [] /\
  marked (day_root ++ $"/" ++ new_frame) (puts (st_world (snd ran0))) /\
  operations_of E0 (puts (st_world (snd ran0))) [StoreMarker 7].
Proof. exact SystemCases.nothing_ok. Qed.
Example ex_read_nothing : map after_nothing [Disk; MinIo; Gcs] =
  [Raise DataNotFoundError; Raise DataNotFoundError; Ok [ReaderCases.a_record 9]].
Proof. vm_compute. reflexivity. Qed.
