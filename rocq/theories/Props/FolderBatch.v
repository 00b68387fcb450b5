(** C111: writer, storage and reader together, for datasets without partitions. *)
From Verif.Base Require Import Py Value.
From Verif.Model Require Import Paths Dates Frames ReadRange Cursor Storage Writers Adapters Reader.
From Verif.Model Require Json.
From Verif.Spec Require Import Paths Dates Frames Cursor Json Writers Reader.
From Verif.Spec Require Adapters.
From Verif.Spec Require Import System Unpartitioned.
From Verif.Proofs Require LooseHidden FolderBatch FolderBatchCases ReaderCases RoundTrip.

(** A batch writer with partitions=None (or empty) made at [w], whatever its date, stores records in a format which is read back (C24), on disk, in
    MinIO or in Google Cloud Storage.  It takes any records, some attempts to store fail, it is killed at any point, even within
    an upload ([crashed]).  Then a reader with partitions=[], whatever its dates, over the same storage gives: the records as
    before the batch, if the completion marker was not stored; the records the writer took, in order and each once, if it
    was: of those the filter keeps, the columns it selects.  There is no third possibility.
    What is missing: folders which hold other blobs than those of frames (a batch hides them, see DESIGN.md); a batch
    without records in Google Cloud Storage (its marker is lost, see C66). *)
Theorem unpartitioned_batch_is_read_whole_or_not_at_all_partial :
  forall (parse : str -> result value) (unzstd : str -> result str)
         (other : str -> str -> generator value)
         (fits : value -> Prop) (image : value -> value)
         (columns : value -> result value) (filters : value -> result bool) (c : value -> value) (p : value -> bool)
         (hash : str -> Z) (loads : str -> result cdict)
         (k : kind) (E : setting value) (ext : str) (names : list str) (date w : moment) (rnd ds : str) (i : inner),
    Adapters.folder names ->
    let dataset := join $"/" names in
    let frame := as_at_text w in
    new_frame_id rnd dataset [] w date = Ok ds ->
    inner_filename (s_format E) ext ds = Ok (s_filename E) -> new_inner k (s_format E) ext ds = Ok i ->
    read_as parse unzstd other E (extension (s_format E) ext) fits image ->
    plain ext -> plain (s_node E) -> clean_failures E -> contains $"BACKOUT" (dataset ++ $"/" ++ frame) = false ->
    forall (now start stop : datetime) (slash rnd' : str) (n : nat) (es : list entry)
           (rs : list value) (fs : list bool) (os : list outcome) (st : state (R:=value)) (log' : list (str * str)) (s0 : stored),
    slash = [] \/ slash = $"/" -> (start <= stop)%Z ->
    Adapters.proper k s0 -> NoDup es ->
    (forall name, In name (listing k rnd' (range_hours now start stop) dataset s0) <-> In name (map (name_in dataset) es)) ->
    tidy dataset (live dataset es) -> older_frames (live dataset es) frame ->
    run E (new_writer nothing) (map Append rs ++ map Finalize fs) = (os, st) ->
    good_clock E (attempts (st_world st)) -> crashed (puts (st_world st)) log' ->
    let written := taken E (map Append rs ++ map Finalize fs) os in
    (k = Gcs -> written <> []) -> (forall r, In r written -> fits r /\ applies columns filters c p (image r)) ->
    (exists ops, operations_of E log' ops) /\
    forall ops, operations_of E log' ops ->
    exists i' s1, operate k i (s_node E) ops s0 = Ok (i', s1) /\
      let read s := read_folder parse unzstd other columns filters hash loads k now rnd' (dataset ++ slash) start stop n s in
      ((~ marked (dataset ++ $"/" ++ frame) log' /\ read s1 = read s0) \/
       (marked (dataset ++ $"/" ++ frame) log' /\ read s1 = found written n (filter p (map c (map image written))))).
Proof. exact FolderBatch.folder_batch. Qed.
Print Assumptions unpartitioned_batch_is_read_whole_or_not_at_all_partial.

(** What is missing above is false of the code: a folder with blobs of no frame is read, and once a batch has stored one blob, without
    its marker, nothing of it is. *)
Theorem killed_batch_hides_other_blobs_refuted :
  forall k, FolderBatchCases.loose_after k 0 = Ok [ReaderCases.a_record 9] /\ FolderBatchCases.loose_after k 1 = Raise DataNotFoundError.
Proof. intros k. destruct k; split; vm_compute; reflexivity. Qed.
Print Assumptions killed_batch_hides_other_blobs_refuted.

(** In general, whatever is stored: as soon as there is one blob of a frame below the dataset, complete or not, only blobs
    of frames are read. *)
Theorem frames_hide_other_blobs :
  forall (k : kind) (names : list str) (s : stored) (slash : str) (now : datetime) (rnd : str) (start stop : datetime),
    Adapters.folder names -> Adapters.proper k s -> slash = [] \/ slash = $"/" -> (start <= stop)%Z ->
    let dir := join $"/" names in
    (forall name, stored_below k s dir name -> contains $"/by_" name = false) ->
    (forall name, stored_below k s dir name -> contains $"as_at_" name = true ->
       exists part, In part (split "/"%char name) /\ startswith $"as_at_" part = true) ->
    (exists name, stored_below k s dir name /\ contains $"as_at_" name = true /\ contains $"BACKOUT" name = false) ->
    exists l, list_range None (fun p => listing k rnd (range_hours now start stop) p s) now rnd (reader_dataset (dir ++ slash) []) start stop = Ok l /\
      forall name, In name l -> contains $"as_at_" name = true.
Proof. exact LooseHidden.hidden. Qed.
Print Assumptions frames_hide_other_blobs.

(** *** Examples *)
Import FolderBatchCases.
(** five records of which the last is refused, an attempt to store that fails, and an earlier complete frame *)
Example ex_setting : Adapters.folder names /\
  new_frame_id [] (join $"/" names) [] made (a_day 2024 2 29) = Ok frame_folder /\
  inner_filename (s_format E) $".jsonl" frame_folder = Ok (s_filename E) /\
  (forall k, new_inner k (s_format E) $".jsonl" frame_folder = Ok (new k)) /\
  (forall other, read_as Json.loads ReaderCases.unz other E (extension (s_format E) $".jsonl") distinct_keys (fun r => r)) /\
  plain $".jsonl" /\ plain (s_node E) /\ clean_failures E /\
  join $"/" names = day_root /\ as_at_text made = new_frame /\
  contains $"BACKOUT" (day_root ++ $"/" ++ new_frame) = false.
Proof. exact FolderBatchCases.setting_ok. Qed.
Example ex_before : forall k, Adapters.proper k (before k) /\ NoDup earlier /\
  (forall name, In name (listing k [] (range_hours 0%Z (of_fields 2024 2 29 0 0 0) (of_fields 2024 2 29 23 59 59)) day_root (before k)) <->
                In name (map (name_in day_root) earlier)) /\
  tidy day_root (live day_root earlier) /\ older_frames (live day_root earlier) new_frame.
Proof. exact FolderBatchCases.before_ok. Qed.
Example ex_run : good_clock E (attempts (st_world (snd ran))) /\ crashed log log /\
  taken E (map Append records ++ map Finalize [false]) (fst ran) =
    [ReaderCases.a_record 1; ReaderCases.a_record 2; ReaderCases.a_record 3; ReaderCases.a_record 4] /\
  (forall r, In r [ReaderCases.a_record 1; ReaderCases.a_record 2; ReaderCases.a_record 3; ReaderCases.a_record 4] ->
     distinct_keys r /\ truthy r = true) /\
  forall j, (j <= 3)%nat -> operations_of E (firstn j log) (ops j).
Proof. exact FolderBatchCases.run_ok. Qed.
(** killed after no, one or two blobs: the record of before; after the marker: the four records *)
Example ex_read : forall k, map (after k) [0; 1; 2; 3]%nat =
  [Ok [ReaderCases.a_record 9]; Ok [ReaderCases.a_record 9]; Ok [ReaderCases.a_record 9];
   Ok [ReaderCases.a_record 1; ReaderCases.a_record 2; ReaderCases.a_record 3; ReaderCases.a_record 4]].
Proof. intros k. destruct k; vm_compute; reflexivity. Qed.
Example ex_applies : forall r, applies pass_thru pass_thru_filter (fun r => r) truthy r.
Proof. intros r. apply RoundTrip.plain_fine. Qed.
(** a blob of no frame and one of a frame without a marker *)
Example ex_hidden : forall k, Adapters.proper k (loose_framed k) /\
  (forall name, stored_below k (loose_framed k) $"bucket/set" name -> contains $"/by_" name = false) /\
  (forall name, stored_below k (loose_framed k) $"bucket/set" name -> contains $"as_at_" name = true ->
     exists part, In part (split "/"%char name) /\ startswith $"as_at_" part = true) /\
  (exists name, stored_below k (loose_framed k) $"bucket/set" name /\ contains $"as_at_" name = true /\ contains $"BACKOUT" name = false).
Proof.
  intros k. destruct (loose_framed_ok k) as (A & B & C). split; [exact A|]. split; [|split].
  - intros name H. destruct (B name H) as [<-|[<-|[]]]; vm_compute; reflexivity.
  - intros name H. destruct (B name H) as [<-|[<-|[]]]; [|vm_compute; discriminate].
    intros _. exists $"as_at_20240229-082030". split; [|vm_compute; reflexivity]. vm_compute. right. right. left. reflexivity.
  - exists $"bucket/set/as_at_20240229-082030/100-2.jsonl". split; [exact C|]. split; vm_compute; reflexivity.
Qed.
