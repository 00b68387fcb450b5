(** C65, C66: storage adapters (disk, MinIO, Google Cloud Storage). *)
From Verif.Base Require Import Py.
From Verif.Model Require Import Paths Writers Adapters Dates ReadRange.
From Verif.Spec Require Import Paths Adapters.
From Verif.Proofs Require AdaptersUse.

(** C65.  What a reader lists for a folder is exactly what is stored in the folder or below it, once
    each on disk and in Google Cloud Storage.  ([holds]: Spec/Adapters.v; keys ending in "/" are the
    folder markers of object stores.) *)
Theorem listing_is_the_folder_partial :
  forall (k : kind) (rnd : str) (hours : list moment) (cs : list str) (s : stored),
    folder cs -> proper k s -> (k = MinIo -> hours <> []) ->
    exists out, get_blobs_at_path k rnd hours (join $"/" cs) s = Ok out /\
      (forall n, In n out <->
         startswith (join $"/" cs ++ $"/") n = true /\ endswith $"/" n = false /\ exists data, holds k s n data) /\
      (k <> MinIo -> NoDup out).
Proof. exact AdaptersUse.listed_folder. Qed.
Print Assumptions listing_is_the_folder_partial.

(** C65.  Blobs committed (each at its own time) by a writer of the folder: all are then listed, and
    nothing else is new; each reads back as committed; every other blob reads as before. *)
Theorem committed_blobs_are_read_back_partial :
  forall (k : kind) (f : format) (ext node ds rnd b : str) (fs : list str) (hours : list moment),
    folder (b :: fs) -> relative ds -> components_of ds = b :: fs -> fit_names f ext node ->
    (k = MinIo -> hours <> []) ->
    forall (blobs : list (N * str)) (s : stored),
    proper k s -> NoDup (map fst blobs) ->
    let base := join $"/" (b :: fs) in
    let name t := base ++ $"/" ++ blob_file f ext node t in
    exists i i' s' before after,
      new_inner k f ext ds = Ok i /\ commit_all k i node blobs s = Ok (i', s') /\ proper k s' /\
      get_blobs_at_path k rnd hours base s = Ok before /\ get_blobs_at_path k rnd hours base s' = Ok after /\
      (forall n, In n after <-> In n before \/ exists t data, In (t, data) blobs /\ n = name t) /\
      (forall t data, In (t, data) blobs -> get_blob_bytes k (name t) s' = Ok data) /\
      (forall n, (forall t data, In (t, data) blobs -> components_of n <> components_of (name t)) ->
                 get_blob_bytes k n s' = get_blob_bytes k n s) /\
      (k <> MinIo -> NoDup after).
Proof. exact AdaptersUse.commits_found. Qed.
Print Assumptions committed_blobs_are_read_back_partial.

(** a dataset folder, a parquet writer, and storage that already holds something *)
Definition ex_cs : list str := [$"bucket"; $"set"; $"year_2024"; $"day_01"].
Example ex_folder : folder ex_cs /\ relative $"bucket//set/year_2024/day_01/" /\
  components_of $"bucket//set/year_2024/day_01/" = ex_cs /\ fit_names Parquet $".jsonl" $"ab-1f".
Proof.
  split; [|split; [|split]].
  - split; [vm_compute; repeat constructor|]. split; [|cbv; intuition discriminate].
    intros c H. repeat (destruct H as [<-|H]); try destruct H; repeat split; try discriminate; cbv; intuition discriminate.
  - discriminate.
  - vm_compute. reflexivity.
  - split; [cbv; intuition discriminate|]. split; [cbv; intuition discriminate|].
    split; [split; cbv; intuition discriminate|].
    exists $".jsonl", $"parquet". split; [reflexivity|]. split; [discriminate|]. cbv. intuition discriminate.
Qed.
Definition ex_gcs : stored :=
  [($"bucket", $"set/year_2024/day_01/a.txt", $"A"); ($"bucket", $"set/year_2024/day_02/b.txt", $"B")].
Example ex_commits : proper Gcs ex_gcs /\
  (let* i := new_inner Gcs Parquet $".jsonl" (join $"/" ex_cs) in
   let* (_, s) := commit_all Gcs i $"ab-1f" [(255%N, $"one"); (256%N, $"two")] ex_gcs in
   let* l := get_blobs_at_path Gcs [] [] (join $"/" ex_cs) s in
   let* d := mapM (fun n => get_blob_bytes Gcs n s) l in Ok (combine l d))
  = Ok [($"bucket/set/year_2024/day_01/100-ab-1f.jsonl.parquet", $"two");
        ($"bucket/set/year_2024/day_01/ff-ab-1f.jsonl.parquet", $"one");
        ($"bucket/set/year_2024/day_01/a.txt", $"A")].
Proof.
  split; [|vm_compute; reflexivity]. split.
  - repeat constructor; cbn [map fst In]; intuition discriminate.
  - intros p v H. repeat (destruct H as [H|H]; [injection H as <- _; repeat split; try discriminate; cbv; intuition discriminate|]).
    destruct H.
Qed.

(** Finding: MinIO lists a folder once for every hour of the reader's range, so every blob of it
    comes that many times. *)
Theorem minio_lists_once_per_hour :
  forall (rnd : str) (cs : list str) (hours : list moment) (s : stored),
    folder cs -> exists once,
      get_blobs_at_path Gcs rnd hours (join $"/" cs) s = Ok once /\
      get_blobs_at_path MinIo rnd hours (join $"/" cs) s = Ok (concat (repeat once (length hours))).
Proof. exact AdaptersUse.minio_repeats. Qed.
Print Assumptions minio_lists_once_per_hour.

(** ... and the list of blobs has the repetitions: for two hours of one day of MinIO the day's only blob is in it twice.
    A serial read from the start skips them (C04); the worker processes read the blob twice (C26), and a saved cursor
    restarts it (cursor_partition_listed_twice). *)
Theorem listed_once_refuted :
  exists (s : stored) (start stop : datetime) (hours : list moment),
    proper MinIo s /\
    date_range stop (BDatetime start) (BDatetime stop) = Ok [start; stop] /\ hours = map fields_of [start; stop] /\
    list_range None
      (fun p => match get_blobs_at_path MinIo [] hours p s with Ok l => l | Raise _ => [] end)
      stop [] $"bucket/set/day_{dd}/" start stop
    = Ok [$"bucket/set/day_01/a.jsonl"; $"bucket/set/day_01/a.jsonl"].
Proof.
  exists [($"bucket", $"set/day_01/a.jsonl", $"{}")], (of_fields 2024 1 1 0 0 0), (of_fields 2024 1 1 1 0 0).
  eexists. split; [|split; [vm_compute; reflexivity|split; [reflexivity|vm_compute; reflexivity]]]. split.
  - repeat constructor. intros [].
  - intros p v [H|[]]. injection H as <- _. repeat split; try discriminate; cbv; intuition discriminate.
Qed.
Print Assumptions listed_once_refuted.

(** Finding: an object without an extension is listed but cannot be read, whatever it holds (a
    writer stores such blobs if it is given an empty extension). *)
Theorem without_extension_never_read :
  forall (k : kind) (n : str) (s : stored),
    k <> Disk -> relative n -> (2 <= length (components_of n))%nat -> no_extension (last (components_of n) []) ->
    get_blob_bytes k n s = Raise TypeError.
Proof. exact AdaptersUse.no_extension_unreadable. Qed.
Print Assumptions without_extension_never_read.

Theorem committed_blobs_are_read_back_refuted :
  exists (k : kind) (ds : str) (s : stored) (n : str),
    (let* i := new_inner k Jsonl [] ds in let* (_, s) := commit_all k i $"ab-1f" [(255%N, $"data")] [] in Ok s) = Ok s /\
    get_blobs_at_path k [] [] ds s = Ok [n] /\ get_blob_bytes k n s = Raise TypeError.
Proof.
  exists Gcs, $"bucket/set". do 2 eexists. split; [vm_compute; reflexivity|]. split; vm_compute; reflexivity.
Qed.
Print Assumptions committed_blobs_are_read_back_refuted.

(** C66.  The completion marker of a batch is then listed in the batch's folder, is empty, and leaves
    everything else as it was; in Google Cloud Storage provided at least one blob was committed. *)
Theorem marker_is_in_the_folder_partial :
  forall (k : kind) (f : format) (ext node ds rnd b : str) (fs : list str) (hours : list moment),
    folder (b :: fs) -> relative ds -> components_of ds = b :: fs -> fit_names f ext node ->
    (k = MinIo -> hours <> []) ->
    forall (blobs : list (N * str)) (s : stored),
    proper k s -> NoDup (map fst blobs) -> (k = Gcs -> blobs <> []) ->
    forall (i i' : inner) (s' : stored) (t : N),
    new_inner k f ext ds = Ok i -> commit_all k i node blobs s = Ok (i', s') ->
    let base := join $"/" (b :: fs) in
    exists nm i2 s2 before after, mark_complete k i' node t s' = Ok (nm, i2, s2) /\
      get_blobs_at_path k rnd hours base s' = Ok before /\ get_blobs_at_path k rnd hours base s2 = Ok after /\
      (forall n, In n after <-> In n before \/ n = base ++ $"/frame.complete") /\
      get_blob_bytes k (base ++ $"/frame.complete") s2 = Ok [] /\
      (forall n, components_of n <> components_of (base ++ $"/frame.complete") ->
         get_blob_bytes k n s2 = get_blob_bytes k n s').
Proof. exact AdaptersUse.marker_found. Qed.
Print Assumptions marker_is_in_the_folder_partial.

Example ex_marker :
  (let* i := new_inner MinIo Zstd $".jsonl" $"bucket/set/as_at_20240101-000000/" in
   let* (_, _, s) := mark_complete MinIo i $"ab-1f" 1 [] in
   get_blobs_at_path MinIo [] [mkMoment 2024 1 1 0 0 0] $"bucket/set/as_at_20240101-000000" s)
  = Ok [$"bucket/set/as_at_20240101-000000/frame.complete"].
Proof. vm_compute. reflexivity. Qed.

(** Finding: in Google Cloud Storage the marker of a batch without records ([always_complete]) does
    not get into the batch's folder: the bucket is still part of the name it is stored under. *)
Theorem gcs_marker_of_empty_batch_is_lost :
  forall (f : format) (ext node ds rnd : str) (cs : list str) (hours : list moment) (s : stored) (i : inner) (t : N),
    folder cs -> relative ds -> components_of ds = cs -> fit_names f ext node -> proper Gcs s ->
    new_inner Gcs f ext ds = Ok i ->
    exists nm i2 s2 before after, mark_complete Gcs i node t s = Ok (nm, i2, s2) /\
      get_blobs_at_path Gcs rnd hours (join $"/" cs) s = Ok before /\
      get_blobs_at_path Gcs rnd hours (join $"/" cs) s2 = Ok after /\
      (In (join $"/" cs ++ $"/frame.complete") after <-> In (join $"/" cs ++ $"/frame.complete") before).
Proof. exact AdaptersUse.gcs_marker_lost. Qed.
Print Assumptions gcs_marker_of_empty_batch_is_lost.

Theorem marker_is_in_the_folder_refuted :
  exists (i : inner) (s : stored),
    new_inner Gcs Parquet $".jsonl" $"bucket/set/as_at_20240101-000000/" = Ok i /\
    (let* (_, _, s) := mark_complete Gcs i $"ab-1f" 1 [] in Ok s) = Ok s /\
    get_blobs_at_path Gcs [] [] $"bucket/set/as_at_20240101-000000" s = Ok [] /\
    s = [($"bucket", $"bucket/set/as_at_20240101-000000/frame.complete", [])].
Proof.
  do 2 eexists. split; [vm_compute; reflexivity|]. split; [vm_compute; reflexivity|]. split; vm_compute; reflexivity.
Qed.
Print Assumptions marker_is_in_the_folder_refuted.
