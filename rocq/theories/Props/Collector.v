(** C99, C100: writers which nobody refers to any more. *)
From Coq Require Import Permutation.
From Verif.Base Require Import Py Value.
From Verif.Model Require Import Paths Dates Frames ReadRange Cursor Storage Writers Stream Adapters Reader Collector.
From Verif.Spec Require Import Paths Dates Frames Cursor Json Writers Stream Reader Collector.
From Verif.Spec Require Adapters.
From Verif.Spec Require Import System.
From Verif.Proofs Require Collector Discarded CollectorCases SystemCases ReaderCases.

(** C99.  A stream writer whose storage fails now and then, whatever the order of the appends, of the attendant's rounds,
    of the finalizes and of the moments at which the interpreter collects writers which could not store what they held.
    No record is stored more often than it was appended: the copies stored for a folder are some of those the appends
    meant for it. *)
Theorem failing_storage_duplicates_nothing :
  forall (R V : Type) (M : streaming R V), clean_failures (m_base M) ->
  forall (es : list cevent) (os : list (result nat)) (c : cstate),
    crun M new_collected es = (os, c) ->
    exists blobs, contents M blobs (puts (world_of (c_stream c))) /\
      forall id, exists rest,
        Permutation (stored_for id blobs ++ rest) (accepted_for M es os id ++ refused_for M es os id).
Proof. exact @Collector.at_most_once. Qed.
Print Assumptions failing_storage_duplicates_nothing.

(** After a finalize, once every writer which could not store what it held was collected and none of these second attempts
    failed, every record an append returned for is stored, each as often as it was appended.  Of the records whose append
    raised there may be some. *)
Theorem failing_storage_loses_nothing_collected :
  forall (R V : Type) (M : streaming R V), clean_failures (m_base M) ->
  forall (es : list cevent) (ns : list nat) (os : list (result nat)) (c : cstate),
    let history := es ++ Event SFinalize :: map Collect ns in
    crun M new_collected history = (os, c) -> c_dropped c = [] -> destructors_succeed history os ->
    exists blobs, contents M blobs (puts (world_of (c_stream c))) /\
      forall id, exists some rest,
        Permutation (stored_for id blobs) (accepted_for M history os id ++ some) /\
        Permutation (some ++ rest) (refused_for M history os id).
Proof. exact @Collector.collected. Qed.
Print Assumptions failing_storage_loses_nothing_collected.

(** Without collections this is the stream writer of C13. *)
Theorem collector_changes_nothing_else :
  forall (R V : Type) (M : streaming R V) (es : list event) (c : cstate),
    fst (crun M c (map Event es)) = fst (srun M (c_stream c) es) /\
    c_stream (snd (crun M c (map Event es))) = snd (srun M (c_stream c) es).
Proof. exact @Collector.run_same. Qed.
Print Assumptions collector_changes_nothing_else.

(** C100.  A batch writer which is thrown away stores what a finalize(has_failure=True) would store. *)
Theorem thrown_away_like_failed :
  forall (R : Type) (E : setting R) (s : state), discard E s = st_world (snd (step E s (Finalize true))).
Proof. exact @Discarded.like_failed. Qed.
Print Assumptions thrown_away_like_failed.

(** So the statement of C82 holds of it, at whatever point it is thrown away: a reader of the day gives what it gave before, or
    the whole batch if the completion marker was stored before.  (Killed during the destructor's attempt as well: [crashed].) *)
Theorem thrown_away_batch_is_read_whole_or_not_at_all :
  forall (parse : str -> result value) (unzstd : str -> result str)
         (other : str -> str -> generator value)
         (fits : value -> Prop) (image : value -> value)
         (columns : value -> result value) (filters : value -> result bool) (c : value -> value) (p : value -> bool)
         (hash : str -> Z) (loads : str -> result cdict)
         (k : kind) (E : setting value) (ext : str) (names : list str) (folders : list (list seg)) (texts : list str) (y m d : Z) (w : moment) (rnd ds : str) (i : inner),
    folder_names names -> daily_partitions folders -> written_as folders texts ->
    let dataset := join $"/" names in
    let t := dataset_template dataset folders in
    let root := day_folder t (y, m, d) in
    let frame := as_at_text w in
    new_frame_id rnd dataset texts w (a_day y m d) = Ok ds ->
    inner_filename (s_format E) ext ds = Ok (s_filename E) -> new_inner k (s_format E) ext ds = Ok i ->
    read_as parse unzstd other E (extension (s_format E) ext) fits image ->
    plain ext -> plain (s_node E) -> clean_failures E -> contains $"BACKOUT" (root ++ $"/" ++ frame) = false ->
    forall (now : datetime) (hh mm ss hh' mm' ss' : Z) (rnd' : str) (n : nat) (es : list entry)
           (rs : list value) (fs : list bool) (os : list outcome) (st : state (R:=value)) (log' : list (str * str)) (s0 : stored),
    let start := of_fields y m d hh mm ss in
    let stop := of_fields y m d hh' mm' ss' in
    valid_date y m d -> valid_time hh mm ss -> valid_time hh' mm' ss' -> (start <= stop)%Z ->
    Adapters.proper k s0 -> NoDup es ->
    (forall name, In name (listing k rnd' (range_hours now start stop) root s0) <-> In name (map (name_in root) es)) ->
    tidy root (live root es) -> older_frames (live root es) frame ->
    run E (new_writer nothing) (map Append rs ++ map Finalize fs) = (os, st) ->
    good_clock E (attempts (discard E st)) -> crashed (puts (discard E st)) log' ->
    let written := taken E (map Append rs ++ map Finalize fs) os in
    (k = Gcs -> written <> []) -> (forall r, In r written -> fits r /\ applies columns filters c p (image r)) ->
    (exists ops, operations_of E log' ops) /\
    forall ops, operations_of E log' ops ->
    exists i' s1, operate k i (s_node E) ops s0 = Ok (i', s1) /\
      let read s := records_read (read_selected parse unzstd other columns filters hash loads k now rnd' t start stop n s) in
      ((~ marked (root ++ $"/" ++ frame) log' /\ read s1 = read s0) \/
       (marked (root ++ $"/" ++ frame) log' /\ read s1 = found written n (filter p (map c (map image written))))).
Proof. exact Discarded.thrown_away. Qed.
Print Assumptions thrown_away_batch_is_read_whole_or_not_at_all.

(** *** Examples *)
Import CollectorCases.
(** the first attempt to store fails, in the attendant's round; after the finalize the writer of this attempt is collected *)
Example ex_collected :
  let '(os, c) := run_evicted [0]%nat in
  clean_failures (m_base (a_stream (nth_fails [0]%nat))) /\ os = [Ok 1; Ok 1; Raise StorageError; Ok 1; Ok 0; Ok 0]%nat /\
  c_dropped c = [] /\ destructors_succeed evicted os /\
  evicted = firstn 4 evicted ++ Event SFinalize :: map Collect [0]%nat /\
  accepted_for (a_stream (nth_fails [0]%nat)) evicted os user_a = [($"one", $"a"); ($"three", $"a")].
Proof.
  vm_compute. split; [exact (clean [0]%nat)|]. split; [reflexivity|]. split; [reflexivity|]. split; [|split; reflexivity].
  intros n e H. repeat (destruct H as [H|H]; [discriminate H|]). destruct H.
Qed.
(** the batch writer of C82 thrown away before its finalize: its second blob is stored by the destructor *)
Example ex_open : good_clock SystemCases.E (attempts (discard SystemCases.E (snd open_run))) /\ crashed open_log open_log /\
  taken SystemCases.E (map Append SystemCases.records ++ map Finalize []) (fst open_run) =
    [ReaderCases.a_record 1; ReaderCases.a_record 2; ReaderCases.a_record 3; ReaderCases.a_record 4] /\
  length (puts (st_world (snd open_run))) = 1%nat /\ length open_log = 2%nat /\ operations_of SystemCases.E open_log open_ops.
Proof. exact open_ok. Qed.
Example ex_open_read : forall k, after_open k = Ok [ReaderCases.a_record 9].
Proof. intros k. destruct k; vm_compute; reflexivity. Qed.

(** The order of a folder's records does not survive: here the record appended first is stored last. *)
Theorem failing_storage_keeps_order_refuted :
  exists (M : streaming (str * str) str) (es : list cevent) (id : str),
    clean_failures (m_base M) /\
    let '(os, c) := crun M new_collected es in
    c_dropped c = [] /\ pool (c_stream c) = [] /\ destructors_succeed es os /\
    accepted_for M es os id = [($"one", $"a"); ($"three", $"a")] /\
    map snd (filter (fun put => startswith id (fst put)) (puts (world_of (c_stream c)))) =
      [$"three" ++ ["010"%char]; $"one" ++ ["010"%char]].
Proof.
  exists (a_stream (nth_fails [0]%nat)), evicted, user_a. split; [exact (clean [0]%nat)|]. vm_compute.
  split; [reflexivity|]. split; [reflexivity|]. split; [|split; reflexivity].
  intros n e H. repeat (destruct H as [H|H]; [discriminate H|]). destruct H.
Qed.
Print Assumptions failing_storage_keeps_order_refuted.

(** There is no third attempt: when the destructor's fails as well the record is lost, and nobody is told. *)
Theorem failing_storage_loses_nothing_refuted :
  exists (M : streaming (str * str) str) (es : list cevent) (id : str),
    clean_failures (m_base M) /\
    let '(os, c) := crun M new_collected es in
    c_dropped c = [] /\ pool (c_stream c) = [] /\ puts (world_of (c_stream c)) = [] /\
    accepted_for M es os id = [($"one", $"a")].
Proof.
  exists (a_stream (nth_fails [0; 1]%nat)), [Event (SAppend ($"one", $"a") today); Event SFinalize; Collect 0], user_a.
  split; [exact (clean [0; 1]%nat)|]. vm_compute. repeat split.
Qed.
Print Assumptions failing_storage_loses_nothing_refuted.
