(** C73: batches which overlap. *)
From Verif.Base Require Import Py Value.
From Verif.Model Require Import Frames Cursor Storage Writers Reader Json.
From Verif.Spec Require Import Frames Json Writers Reader.
From Verif.Proofs Require Overlap.
From Verif.Proofs Require Import ReaderCases OverlapCases.

(** C73: any number of batches of a folder, each with its own frame, run at the same time, in any interleaving of their
    storage operations, any of them killed at any point.  As long as none is complete, a reader is given the blobs it was given
    before; else the data blobs of the complete batch whose frame has the greatest name, which hold exactly the
    records that batch took, in order, and nothing of any other batch. *)
Theorem overlapping_batches :
  forall (R : Type) (root : str) (es : list entry) (bs : list (batch R)) (listing : list str),
    (* the folder before: frames only, all older than the new ones *)
    NoDup es -> tidy root (live root es) ->
    bs <> [] -> Forall (ran root) bs -> frames_apart bs ->
    (forall b, In b bs -> older_frames (live root es) (b_frame b)) ->
    (* the store lists the old blobs and what the batches have stored, in any order *)
    NoDup listing ->
    (forall n, In n listing <->
       In n (map (name_in root) es) \/ exists b, In b bs /\ In n (map fst (b_left b))) ->
    let seen store := get_list_of_blobs None (fun _ => store) [root] in
    ((forall b, In b bs -> ~ completed root b) /\ seen listing = seen (map (name_in root) es)) \/
    (exists b, newest_complete root bs b /\
       seen listing = Ok (map fst (data_of (b_dir root b) (b_left b))) /\
       exists groups, Forall2 (holds (b_setting b)) groups (map snd (data_of (b_dir root b) (b_left b))) /\
         concat groups = taken (b_setting b) (b_calls b) (b_outcomes b)).
Proof.
  intros R root es bs listing Nd T Hne F A O Nl HI.
  exact (Overlap.overlapping root es bs listing Nd T Hne F O A Nl HI).
Qed.
Print Assumptions overlapping_batches.

(** ... and so a read, each batch being of a format which is read back (C24): the records read before, or of the first [n]
    records of that batch, of those which the filter keeps, the columns which are selected. *)
Theorem overlapping_batches_read :
  forall (parse : str -> result value) (unzstd : str -> result str)
         (other : str -> str -> generator value) (read_blob : str -> result str)
         (fits : batch value -> value -> Prop) (image : batch value -> value -> value)
         (columns : value -> result value) (filters : value -> result bool) (c : value -> value) (p : value -> bool)
         (root : str) (es : list entry) (bs : list (batch value)) (listing : list str)
         (hash : str -> Z) (loads : str -> result cdict) (n : nat),
    NoDup es -> tidy root (live root es) -> bs <> [] -> Forall (ran root) bs ->
    (forall b, In b bs -> older_frames (live root es) (b_frame b)) -> frames_apart bs ->
    NoDup listing ->
    (forall n, In n listing <->
       In n (map (name_in root) es) \/ exists b, In b bs /\ In n (map fst (b_left b))) ->
    (forall b, In b bs ->
       read_as parse unzstd other (b_setting b) (b_ext b) (fits b) (image b) /\ relative_folder (b_dir root b) /\
       reads_log read_blob (b_left b) /\
       (forall r, In r (taken (b_setting b) (b_calls b) (b_outcomes b)) -> fits b r /\ applies columns filters c p (image b r)) /\
       taken (b_setting b) (b_calls b) (b_outcomes b) <> []) ->
    let read store :=
      read_records hash loads (fun _ => get_list_of_blobs None (fun _ => store) [root]) 0
        (blob_records parse unzstd other read_blob columns filters None) NoCursor n in
    ((forall b, In b bs -> ~ completed root b) /\ read listing = read (map (name_in root) es)) \/
    (exists b cursor, newest_complete root bs b /\
       read listing = Ok (firstn n (filter p (map c (map (image b) (taken (b_setting b) (b_calls b) (b_outcomes b))))), cursor)).
Proof. exact Overlap.overlapping_read. Qed.
Print Assumptions overlapping_batches_read.

(** two batches, the second started five seconds after the first; whatever has been stored of each *)
Example two_batches_ok : forall j k, (j <= 3)%nat -> (k <= 3)%nat ->
  Forall (ran folder) [early j; late k] /\ frames_apart [early j; late k] /\
  (forall b, In b [early j; late k] -> older_frames (live folder day_before) (b_frame b)) /\
  NoDup (stored_names [early j; late k]) /\
  (forall n, In n (stored_names [early j; late k]) <->
     In n (map (name_in folder) day_before) \/ exists b, In b [early j; late k] /\ In n (map fst (b_left b))).
Proof.
  intros j k Hj Hk. split; [|split; [|split; [|split]]].
  - constructor; [apply early_ran|constructor; [apply late_ran|constructor]].
  - split; [repeat constructor; cbn; intuition discriminate|].
    intros b b' [<-|[<-|[]]] [<-|[<-|[]]]; reflexivity.
  - intros b [<-|[<-|[]]]; apply day_before_ok; auto.
  - apply nodupb_ok. destruct j as [|[|[|[|j]]]], k as [|[|[|[|k]]]]; try (exfalso; lia); vm_compute; reflexivity.
  - intros n. apply stored_names_ok.
Qed.
(** what a reader is given: the old frame; the first batch; the second batch, and this also if the first is finished
    after the second *)
Definition given (bs : list (batch value)) : result (list str) :=
  get_list_of_blobs None (fun _ => stored_names bs) [folder].
Example two_batches_seen :
  given [early 2; late 2] = Ok [folder ++ $"/as_at_20240228-120000/100-2.jsonl"] /\
  given [early 3; late 2] = Ok (map fst (data_of (b_dir folder (early 3)) (b_left (early 3)))) /\
  given [early 2; late 3] = given [early 3; late 3] /\
  given [early 3; late 3] = Ok (map fst (data_of (b_dir folder (late 3)) (b_left (late 3)))) /\
  length (data_of (b_dir folder (late 3)) (b_left (late 3))) = 2%nat.
Proof. vm_compute. auto. Qed.
(** the conditions on the records are met too *)
Example two_batches_read_ok : forall b, In b [early 3; late 3] ->
  (forall other, read_as loads unz other (b_setting b) (b_ext b) distinct_keys (fun r => r)) /\ relative_folder (b_dir folder b) /\
  reads_log (read_from (all_of [early 3; late 3])) (b_left b) /\
  taken (b_setting b) (b_calls b) (b_outcomes b) = b_records b /\
  forall r, In r (b_records b) -> distinct_keys r /\ truthy r = true.
Proof.
  assert (G: forall b, In b [early 3; late 3] -> json_lines_writer dumps unz (b_setting b) (b_ext b) /\ relative_folder (b_dir folder b)).
  { intros b [<-|[<-|[]]]; (split; [split; [intros r t [= <-]; reflexivity|]; split; [reflexivity|left; auto]|]);
    (split; [intros r; discriminate|]; exists "d"%char; split; [left; auto|]; split; discriminate). }
  intros b Hb. destruct (G b Hb) as [G1 G2].
  split; [intros other; exact (RoundTrip.json_writer_read dumps loads unz other _ _ RoundTrip.json_one_line G1)|]. split; auto. split; [|split].
  - apply all_read; [vm_compute; reflexivity|auto].
  - destruct Hb as [<-|[<-|[]]]; (vm_compute; reflexivity).
  - intros r Hr. assert (D: exists z, r = a_record z).
    { destruct Hb as [<-|[<-|[]]]; destruct Hr as [<-|[<-|[<-|[]]]]; eexists; reflexivity. }
    destruct D as [z ->]. split; [|reflexivity]. repeat constructor; cbn; intuition discriminate.
Qed.

(** The frame's name has the second the batch was started in.  Two batches started in the same second share the frame: when
    the first is complete, a reader is given blobs of the second, which is not. *)
Theorem same_second_partial_batch_refuted :
  exists (root : str) (b1 b2 : batch value) (listing out : list str) (blob : str),
    ran root b1 /\ ran root b2 /\ b_frame b1 = b_frame b2 /\
    completed root b1 /\ ~ completed root b2 /\ (length (b_left b2) < length (puts (st_world (b_state b2))))%nat /\
    listing = map fst (b_left b1 ++ b_left b2) /\ NoDup listing /\
    get_list_of_blobs None (fun _ => listing) [root] = Ok out /\
    In blob out /\ In blob (map fst (b_left b2)).
Proof.
  exists folder, (early 3), (twin 1), (map fst (b_left (early 3) ++ b_left (twin 1))).
  eexists; exists (fst (hd ([], []) (b_left (twin 1)))).
  split; [apply early_ran|]. split; [apply twin_ran|]. split; [reflexivity|].
  split; [vm_compute; auto|]. split; [vm_compute; intuition discriminate|].
  split; [vm_compute; lia|]. split; [reflexivity|]. split; [apply nodupb_ok; vm_compute; reflexivity|].
  split; [vm_compute; reflexivity|]. split; vm_compute; auto.
Qed.
Print Assumptions same_second_partial_batch_refuted.
