(** * C110: the names of datasets given to writers *)
From Verif.Base Require Import Py Value.
From Verif.Model Require Import Paths Dates Frames ReadRange Cursor Storage Writers Adapters Reader WriterNames.
From Verif.Spec Require Import Paths Dates Reader Cursor.
From Verif.Spec Require Adapters.
From Verif.Spec Require Import System Unpartitioned WriterNames.
From Verif.Model Require Json.
From Verif.Proofs Require WriterNames ReaderCases UnpartitionedCases.
Local Open Scope nat_scope.

(** The property: a writer refuses the names which are reserved.  It does not: it makes the exception and does not raise it. *)
Theorem reserved_names_are_refused_refuted :
  exists dataset, contains $"BACKOUT" dataset = true /\ endswith $"/" dataset = true /\ contains $"%" dataset = true /\
    name_checks dataset = Ok tt.
Proof. exists $"a%/BACKOUT/". vm_compute. repeat split. Qed.
Print Assumptions reserved_names_are_refused_refuted.

(** And what is stored under such a name is lost: whatever is stored, with daily partitions of any kind, for any range,
    columns and filters, a reader of a dataset whose name contains BACKOUT finds no data. *)
Theorem reserved_name_is_never_read :
  forall (parse : str -> result value) (unzstd : str -> result str) (other : str -> str -> generator value)
         (columns : value -> result value) (filters : value -> result bool)
         (hash : str -> Z) (loads : str -> result cdict) (k : kind) (names : list str) (folders : list (list seg))
         (now : datetime) (rnd : str) (y m d hh mm ss y' m' d' hh' mm' ss' : Z) (n : nat) (s : stored),
    folder_names names -> daily_partitions folders -> contains $"BACKOUT" (join $"/" names) = true -> Adapters.proper k s ->
    valid_date y m d -> valid_time hh mm ss -> valid_date y' m' d' -> valid_time hh' mm' ss' ->
    let start := of_fields y m d hh mm ss in
    let stop := of_fields y' m' d' hh' mm' ss' in
    (start <= stop)%Z ->
    read_selected parse unzstd other columns filters hash loads k now rnd (dataset_template (join $"/" names) folders) start stop n s
    = Raise DataNotFoundError.
Proof. exact WriterNames.never_read. Qed.
Print Assumptions reserved_name_is_never_read.

(** the same without partitions *)
Theorem reserved_folder_is_never_read :
  forall (parse : str -> result value) (unzstd : str -> result str) (other : str -> str -> generator value)
         (columns : value -> result value) (filters : value -> result bool)
         (hash : str -> Z) (loads : str -> result cdict) (k : kind) (names : list str) (slash : str)
         (now : datetime) (rnd : str) (start stop : datetime) (n : nat) (s : stored),
    Adapters.folder names -> contains $"BACKOUT" (join $"/" names) = true -> Adapters.proper k s ->
    slash = [] \/ slash = $"/" -> (start <= stop)%Z ->
    read_folder parse unzstd other columns filters hash loads k now rnd (join $"/" names ++ slash) start stop n s = Raise DataNotFoundError.
Proof. exact WriterNames.never_read_alone. Qed.
Print Assumptions reserved_folder_is_never_read.

(** A stream writer whose dataset ends in {datefolders} or {datefolders_short}, after a slash or not, stores the records
    of a day in the folder of that day, the one used with the partitions the marker stands for, whatever partitions and
    raw_path it was given. *)
Theorem date_markers_are_partitions :
  forall (names : list str), folder_names names ->
  forall (marker : str) (folders : list (list seg)) (raw_path : option str) (slash : str) (partitions : option (list str))
         (at_ : moment) (k : kind) (f : format) (ext : str),
    stands_for marker folders -> slash = [] \/ slash = $"/" ->
    let written := stream_identity raw_path (join $"/" names ++ slash ++ marker) partitions at_ in
    pp_parse written = ([], names ++ map (fun p => fill p at_) folders) /\
    new_inner k f ext written = new_inner k f ext (stream_identity None (join $"/" names) (Some [partition_text folders]) at_).
Proof. exact WriterNames.legacy. Qed.
Print Assumptions date_markers_are_partitions.

(** raw_path, in any case of letters, is the same as no partitions *)
Theorem raw_path_means_no_partitions :
  forall (names : list str), folder_names names ->
  forall (raw_path : str) (partitions : option (list str)),
    upper raw_path = $"TRUE" -> writer_template (Some raw_path) (join $"/" names) partitions = join $"/" names.
Proof. exact WriterNames.raw. Qed.
Print Assumptions raw_path_means_no_partitions.

(** The property: the folders of the date are where the marker is.  They are not, when something follows it; and a batch
    writer takes the marker for the name of a folder. *)
Theorem date_marker_is_where_the_date_goes_refuted :
  writer_template None $"set/{datefolders}/sub" None = $"set//sub/year_{yyyy}/month_{mm}/day_{dd}" /\
  new_frame_id [] $"set/{datefolders}" [$"year_{yyyy}/month_{mm}/day_{dd}"] (mkMoment 2024 2 29 1 2 3) (mkMoment 2024 2 29 0 0 0)
  = Ok $"set/{datefolders}/year_2024/month_02/day_29/as_at_20240229-010203/".
Proof. split; vm_compute; reflexivity. Qed.
Print Assumptions date_marker_is_where_the_date_goes_refuted.

Section Example.
  Import ReaderCases UnpartitionedCases.
  Let names := [$"data"; $"BACKOUTS"].
  Example ex_names : folder_names names /\ Adapters.folder names /\ contains $"BACKOUT" (join $"/" names) = true /\ daily_partitions default_folders.
  Proof.
    split; [split; [discriminate|]; intros c [<-|[<-|[]]]; repeat split; try discriminate; cbv; intuition discriminate|].
    split; [split; [cbn; repeat constructor|split]; [intros c [<-|[<-|[]]]; repeat split; try discriminate; cbv; intuition discriminate|]|].
    - vm_compute. reflexivity || (cbv; intuition discriminate).
    - split; [reflexivity|]. split; [exact (proj2 WriterNames.default_ok)|split; intros g Hg; cbn in *; intuition (subst; try discriminate; auto 12)].
  Qed.
  (** stored, and not read; the same blob below another name is read *)
  Let at_name (name : str) : stored := [(($"data", name ++ $"/year_2024/month_02/day_29/1.jsonl"), line (a_record 7))].
  Let read name := records_read (read_selected Json.loads unz no_other pass_thru pass_thru_filter (fun _ => 0%Z) (fun _ => Raise ValueError) Gcs 0%Z []
    (dataset_template ($"data/" ++ name) default_folders) (of_fields 2024 2 29 0 0 0) (of_fields 2024 2 29 1 0 0) 9 (at_name name)).
  Example ex_read : read $"BACKOUTS" = Raise DataNotFoundError /\ read $"backups" = Ok [a_record 7] /\ Adapters.proper Gcs (at_name $"BACKOUTS").
  Proof.
    split; [vm_compute; reflexivity|]. split; [vm_compute; reflexivity|]. split; [repeat constructor; intros []|].
    intros p v [H|[]]. injection H as <- _. repeat split; try discriminate. cbv. intuition discriminate.
  Qed.
  Example ex_markers : stands_for $"{datefolders_short}" short_folders /\
    stream_identity None $"data/set/{datefolders_short}" None (mkMoment 2024 2 29 1 2 3) = $"data/set//2024/02/29" /\
    stream_identity (Some $"true") $"data/set{datefolders}" None (mkMoment 2024 2 29 1 2 3) = $"data/set/year_2024/month_02/day_29" /\
    upper $"true" = $"TRUE".
  Proof. split; [right; split; reflexivity|]. vm_compute. repeat split. Qed.
End Example.
