(** * C108: a dataset without partitions *)
From Coq Require Import Sorted.
From Verif.Base Require Import Py Value.
From Verif.Model Require Import Paths Dates Frames ReadRange Cursor Storage Adapters Reader.
From Verif.Spec Require Import Paths Dates Reader Cursor.
From Verif.Spec Require Adapters.
From Verif.Spec Require Import System Unpartitioned.
From Verif.Proofs Require Unpartitioned UnpartitionedCases.
Local Open Scope Z_scope.

(** A reader with no partitions lists the folder of its dataset once, however many hours there are between its dates, and
    with or without a slash after the name of the dataset. *)
Theorem unpartitioned_folder_is_listed_once :
  forall (names : list str) (asked : option (str * str * str)) (store : str -> list str) (now : datetime) (rnd slash : str) (start stop : datetime),
    folder_names names -> slash = [] \/ slash = $"/" -> start <= stop ->
    list_range asked store now rnd (reader_dataset (join $"/" names ++ slash) []) start stop
    = get_list_of_blobs asked store [join $"/" names].
Proof.
  intros names asked store now rnd slash start stop HN.
  exact (Unpartitioned.listed_once names HN asked store now rnd slash start stop).
Qed.
Print Assumptions unpartitioned_folder_is_listed_once.

(** In every kind of storage the records do not depend on the dates, the slash or the time of the read. *)
Theorem unpartitioned_read_ignores_dates :
  forall (parse : str -> result value) (unzstd : str -> result str) (other : str -> str -> generator value)
         (columns : value -> result value) (filters : value -> result bool) (hash : str -> Z) (loads : str -> result cdict)
         (k : kind) (names : list str) (s : stored) (slash slash' : str)
         (now : datetime) (rnd : str) (start stop now' : datetime) (rnd' : str) (start' stop' : datetime) (n : nat),
    Adapters.folder names -> Adapters.proper k s -> slash = [] \/ slash = $"/" -> slash' = [] \/ slash' = $"/" ->
    start <= stop -> start' <= stop' ->
    read_folder parse unzstd other columns filters hash loads k now rnd (join $"/" names ++ slash) start stop n s
    = read_folder parse unzstd other columns filters hash loads k now' rnd' (join $"/" names ++ slash') start' stop' n s.
Proof. exact Unpartitioned.dates_ignored. Qed.
Print Assumptions unpartitioned_read_ignores_dates.

(** When the blobs below the folder belong to no frame and no partitioning, the records of every blob with an extension of
    data are given, each blob once, in the order of the names; blobs elsewhere give nothing. *)
Theorem unpartitioned_folder_is_read_whole :
  forall (parse : str -> result value) (unzstd : str -> result str) (other : str -> str -> generator value)
         (columns : value -> result value) (filters : value -> result bool) (hash : str -> Z) (loads : str -> result cdict)
         (k : kind) (names : list str) (s : stored) (slash : str) (now : datetime) (rnd : str) (start stop : datetime) (n : nat),
    Adapters.folder names -> Adapters.proper k s -> slash = [] \/ slash = $"/" -> start <= stop ->
    (forall name, stored_below k s (join $"/" names) name -> loose name) ->
    exists blobs, StronglySorted (fun x y => str_ltb x y = true) blobs /\
      (forall name, In name blobs <-> stored_below k s (join $"/" names) name /\ is_readable name = true) /\
      read_folder parse unzstd other columns filters hash loads k now rnd (join $"/" names ++ slash) start stop n s
      = match blobs with
        | [] => Raise DataNotFoundError
        | _ => Ok (firstn n (flat_map (blob_records parse unzstd other (fun name => get_blob_bytes k name s) columns filters None) blobs))
        end.
Proof. exact Unpartitioned.whole_folder. Qed.
Print Assumptions unpartitioned_folder_is_read_whole.

Section Example.
  Import UnpartitionedCases ReaderCases.
  Example ex_hypotheses : forall k, Adapters.folder [$"data"; $"set"] /\ Adapters.proper k (un_stored k) /\
    (forall name, stored_below k (un_stored k) (join $"/" [$"data"; $"set"]) name -> loose name).
  Proof. intros k. split; [exact un_folder|]. split; [apply un_proper|exact (un_loose k)]. Qed.
  Example ex_records : forall k,
    un_read k [] (of_fields 2024 2 28 0 0 0) (of_fields 2024 3 1 12 0 0) = Ok (map a_record [1; 2; 3]) /\
    un_read k $"/" (of_fields 1999 1 1 0 0 0) (of_fields 1999 1 1 0 0 0) = Ok (map a_record [1; 2; 3]).
  Proof. exact un_records. Qed.
End Example.
