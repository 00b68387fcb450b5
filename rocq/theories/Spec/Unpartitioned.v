(** A reader without partitions: the folder of the dataset itself. *)
From Verif.Base Require Import Py Value.
From Verif.Model Require Import Paths Dates Frames ReadRange Cursor Storage Adapters Reader.
From Verif.Spec Require Import Paths Dates Reader Cursor.
From Verif.Spec Require Adapters.
From Verif.Spec Require Import System.

(** a blob of no frame, no by_ partitioning and not put aside as invalid *)
Definition loose (name : str) : Prop :=
  contains $"BACKOUT" name = false /\ contains $"/by_" name = false /\ contains $"as_at_" name = false.

(** the blobs stored below a folder *)
Definition stored_below (k : kind) (s : stored) (folder name : str) : Prop :=
  startswith (folder ++ $"/") name = true /\ endswith $"/" name = false /\ exists data, Adapters.holds k s name data.

(** a reader of the dataset with no partitions, on the storage [s] *)
Definition read_folder (parse : str -> result value) (unzstd : str -> result str) (other : str -> str -> generator value)
    (columns : value -> result value) (filters : value -> result bool)
    (hash : str -> Z) (loads : str -> result cdict) (k : kind) (now : datetime) (rnd dataset : str)
    (start stop : datetime) (n : nat) (s : stored) : result (list value) :=
  records_read (read_records hash loads
    (fun _ => list_range None (fun p => listing k rnd (range_hours now start stop) p s) now rnd (reader_dataset dataset []) start stop) 0
    (blob_records parse unzstd other (fun name => get_blob_bytes k name s) columns filters None) NoCursor n).
(** the same with a cursor, and with the cursor afterwards *)
Definition read_folder_from (parse : str -> result value) (unzstd : str -> result str) (other : str -> str -> generator value)
    (columns : value -> result value) (filters : value -> result bool)
    (hash : str -> Z) (loads : str -> result cdict) (k : kind) (now : datetime) (rnd dataset : str)
    (start stop : datetime) (cursor : saved) (n : nat) (s : stored) : result (list value * saved) :=
  read_records hash loads
    (fun _ => list_range None (fun p => listing k rnd (range_hours now start stop) p s) now rnd (reader_dataset dataset []) start stop) 0
    (blob_records parse unzstd other (fun name => get_blob_bytes k name s) columns filters None) cursor n.
