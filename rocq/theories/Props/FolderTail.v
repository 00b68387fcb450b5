(** * C109: reading on in a folder to which blobs were added *)
From Verif.Base Require Import Py Value.
From Verif.Model Require Import Paths Dates Frames ReadRange Cursor Storage Adapters Reader.
From Verif.Spec Require Import Paths Dates Reader Cursor.
From Verif.Spec Require Adapters.
From Verif.Spec Require Import System Unpartitioned.
From Verif.Proofs Require FolderTail FolderTailCases CursorExample.

(** A reader with no partitions reads i records of a folder on disk, in Google Cloud Storage or in MinIO, which holds
    the data blobs [olds], and its cursor is kept as a dictionary or as text.  Later the folder holds [news] too, with names after those
    of [olds].  A reader with the cursor delivers the records the first one did not, then those of the new blobs.
    With MinIO both ranges are within one hour of the clock.
    Missing: longer ranges with MinIO (it lists blobs once for every hour of the range, see C65), and what is missing in
    cursor_resumed_over_more_blobs_partial. *)
Theorem growing_folder_is_read_on_partial :
  forall (parse : str -> result value) (unzstd : str -> result str) (other : str -> str -> generator value)
         (columns : value -> result value) (filters : value -> result bool)
         (hash : str -> Z) (dumps : cdict -> str) (loads : str -> result cdict) (k : kind)
         (names : list str) (s0 s1 : stored) (olds news : list str) (slash : str)
         (now : datetime) (rnd : str) (start stop now' : datetime) (rnd' : str) (start' stop' : datetime) (t : transport) (i : nat),
    (k = MinIo -> (start / 3600 = stop / 3600)%Z /\ (start' / 3600 = stop' / 3600)%Z) -> Adapters.folder names -> Adapters.proper k s0 -> Adapters.proper k s1 ->
    slash = [] \/ slash = $"/" -> (start <= stop)%Z -> (start' <= stop')%Z ->
    (forall name, stored_below k s0 (join $"/" names) name \/ stored_below k s1 (join $"/" names) name -> loose name) ->
    NoDup (olds ++ news) -> olds <> [] ->
    (forall name, In name olds <-> stored_below k s0 (join $"/" names) name /\ is_readable name = true) ->
    (forall name, In name (olds ++ news) <-> stored_below k s1 (join $"/" names) name /\ is_readable name = true) ->
    (forall name, In name olds -> get_blob_bytes k name s1 = get_blob_bytes k name s0) ->
    (forall old new, In old olds -> In new news -> str_ltb old new = true) ->
    length (olds ++ news) <= 8 * ((length olds + 7) / 8) ->
    (forall x y, In x ([] :: olds ++ news) -> In y ([] :: olds ++ news) -> hash x = hash y -> x = y) ->
    (forall d, loads (dumps d) = Ok d) -> (forall d, dumps d <> []) -> t <> KeepObject ->
    let records s := blob_records parse unzstd other (fun name => get_blob_bytes k name s) columns filters None in
    exists out more, full_read (records s0) olds out /\ full_read (records s1) news more /\
    exists saved,
      read_folder_from parse unzstd other columns filters hash loads k now rnd (join $"/" names ++ slash) start stop NoCursor i s0
      = Ok (firstn i out, saved) /\
      forall j, exists saved',
        read_folder_from parse unzstd other columns filters hash loads k now' rnd' (join $"/" names ++ slash) start' stop'
                         (keep hash dumps t saved) j s1
        = Ok (firstn j (skipn i out ++ more), saved').
Proof. exact FolderTail.followed. Qed.
Print Assumptions growing_folder_is_read_on_partial.

Section Example.
  Import ReaderCases UnpartitionedCases FolderTailCases CursorExample.
  Example ex_hypotheses : forall k, Adapters.folder [$"data"; $"set"] /\ Adapters.proper k (un_stored k) /\ Adapters.proper k (ft_stored k) /\
    (forall name, stored_below k (un_stored k) $"data/set" name \/ stored_below k (ft_stored k) $"data/set" name -> loose name) /\
    NoDup (ft_olds ++ ft_news) /\
    (forall name, In name ft_olds <-> stored_below k (un_stored k) $"data/set" name /\ is_readable name = true) /\
    (forall name, In name (ft_olds ++ ft_news) <-> stored_below k (ft_stored k) $"data/set" name /\ is_readable name = true) /\
    (forall name, In name ft_olds -> get_blob_bytes k name (ft_stored k) = get_blob_bytes k name (un_stored k)) /\
    (forall old new, In old ft_olds -> In new ft_news -> str_ltb old new = true) /\
    length (ft_olds ++ ft_news) <= 8 * ((length ft_olds + 7) / 8) /\
    (forall x y, ex_hash x = ex_hash y -> x = y) /\ (forall d, ex_loads (ex_dumps d) = Ok d) /\ (forall d, ex_dumps d <> []).
  Proof.
    intros k. split; [exact un_folder|]. split; [apply un_proper|]. split; [apply ft_proper|]. split; [exact (ft_loose k)|].
    split; [repeat constructor; cbn; intuition discriminate|]. split; [apply ft_olds_are|]. split; [apply ft_all_are|].
    split; [apply ft_same|]. split; [exact ft_later|]. split; [vm_compute; repeat constructor|].
    split; [exact ex_hash_inj|]. split; [exact ex_codec|exact ex_dumps_nonempty].
  Qed.
  (** in the middle, and after the end *)
  Example ex_read : forall k, ft_read k KeepDict 2 = Ok (map a_record [1; 2]%Z, map a_record [3; 7]%Z) /\
                              ft_read k KeepText 9 = Ok (map a_record [1; 2; 3]%Z, map a_record [7]%Z).
  Proof. exact ft_reads. Qed.
End Example.
