(** C112: what a stream writer without partitions stored is what a reader without partitions reads. *)
From Verif.Base Require Import Py Value.
From Verif.Model Require Import Paths Dates Frames ReadRange Cursor Storage Writers Stream Reader.
From Verif.Model Require Json.
From Verif.Spec Require Import Paths Dates Frames Cursor Json Writers Stream Reader StreamRead.
From Verif.Spec Require Adapters.
From Verif.Proofs Require FolderStream FolderStreamCases ReaderCases StreamReadCases.

(** A stream writer with partitions=None, of any format which is read back (C24), takes records of any number at any times, with the
    attendant thread at work in between and writers evicted from the pool, and is finalized.  A reader with partitions=[], whatever
    its dates, gives the valid records whose append returned, in the order of the appends whatever the clock of the appends says:
    none lost, none twice, none of the invalid ones.  When there are none, reading raises DataNotFoundError ([gives]).
    What is missing: storage that fails (then it is false, see C101); folders which held blobs before. *)
Theorem unpartitioned_stream_is_read_partial :
  forall (parse : str -> result value) (unzstd : str -> result str)
         (other : str -> str -> generator value) (read_blob : str -> result str)
         (fits : value -> Prop) (image : value -> value)
         (columns : value -> result value) (filters : value -> result bool) (c : value -> value) (p : value -> bool)
         (V : Type) (M : streaming value V) (names : list str),
    stream_settings parse unzstd other fits image M -> Adapters.folder names ->
    let dataset := join $"/" names in
    proper_template [Date (Lit dataset)] -> m_template M = dataset -> clean_folder dataset ->
  forall (es : list event) (os : list (result nat)) (s : sstate) (store : str -> list str)
         (now : datetime) (rnd slash : str) (start stop : datetime)
         (hash : str -> Z) (loads : str -> result cdict) (n : nat),
    stream_ran read_blob M es os s -> lists_folder store (puts (world_of s)) dataset ->
    slash = [] \/ slash = $"/" -> (start <= stop)%Z ->
    let wanted := accepted_on M (fun _ => true) es os in
    (forall r, In r wanted -> fits r /\ applies columns filters c p (image r)) ->
    gives wanted (firstn n (filter p (map c (map image wanted)))) (read_records hash loads
      (fun _ => list_range None store now rnd (reader_dataset (dataset ++ slash) []) start stop)
      0 (blob_records parse unzstd other read_blob columns filters None) NoCursor n).
Proof. exact FolderStream.folder_stream. Qed.
Print Assumptions unpartitioned_stream_is_read_partial.

(** A concrete stream: six records and an invalid one on four days; the reader asks for one hour of another year. *)
Section Example.
  Import ReaderCases StreamReadCases FolderStreamCases.
  Example ex_hypotheses :
    (forall other, stream_settings Json.loads unz other distinct_keys (fun r => r) (st_writer fs_template)) /\ Adapters.folder fs_names /\
    proper_template [Date (Lit (join $"/" fs_names))] /\ m_template (st_writer fs_template) = join $"/" fs_names /\ clean_folder (join $"/" fs_names) /\
    stream_ran (read_from (st_log fs_template)) (st_writer fs_template) st_events (fst (st_run fs_template)) (snd (st_run fs_template)) /\
    lists_folder (st_store fs_template) (st_log fs_template) (join $"/" fs_names).
  Proof. exact fs_hypotheses. Qed.
  Example ex_read :
    match read_records (fun _ => 0%Z) (fun _ => Raise ValueError)
      (fun _ => list_range None (st_store fs_template) 0%Z [] (reader_dataset (join $"/" fs_names) []) (of_fields 1999 5 1 7 0 0) (of_fields 1999 5 1 7 30 0))
      0 (blob_records Json.loads unz no_other (read_from (st_log fs_template)) pass_thru pass_thru_filter None) NoCursor 10
    with Ok (rs, _) => rs | Raise _ => [] end
    = map a_record [1; 2; 3; 4; 5; 6]%Z /\
    accepted_on (st_writer fs_template) (fun _ => true) st_events (fst (st_run fs_template)) = map a_record [1; 2; 3; 4; 5; 6]%Z.
  Proof. split; vm_compute; reflexivity. Qed.
End Example.
