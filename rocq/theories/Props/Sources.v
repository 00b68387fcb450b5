(** C77, C78, C79: format overrides, data handed to the reader, schemas. *)
From Verif.Base Require Import Py Value.
From Verif.Model Require Import Frames Cursor Storage Reader Sources.
From Verif.Spec Require Import Frames Cursor Json Reader Sources.
From Verif.Spec Require Import Decoders.   (* data_blob *)
From Verif.Proofs Require Sources DataBlobs.

(** C77: with a format override a blob is read like a blob with that extension and the same content, whatever its own
    name; the override may be in any case, with or without its dot. *)
Theorem override_decides_partial :
  forall parse unzstd other (read_blob : str -> result str) columns filters (f ext name name' data : str),
    names_format f ext -> file_with_extension ext name' ->
    read_blob name = Ok data -> read_blob name' = Ok data ->
    blob_records parse unzstd other read_blob columns filters (Some f) name
    = blob_records parse unzstd other read_blob columns filters None name'.
Proof. exact Sources.override_same. Qed.
Print Assumptions override_decides_partial.
Example ex_override :
  names_format $"JSONL" $".jsonl" /\ names_format $".Txt" $".txt" /\ file_with_extension $".jsonl" $"bucket/a.jsonl" /\
  blob_records (fun s => Ok (VStr s)) (fun _ => Raise ValueError) (fun _ _ => ([], None)) (fun _ => Ok $"x") pass_thru
    pass_thru_filter (Some $"JSONL") $"bucket/no_extension" = [VStr $"x"].
Proof.
  split; [|split; [|split]].
  - exists $"jsonl". repeat split; [discriminate|cbn; intuition discriminate|now left].
  - exists $"txt". repeat split; [discriminate|cbn; intuition discriminate|now right].
  - exists $"bucket", $"a", $"jsonl". repeat split; try discriminate; try (cbn; intuition discriminate).
    exists "b"%char. repeat split; [now left|discriminate|discriminate].
  - vm_compute. reflexivity.
Qed.

(** C77, refuted: blobs with an extension the reader does not know are dropped before the override is looked at; if there
    are no others the read fails, whatever the blobs hold and whatever the override makes of them *)
Theorem override_of_unknown_extensions_refuted :
  forall (hash : str -> Z) (loads : str -> result cdict) (blobs : list str) (records : str -> list value) cursor n,
    Forall (fun b => ~ data_blob b) blobs ->
    read_records hash loads (fun _ => Ok blobs) 0 records cursor n = Raise DataNotFoundError.
Proof. exact DataBlobs.no_data. Qed.
Print Assumptions override_of_unknown_extensions_refuted.
Example ex_unknown_extension : Forall (fun b => ~ data_blob b) [$"bucket/a.log"; $"bucket/a.jsonl.gz"; $"bucket/frame.complete"].
Proof. repeat constructor; intros H; apply DataBlobs.readable in H; discriminate H. Qed.

(** C78: data handed to the reader is read back as it is, in order, once for every folder that is read. *)
Theorem null_reader_reads_partial :
  forall (dump : value -> str) (parse : str -> result value) unzstd other hash loads
         (paths days : list str) (data : list value) (n : nat),
    one_line_json dump parse -> (forall v, dump v <> []) ->
    (forall r, In r data -> distinct_keys r /\ truthy r = true) ->
    paths <> [] -> (forall p, In p paths -> plain_folder p) -> different paths days ->
    exists blobs c,
      get_list_of_blobs None null_blobs_at_path paths = Ok blobs /\
      read_records hash loads (fun _ => Ok blobs) 0
        (blob_records parse unzstd other (null_blob_bytes dump data) pass_thru pass_thru_filter None) NoCursor n
      = Ok (firstn n (concat (repeat data (length days))), c).
Proof. exact Sources.null_reads. Qed.
Print Assumptions null_reader_reads_partial.
Example ex_plain_folder : plain_folder $"data/2024_01_31" /\ different [$"a"; $"b"; $"a"] [$"a"; $"b"].
Proof.
  split.
  - split; [discriminate|]. split; [exists "d"%char; repeat split; [now left|discriminate|discriminate]|].
    intros part Hp. vm_compute in Hp. destruct Hp as [<-|[<-|[]]]; vm_compute; repeat split.
  - split; [repeat constructor; cbn; intuition discriminate|]. intros p. cbn. tauto.
Qed.
(** C78, refuted: two days give the data twice *)
Theorem null_reader_repeats_refuted :
  exists blobs c,
    get_list_of_blobs None null_blobs_at_path [$"data/2024_01_30"; $"data/2024_01_31"] = Ok blobs /\
    read_records (fun _ => 0%Z) (fun _ => Raise ValueError) (fun _ => Ok blobs) 0
      (blob_records (fun s => Ok (VStr s)) (fun _ => Raise ValueError) (fun _ _ => ([], None))
         (null_blob_bytes (fun v => match v with VStr s => s | _ => [] end) [VStr $"x"]) pass_thru pass_thru_filter None) NoCursor 5
    = Ok ([VStr $"x"; VStr $"x"], c).
Proof. eexists. eexists. split; [vm_compute; reflexivity|vm_compute; reflexivity]. Qed.
Print Assumptions null_reader_repeats_refuted.

(** C79: a list of columns makes the same schema as it is, as the columns or the fields of a dictionary; a text the same as
    the value it stands for, and a path the same as the text in the file. *)
Theorem schema_however_given :
  forall (S : Type) (loads : str -> result value) (file_at : str -> option str) (from_dict : record -> result S),
    let load := schema_loader loads file_at from_dict in
    (forall l, l <> [] ->
       load (DValue (VList l)) = (let* s := from_dict [($"columns", VList l); ($"name", VStr $"wal")] in Ok (Schema s)) /\
       load (DValue (VDict [($"columns", VList l)])) = load (DValue (VList l)) /\
       load (DValue (VDict [($"fields", VList l)])) = load (DValue (VList l))) /\
    (forall text v,
       (file_at text = None /\ loads text = Ok v \/ exists content, file_at text = Some content /\ loads content = Ok v) ->
       load (DText text) = load (DValue v)).
Proof.
  intros S loads file_at from_dict load.
  exact (conj (Sources.schema_given loads file_at from_dict) (Sources.schema_text loads file_at from_dict)).
Qed.
Print Assumptions schema_however_given.

(** C79: of a dictionary nothing is lost: its fields (if it has any, else its columns) become the columns, its name is kept
    or becomes wal, everything else is as given; and the dictionary can be used again, although the call changes it. *)
Theorem schema_keeps_everything :
  forall (S : Type) (loads : str -> result value) (file_at : str -> option str) (from_dict : record -> result S) (d : record),
    NoDup (map fst d) ->
    exists d', schema_loader loads file_at from_dict (DValue (VDict d)) = (let* s := from_dict d' in Ok (Schema s)) /\
      dget str_eqb $"columns" d' = (match dget str_eqb $"fields" d with
                                    | Some fields => if truthy fields then Some fields else dget str_eqb $"columns" d
                                    | None => dget str_eqb $"columns" d
                                    end) /\
      dget str_eqb $"name" d' = Some (match dget str_eqb $"name" d with Some name => name | None => VStr $"wal" end) /\
      (forall k, k <> $"name" -> k <> $"columns" -> k <> $"fields" -> dget str_eqb k d' = dget str_eqb k d) /\
      left_to_caller d = d' /\
      schema_loader loads file_at from_dict (DValue (VDict d'))
      = schema_loader loads file_at from_dict (DValue (VDict d)).
Proof.
  intros S loads file_at from_dict d Hd. exists (left_to_caller d).
  destruct (Sources.left_spec d Hd) as (H1 & H2 & H3 & _).
  repeat split; auto.
  rewrite !Sources.load_left, Sources.left_again by exact Hd. reflexivity.
Qed.
Print Assumptions schema_keeps_everything.
(** C79: a writer is without a schema only if it is told so with False, and a missing schema is an error. *)
Theorem no_schema_only_if_asked :
  forall (S : Type) (loads : str -> result value) (file_at : str -> option str) (from_dict : record -> result S) (def : definition S),
    (schema_loader loads file_at from_dict def = Ok NoSchema <-> def = DFalse) /\
    (def = DNone -> schema_loader loads file_at from_dict def = Raise ValueError).
Proof. exact @Sources.no_schema. Qed.
Print Assumptions no_schema_only_if_asked.
(** a missing schema and True are errors, False is no schema *)
Example ex_schema :
  let load := schema_loader (S:=record) (fun _ => Raise ValueError) (fun _ => None) (fun d => Ok d) in
  load DNone = Raise ValueError /\ load DFalse = Ok NoSchema /\ load DTrue = Raise AttributeError /\
  load (DValue (VDict [($"x", VInt 1); ($"fields", VList [VStr $"a"])]))
  = Ok (Schema [($"x", VInt 1); ($"columns", VList [VStr $"a"]); ($"name", VStr $"wal")]).
Proof. vm_compute. repeat split. Qed.
