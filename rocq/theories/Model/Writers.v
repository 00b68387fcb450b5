(** Model of mabel/data/writers/internals/blob_writer.py, internals/base_inner_writer.py,
    writer.py and batch_writer.py. *)
From Verif.Base Require Import Py.
From Verif.Model Require Import Paths Cursor.

(** ** Names *)
(** f"{n:x}" *)
Fixpoint hex_fuel (fuel : nat) (n : N) (acc : str) : str :=
  match fuel with
  | O => acc
  | S f => let acc' := hex_digit (n mod 16) :: acc in
           if (n <? 16)%N then acc' else hex_fuel f (n / 16) acc'
  end.
Definition hex (n : N) : str := hex_fuel (S (N.to_nat (N.size n))) n [].

(** blob_writer.py:18 *)
Inductive format := Jsonl | Zstd | Parquet | Text | Flat.
Definition is_parquet (f : format) : bool := match f with Parquet => true | _ => false end.

(** base_inner_writer.py:30-34; [ext] is kwargs.get("extension", ".jsonl") *)
Definition extension (f : format) (ext : str) : str :=
  match f with
  | Zstd => ext ++ $"." ++ $"zstd"
  | Parquet => ext ++ $"." ++ $"parquet"
  | Text => $".txt"
  | _ => ext
  end.
(** base_inner_writer.py:20-37, the attribute [filename] *)
Definition inner_filename (f : format) (ext dataset : str) : result str :=
  let* (bucket, path, _, _) := get_parts dataset in
  let bucket := if str_eqb bucket $"/" then [] else bucket in
  let path := if str_eqb path $"/" then [] else path in
  Ok (bucket ++ $"/" ++ path ++ $"{stem}" ++ extension f ext).
(** base_inner_writer.py:39-45 *)
Definition blob_name (filename node : str) (time_ns : N) : str :=
  replace $"{stem}" (hex time_ns ++ $"-" ++ node) filename.

(** os.path.split(s)[0] (posixpath): up to the last slash, without trailing slashes unless
    there is nothing else *)
Fixpoint rstrip_slash (s : str) : str :=
  match s with
  | [] => []
  | c :: s' => match rstrip_slash s' with
               | [] => if Ascii.eqb c "/" then [] else [c]
               | r => c :: r
               end
  end.
Definition dirname (s : str) : str :=
  match removelast (split "/"%char s) with
  | [] => []
  | ws => let head := join $"/" ws ++ $"/" in
          match rstrip_slash head with [] => head | h => h end
  end.
(** batch_writer.py:128-129 *)
Definition completion_path (filename : str) : str := dirname filename ++ $"/frame.complete".

(** datetime.strftime("as_at_%Y%m%d-%H%M%S") (batch_writer.py:73); years from 1000 on *)
Definition as_at_text (d : moment) : str :=
  $"as_at_" ++ dec_pad 4 (year d) ++ dec_pad 2 (month d) ++ dec_pad 2 (day d) ++ $"-" ++
  dec_pad 2 (hour d) ++ dec_pad 2 (minute d) ++ dec_pad 2 (second d).
(** batch_writer.py:71-84 when no frame_id is given; [now] is utcnow(), [date] the batch date *)
Definition new_frame_id (rnd dataset : str) (partitions : list str) (now date : moment) : result str :=
  let dataset := match partitions with [] => dataset | _ => dataset ++ $"/" ++ join $"/" partitions end in
  build_path rnd (dataset ++ $"/" ++ as_at_text now) date.

(** ** Storage.  [attempts] counts the commits tried so far, [puts] is the log of the blobs stored.
    Simplification: a blob stored twice under one name is two entries of the log. *)
Record world := mkWorld { attempts : nat; puts : list (str * str) }.

(** what the writer depends on, for records of type [R] *)
Record setting (R : Type) := mkSetting {
  s_format : format;
  s_max : Z;                        (* maximum_blob_size *)
  s_filename : str;                 (* inner_writer.filename *)
  s_node : str;                     (* inner_writer._get_node() *)
  s_always : bool;                  (* always_complete *)
  s_check : R -> result unit;       (* expectations and schema (writer.py:137-143) *)
  s_ser : R -> result str;          (* the text of a record, blob_writer.py:66-82: newline included.
                                       the choice of serialiser is in Model/Formats.v *)
  s_zstd : str -> str;              (* zstandard.compress *)
  s_nbytes : list R -> Z;           (* DataFrame.nbytes() *)
  s_parquet : list R -> result str; (* DataFrame.arrow, _normalize_arrow_schema and write_table *)
  s_clock : nat -> N;               (* time_ns() at the n-th attempt *)
  s_fails : nat -> option (option nat) }.
                                    (* Some _: the n-th attempt raises; Some (Some k): having left
                                       the first k bytes behind *)
Arguments s_format {R}. Arguments s_max {R}. Arguments s_filename {R}. Arguments s_node {R}.
Arguments s_always {R}. Arguments s_check {R}. Arguments s_ser {R}. Arguments s_zstd {R}.
Arguments s_nbytes {R}. Arguments s_parquet {R}. Arguments s_clock {R}. Arguments s_fails {R}.

Section Writer.
  Context {R : Type} (E : setting R).

  (** inner_writer.commit(byte_data, override_blob_name), e.g. disk_writer.py:14-29 *)
  Definition inner_commit (w : world) (override : option str) (data : str) : result str * world :=
    let name := match override with
                | Some n => n
                | None => blob_name (s_filename E) (s_node E) (s_clock E (attempts w))
                end in
    match s_fails E (attempts w) with
    | Some None => (Raise StorageError, mkWorld (S (attempts w)) (puts w))
    | Some (Some k) => (Raise StorageError, mkWorld (S (attempts w)) (puts w ++ [(name, firstn k data)]))
    | None => (Ok name, mkWorld (S (attempts w)) (puts w ++ [(name, data)]))
    end.

  (** BlobWriter *)
  Record blobw := mkBlobw { buffer : str; wal : list R; records_in_buffer : nat }.
  (** blob_writer.py:203-209 open_buffer.  The buffer the format does not use stays empty. *)
  Definition open_buffer : blobw := mkBlobw [] [] 0.

  (** blob_writer.py:148-177: the bytes to store *)
  Definition write_buffer (b : blobw) : result str :=
    match s_format E with
    | Parquet => s_parquet E (wal b)
    | Zstd => Ok (s_zstd E (buffer b))
    | _ => Ok (buffer b)
    end.
  (** blob_writer.py:138-201 *)
  Definition commit (b : blobw) (w : world) : result str * (blobw * world) :=
    if (0 <? records_in_buffer b)%nat then
      match write_buffer b with
      | Raise e => (Raise e, (b, w))
      | Ok data =>
          match inner_commit w None data with
          | (Raise e, w') => (Raise e, (b, w'))
          | (Ok name, w') => (Ok name, (open_buffer, w'))
          end
      end
    else (Ok [], (open_buffer, w)).

  (** blob_writer.py:55-63.  Simplification: DataFrame.append (orso) takes every record that gets here. *)
  Definition arrow_append (b : blobw) (w : world) (r : R) : result nat * (blobw * world) :=
    let b := mkBlobw (buffer b) (wal b ++ [r]) (S (records_in_buffer b)) in
    if (s_max E <? s_nbytes E (wal b))%Z then
      match commit b w with
      | (Raise e, bw) => (Raise e, bw)
      | (Ok _, (_, w')) => (Ok (records_in_buffer open_buffer), (open_buffer, w'))
      end
    else (Ok (records_in_buffer b), (b, w)).
  (** blob_writer.py:65-97 *)
  Definition text_append (b : blobw) (w : world) (r : R) : result nat * (blobw * world) :=
    match s_ser E r with
    | Raise e => (Raise e, (b, w))
    | Ok serialized =>
        let extend b w :=
          let b' := mkBlobw (buffer b ++ serialized) (wal b) (S (records_in_buffer b)) in
          (Ok (records_in_buffer b'), (b', w)) in
        if (s_max E <? Z.of_nat (length (buffer b)))%Z then
          match commit b w with
          | (Raise e, bw) => (Raise e, bw)
          | (Ok _, (_, w')) => extend open_buffer w'
          end
        else extend b w
    end.
  (** blob_writer.py:50-53 *)
  Definition blob_append (b : blobw) (w : world) (r : R) : result nat * (blobw * world) :=
    if is_parquet (s_format E) then arrow_append b w r else text_append b w r.

  (** Writer and BatchWriter *)
  Record state := mkState { st_blob : blobw; st_world : world; st_records : nat; st_seen : bool }.
  Definition new_writer (w : world) : state := mkState open_buffer w 0 false.

  (** writer.py:119-146.  Simplification: records are plain dictionaries, not pydantic models. *)
  Definition append (s : state) (r : R) : result unit * state :=
    match s_check E r with
    | Raise e => (Raise e, s)
    | Ok _ =>
        match blob_append (st_blob s) (st_world s) r with
        | (Raise e, (b, w)) => (Raise e, mkState b w (st_records s) (st_seen s))
        | (Ok _, (b, w)) => (Ok tt, mkState b w (S (st_records s)) (st_seen s))
        end
    end.
  (** batch_writer.py:105-135, with writer.py:154-160; -1 is None *)
  Definition finalize (s : state) (has_failure : bool) : result (option str) * state :=
    match commit (st_blob s) (st_world s) with
    | (Raise e, (b, w)) => (Raise e, mkState b w (st_records s) (st_seen s))
    | (Ok final, (b, w)) =>
        if has_failure then (Ok None, mkState b w (st_records s) true)
        else if st_seen s then (Ok None, mkState b w (st_records s) (st_seen s))
        else if (st_records s =? 0)%nat && negb (s_always E)
             then (Ok None, mkState b w (st_records s) (st_seen s))
        else match inner_commit w (Some (completion_path (s_filename E))) [] with
             | (Raise e, w') => (Raise e, mkState b w' (st_records s) (st_seen s))
             | (Ok _, w') => (Ok (Some final), mkState b w' (st_records s) (st_seen s))
             end
    end.

  (** a client's use of one batch writer: it goes on, or not, after an exception *)
  Inductive call := Append (r : R) | Finalize (has_failure : bool).
  Inductive outcome := Returned (final : option str) | Raised (e : exn).
  Definition step (s : state) (c : call) : outcome * state :=
    match c with
    | Append r => match append s r with
                  | (Ok _, s') => (Returned None, s')
                  | (Raise e, s') => (Raised e, s')
                  end
    | Finalize f => match finalize s f with
                    | (Ok n, s') => (Returned n, s')
                    | (Raise e, s') => (Raised e, s')
                    end
    end.
  Fixpoint run (s : state) (cs : list call) : list outcome * state :=
    match cs with
    | [] => ([], s)
    | c :: cs' => let '(o, s') := step s c in
                  let '(os, s'') := run s' cs' in (o :: os, s'')
    end.
End Writer.
Arguments Append {R}. Arguments Finalize {R}.
Arguments buffer {R}. Arguments wal {R}. Arguments records_in_buffer {R}.
Arguments st_blob {R}. Arguments st_world {R}. Arguments st_records {R}. Arguments st_seen {R}.
