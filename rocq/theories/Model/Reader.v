(** mabel/data/readers/reader.py 41-310 (Reader, _LowLevelReader), readers/internals/parallel_reader.py
    50-173, readers/internals/decompressors.py and parsers.py: from a dataset name to records.  The
    listing of blobs is in ReadRange.v and Frames.v, the cursor in Cursor.v. *)
From Verif.Base Require Import Py Value.
From Verif.Model Require Import Paths Dates Frames ReadRange Cursor Storage.

(** ** Reader *)
(** reader.py 149-151; [None] is the default *)
Definition check_prefixes (valid_dataset_prefixes : option (list str)) (dataset : str) : result unit :=
  match valid_dataset_prefixes with
  | None | Some [] => Ok tt
  | Some prefixes => if existsb (fun prefix => startswith prefix dataset) prefixes then Ok tt
                     else Raise AccessDenied
  end.

(** what a Reader asks of its environment *)
Inductive request := CreateAdapter (dataset : str) | ListBlobs (path : str) | ReadBlob (name : str).

Section Open.
  (** the dates which the adapter works out from its arguments (Model/ReadRange.v [reader_dates]), or
      why it cannot be created *)
  Context (adapter_dates : result (datetime * datetime)).
  (** reader.py 149-200: the dates to read and what was asked of the environment; [limit] is
      freshness_limit in seconds.  The logging (173-178) and the choice of the default adapter
      (156-159) are left out. *)
  Definition open_reader (valid_dataset_prefixes : option (list str)) (dataset : str) (limit : Z)
    : result (datetime * datetime) * list request :=
    match check_prefixes valid_dataset_prefixes dataset with
    | Raise e => (Raise e, [])
    | Ok _ =>
        (let* (start_date, end_date) := adapter_dates in
         if negb (limit =? 0)%Z && negb (start_date =? end_date)%Z then Raise InvalidCombination
         else Ok (start_date, end_date),
         [CreateAdapter dataset])
    end.
  (** Reader(...) followed by any use of the records it returns *)
  Definition use_reader {A} (use : datetime * datetime -> result A * list request)
      (valid_dataset_prefixes : option (list str)) (dataset : str) (limit : Z) : result A * list request :=
    match open_reader valid_dataset_prefixes dataset limit with
    | (Raise e, requests) => (Raise e, requests)
    | (Ok dates, requests) => let (r, more) := use dates in (r, requests ++ more)
    end.
End Open.

(** ** _create_line_reader: finding the blobs *)
Definition SECONDS_PER_DAY : Z := 86400.

Section Freshness.
  (** the listing after stepping back k days *)
  Context (list_at : nat -> result (list str)).

  (** reader.py 238-243; the loop ends because k grows (Proofs/Reader.v), [fuel] bounds it *)
  Fixpoint step_back (fuel : nat) (limit : Z) (k : nat) (blob_list : list str) : result (nat * list str) :=
    match blob_list with
    | _ :: _ => Ok (k, blob_list)
    | [] =>
        if (SECONDS_PER_DAY * Z.of_nat k <=? limit)%Z then
          match fuel with
          | O => Raise OutOfFuel
          | S fuel' => let* blob_list := list_at (S k) in step_back fuel' limit (S k) blob_list
          end
        else Ok (k, blob_list)
    end.
  (** reader.py 235-251: how many days it stepped back, and the blobs found *)
  Definition find_blobs (limit : Z) : result (nat * list str) :=
    let* blob_list := list_at 0 in
    if (1 <? limit)%Z then
      let* (k, blob_list) := step_back (S (S (Z.to_nat (limit / SECONDS_PER_DAY)))) limit 0 blob_list in
      if (limit <? SECONDS_PER_DAY * Z.of_nat k)%Z then Raise DataNotFoundError
      else Ok (k, blob_list)
    else Ok (0%nat, blob_list).
End Freshness.

(** base_inner_reader.py 60-63 [step_back_a_day], k times, then get_list_of_blobs *)
Definition list_days_back (pf : option (str * str * str)) (store : str -> list str) (now : datetime)
    (rnd dataset : str) (start_date end_date : datetime) (k : nat) : result (list str) :=
  list_range pf store now rnd dataset (start_date - SECONDS_PER_DAY * Z.of_nat k)%Z
                                      (end_date - SECONDS_PER_DAY * Z.of_nat k)%Z.

(** parallel_reader.py 44-65: the known extensions *)
Inductive extension_type := DATA | CONTROL | INDEX.
Definition KNOWN_EXTENSIONS : list (str * extension_type) :=
  [($".txt", DATA); ($".json", DATA); ($".zstd", DATA); ($".lzma", DATA); ($".zip", DATA);
   ($".jsonl", DATA); ($".xml", DATA); ($".lxml", DATA); ($".parquet", DATA); ($".csv", DATA);
   ($".ignore", CONTROL); ($".complete", CONTROL); ($".manifest", CONTROL); ($".idx", INDEX)].
(** reader.py 254: ["." + b.split(".")[-1]] *)
Definition last_extension (blob : str) : str := "."%char :: last (split "."%char blob) [].
(** reader.py 254-259 *)
Definition is_readable (blob : str) : bool :=
  match dget str_eqb (last_extension blob) KNOWN_EXTENSIONS with Some DATA => true | _ => false end.

(** ** decompressors *)
Definition LF : ascii := "010".
Definition CR : ascii := "013".
(** bytes.splitlines(): lines end in "\n", "\r" or "\r\n"; nothing after the last end is no line *)
Fixpoint splitlines_from (line : str) (text : str) : list str :=
  match text with
  | [] => match line with [] => [] | _ => [line] end
  | c :: rest =>
      if Ascii.eqb c LF then line :: splitlines_from [] rest
      else if Ascii.eqb c CR then
        line :: match rest with
                | d :: rest' => if Ascii.eqb d LF then splitlines_from [] rest' else splitlines_from [] rest
                | [] => splitlines_from [] rest
                end
      else splitlines_from (line ++ [c]) rest
  end.
Definition splitlines (text : str) : list str := splitlines_from [] text.

Section Decode.
  (** orjson.loads; zstandard's decompression; the lzma, zip, xml, lxml, parquet and csv decoders, which
      are in Decoders.v *)
  Context (parse_json : str -> result value) (unzstd : str -> result str)
          (other_decoder : str -> str -> generator value).

  (** parallel_reader.py 50-65: the decompressor followed by the parser of an extension;
      decompressors.py 4-11 (zstd), 62-67 (lines), 70-71 (block); parsers.py 3-5.  Bytes are texts. *)
  Definition decode (ext : str) (data : str) : option (generator value) :=
    match dget str_eqb ext KNOWN_EXTENSIONS with
    | None => None
    | Some DATA =>
        Some (if str_eqb ext $".txt" then ([VStr data], None)
              else if str_eqb ext $".json" then map_gen parse_json [data] None
              else if str_eqb ext $".jsonl" then map_gen parse_json (splitlines data) None
              else if str_eqb ext $".zstd" then
                match unzstd data with
                | Raise e => ([], Some e)
                | Ok text => map_gen parse_json (removelast (split LF text)) None
                end
              else other_decoder ext data)
    | Some _ => Some ([], None)
    end.
End Decode.

(** ** ParallelReader *)
Section ParallelReader.
  Context (parse_json : str -> result value) (unzstd : str -> result str)
          (other_decoder : str -> str -> generator value).
  (** the adapter's read_blob; the select (Evaluator or pass_thru) and the filter (Expression,
      DnfFilters or pass_thru) *)
  Context (read_blob : str -> result str) (columns : value -> result value) (filters : value -> result bool).

  (** parallel_reader.py 160-167: [filter(filters, map(columns, records))] *)
  Fixpoint select_and_filter (records : list value) (fin : option exn) : generator value :=
    match records with
    | [] => ([], fin)
    | record :: rest =>
        match columns record with
        | Raise e => ([], Some e)
        | Ok selected =>
            match filters selected with
            | Raise e => ([], Some e)
            | Ok keep => let '(ys, e) := select_and_filter rest fin in
                         (if keep then selected :: ys else ys, e)
            end
        end
    end.

  (** parallel_reader.py 132-138 *)
  Definition format_of (override_format : option str) : option str :=
    match override_format with
    | None | Some [] => None
    | Some f => let f := lower f in
                Some (match f with "."%char :: _ => f | _ => "."%char :: f end)
    end.
  (** parallel_reader.py 142-146: the extension, [None] when there is none *)
  Definition extension_of (override_format : option str) (blob_name : str) : result (option str) :=
    match format_of override_format with
    | Some f => Ok (Some f)
    | None => let* (_, _, _, ext) := get_parts blob_name in Ok ext
    end.

  (** parallel_reader.py 140-173: the records of a blob; what goes wrong is logged and ends the blob *)
  Definition blob_records (override_format : option str) (blob_name : str) : list value :=
    match extension_of override_format blob_name with
    | Ok (Some ext) =>
        match dget str_eqb ext KNOWN_EXTENSIONS with
        | None => []
        | Some _ =>
            match read_blob blob_name with
            | Raise _ => []
            | Ok data =>
                match decode parse_json unzstd other_decoder ext data with
                | None => []
                | Some (records, fin) => fst (select_and_filter records fin)
                end
            end
        end
    | _ => []
    end.
End ParallelReader.

(** parallel_reader.py 68 *)
Definition pass_thru (record : value) : result value := Ok record.
(** [filter(pass_thru, ...)] keeps what is truthy *)
Definition pass_thru_filter (record : value) : result bool := Ok (truthy record).

(** ** _create_line_reader *)
Section LineReader.
  Context (hash : str -> Z) (loads : str -> result cdict).
  (** reader.py 233-303, without multiprocessing: the first n records *)
  Definition read_records (list_at : nat -> result (list str)) (limit : Z) (records : str -> list value)
      (cursor : saved) (n : nat) : result (list value * saved) :=
    let* (_, blob_list) := find_blobs list_at limit in
    match filter is_readable blob_list with
    | [] => Raise DataNotFoundError
    | readable_blobs => session hash loads records readable_blobs cursor n
    end.
End LineReader.
