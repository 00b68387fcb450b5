(** Specification: what reading a dataset means. *)
From Verif.Base Require Import Py Value.
From Verif.Spec Require Import Json.

(** the dataset name starts with one of the prefixes *)
Definition permitted (prefixes : list str) (dataset : str) : Prop :=
  exists prefix rest, In prefix prefixes /\ dataset = prefix ++ rest.

(** [k] days back is the first day, today being day 0, on which there is something, and is within the limit (in
    seconds) *)
Definition newest_day (list_at : nat -> result (list str)) (limit : Z) (k : nat) (blobs : list str) : Prop :=
  list_at k = Ok blobs /\ blobs <> [] /\
  (forall j, (j < k)%nat -> list_at j = Ok []) /\
  (Z.of_nat k * 24 * 60 * 60 <= limit)%Z.

Definition line_end (c : ascii) : bool := Ascii.eqb c "010" || Ascii.eqb c "013".
Definition one_line (s : str) : Prop := forall c, In c s -> line_end c = false.
(** what is written is read back and takes one line *)
Definition one_line_json (dump : value -> str) (parse : str -> result value) : Prop :=
  forall v, distinct_keys v -> parse (dump v) = Ok v /\ one_line (dump v).
(** the file with these lines *)
Definition lines_text (lines : list str) : str := concat (map (fun l => l ++ ["010"%char]) lines).

(** the last content stored under a name *)
Fixpoint content_of (log : list (str * str)) (name : str) : option str :=
  match log with
  | [] => None
  | (n, data) :: log' => match content_of log' name with
                         | Some d => Some d
                         | None => if str_eqb n name then Some data else None
                         end
  end.
Definition reads_log (read_blob : str -> result str) (log : list (str * str)) : Prop :=
  forall name data, content_of log name = Some data -> read_blob name = Ok data.

(** the records on the lines before the first damaged one *)
Definition until_damage (parse : str -> result value) (lines : list str) (records : list value) : Prop :=
  exists good rest, lines = good ++ rest /\
    Forall2 (fun line record => parse line = Ok record) good records /\
    (rest = [] \/ exists bad after e, rest = bad :: after /\ parse bad = Raise e).

(** a blob name: a relative path to a file in some folder, with this extension *)
Definition file_with_extension (ext name : str) : Prop :=
  exists dir stem e,
    name = dir ++ $"/" ++ stem ++ ext /\ ext = $"." ++ e /\ e <> [] /\ stem <> [] /\
    ~ In "."%char e /\ ~ In "/"%char e /\ ~ In "/"%char stem /\
    (forall r, dir <> "/"%char :: r) /\
    exists c, In c dir /\ c <> "/"%char /\ c <> "."%char.

(** *** Writing and reading *)
From Verif.Model Require Import Storage Writers Reader.
From Verif.Spec Require Import Writers.
(** the writer stores one JSON text per line, as such or compressed, in files the reader knows by their
    extension *)
Definition json_lines_writer (dump : value -> str) (unzstd : str -> result str) (E : setting value) (ext : str) : Prop :=
  (forall r t, s_ser E r = Ok t -> t = dump r ++ ["010"%char]) /\
  (forall t, unzstd (s_zstd E t) = Ok t) /\
  ((s_format E = Jsonl /\ ext = $".jsonl") \/ (s_format E = Zstd /\ exists e, ext = e ++ $".zstd")).
(** the extensions of data a reader knows *)
Definition data_extension (x : str) : Prop :=
  In x [$".txt"; $".json"; $".zstd"; $".lzma"; $".zip"; $".jsonl"; $".xml"; $".lxml"; $".parquet"; $".csv"].
(** names which end in [ext] are names of data for a reader *)
Definition data_file_extension (ext : str) : Prop := exists e x, ext = e ++ x /\ data_extension x.
(** of a blob of the writer with records which fit the format, the reader's decoder for the extension [x] gives an image
    of each, in their order *)
Definition decodes_as (parse : str -> result value) (unzstd : str -> result str) (other : str -> str -> generator value)
    (E : setting value) (x : str) (fits : value -> Prop) (image : value -> value) : Prop :=
  data_extension x /\
  forall g data, (forall r, In r g -> fits r) -> holds E g data ->
    decode parse unzstd other x data = Some (map image g, None).
(** ... and so it does for the files of the writer, whose names end in [ext] *)
Definition read_as (parse : str -> result value) (unzstd : str -> result str) (other : str -> str -> generator value)
    (E : setting value) (ext : str) (fits : value -> Prop) (image : value -> value) : Prop :=
  exists e x, ext = e ++ x /\ decodes_as parse unzstd other E x fits image.
(** the folder is a relative path with at least one component that is not "." or ".." *)
Definition relative_folder (dir : str) : Prop :=
  (forall r, dir <> "/"%char :: r) /\ exists c, In c dir /\ c <> "/"%char /\ c <> "."%char.

(** a record of which select makes [c r] and for that the filter says [p] *)
Definition applies (columns : value -> result value) (filters : value -> result bool) (c : value -> value) (p : value -> bool)
    (r : value) : Prop :=
  columns r = Ok (c r) /\ filters (c r) = Ok (p (c r)).
