(** C24: the formats of a writer which a reader reads back. *)
From Verif.Base Require Import Py Value.
From Verif.Model Require Import Dates Frames Cursor DictSet Storage Writers Reader Formats Json.
From Verif.Spec Require Import Json Writers Reader Formats.
From Verif.Proofs Require Formats FormatsCases RoundTrip.

(** Lines of JSON, plain or compressed: the records themselves, of those which orjson writes. *)
Theorem json_lines_are_read_back :
  forall (orjson json : value -> result str) (to_str : value -> str) (parse : str -> result value) (unzstd : str -> result str)
         (other : str -> str -> generator value) (E : setting value) (e : str),
    (forall r, s_ser E r = serialise orjson json to_str (s_format E) r) -> faithful_orjson orjson parse ->
    s_format E = Jsonl ->
    read_as parse unzstd other E (e ++ $".jsonl") (writable orjson) (fun r => r).
Proof. exact Formats.jsonl_read. Qed.
Print Assumptions json_lines_are_read_back.

Theorem compressed_lines_are_read_back :
  forall (orjson json : value -> result str) (to_str : value -> str) (parse : str -> result value) (unzstd : str -> result str)
         (other : str -> str -> generator value) (E : setting value) (e : str),
    (forall r, s_ser E r = serialise orjson json to_str (s_format E) r) -> faithful_orjson orjson parse ->
    s_format E = Zstd -> (forall t, unzstd (s_zstd E t) = Ok t) ->
    read_as parse unzstd other E (e ++ $".zstd") (writable orjson) (fun r => r).
Proof. exact Formats.zstd_read. Qed.
Print Assumptions compressed_lines_are_read_back.

(** Flat lines: the records without nesting (C40 says what that is), whatever the records are. *)
Theorem flat_lines_are_read_back :
  forall (orjson json : value -> result str) (to_str : value -> str) (parse : str -> result value) (unzstd : str -> result str)
         (other : str -> str -> generator value) (E : setting value) (e : str),
    (forall r, s_ser E r = serialise orjson json to_str (s_format E) r) -> faithful_orjson orjson parse ->
    s_format E = Flat ->
    read_as parse unzstd other E (e ++ $".jsonl") (fun r => exists d, r = VDict d) flattened.
Proof. exact Formats.flat_read. Qed.
Print Assumptions flat_lines_are_read_back.

(** Parquet: what the library gives of the table it made. *)
Theorem parquet_is_read_back :
  forall (parse : str -> result value) (unzstd : str -> result str) (other : str -> str -> generator value)
         (E : setting value) (ext e : str) (fits : value -> Prop) (image : value -> value),
    s_format E = Parquet -> ext = e ++ $".parquet" ->
    (forall g data, (forall r, In r g -> fits r) -> s_parquet E g = Ok data -> other $".parquet" data = (map image g, None)) ->
    read_as parse unzstd other E ext fits image.
Proof. exact RoundTrip.parquet_read. Qed.
Print Assumptions parquet_is_read_back.

(** The text format is not read back: the texts of a blob come back as one, with their line ends. *)
Theorem texts_are_not_read_back_refuted :
  exists texts : list value, length texts = 2 /\ (forall t, In t texts -> exists s, t = VStr s) /\
    FormatsCases.read_of Text $".txt" texts = Ok [VStr ($"one" ++ ["010"%char] ++ $"two" ++ ["010"%char])].
Proof.
  exists [VStr $"one"; VStr $"two"]. split; [reflexivity|]. split; [|vm_compute; reflexivity].
  intros t [<-|[<-|[]]]; eexists; reflexivity.
Qed.
Print Assumptions texts_are_not_read_back_refuted.

(** *** Examples *)
Import FormatsCases.
Example ex_formats : forall f ext, (forall r, s_ser (any_set f ext) r = serialise to_orjson to_orjson (fun _ => []) (s_format (any_set f ext)) r) /\
  faithful_orjson to_orjson loads.
Proof. intros f ext. split; [reflexivity|exact orjson_ok]. Qed.
(** the rows of a table have all its columns *)
Example ex_parquet : read_as loads ReaderCases.unz a_decoder (any_set Parquet $".jsonl.parquet") $".jsonl.parquet"
  (fun r => distinct_keys r /\ exists d, r = VDict d) (table_row some_columns).
Proof. exact parquet_ok. Qed.
Example ex_read_back :
  read_of Jsonl $".jsonl" nested_rows = Ok nested_rows /\ read_of Zstd $".jsonl.zstd" nested_rows = Ok nested_rows /\
  read_of Flat $".jsonl" nested_rows = Ok (map flattened nested_rows) /\
  read_of Parquet $".jsonl.parquet" nested_rows = Ok (map (table_row some_columns) nested_rows).
Proof. vm_compute. auto. Qed.
