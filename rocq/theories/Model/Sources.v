(** Model of mabel/adapters/null/null_reader.py and mabel/data/validator/__init__.py. *)
From Verif.Base Require Import Py Value.
From Verif.Model Require Import Reader.

(** ** NullReader *)
(** null_reader.py 14-15 *)
Definition null_blobs_at_path (path : str) : list str := [path ++ $"/null.jsonl"].
(** null_reader.py 17-20 *)
Definition null_blob_bytes (dumps : value -> str) (data : list value) (blob_name : str) : result str :=
  Ok (join [LF] (map dumps data)).

(** ** schema_loader *)
(** what can be given as a schema *)
Inductive definition (S : Type) :=
| DNone | DFalse | DTrue
| DSchema (s : S)
| DText (s : str)
| DValue (v : value).        (* a dictionary, a list or another value *)
Arguments DNone {S}. Arguments DFalse {S}. Arguments DTrue {S}. Arguments DSchema {S} s.
Arguments DText {S} s. Arguments DValue {S} v.
(** a schema, or False for none *)
Inductive loaded (S : Type) := NoSchema | Schema (s : S).
Arguments NoSchema {S}. Arguments Schema {S} s.

Section SchemaLoader.
  (** orjson.loads; the text of the file at a path, if there is one; RelationSchema.from_dict *)
  Context {S : Type} (loads : str -> result value) (file_at : str -> option str) (from_dict : record -> result S).

  (** validator/__init__.py 34-41 *)
  Definition load_value (v : value) : result (loaded S) :=
    let* d := match v with
              | VDict d => Ok (match dget str_eqb $"fields" d with
                               | Some fields => if truthy fields then dset str_eqb $"columns" fields (ddel str_eqb $"fields" d) else d
                               | None => d
                               end)
              | VList l => Ok [($"columns", VList l)]
              | _ => Raise AttributeError
              end in
    let d := dset str_eqb $"name" (match dget str_eqb $"name" d with Some name => name | None => VStr $"wal" end) d in
    let* s := from_dict d in Ok (Schema s).
  (** validator/__init__.py 13-41 *)
  Definition schema_loader (def : definition S) : result (loaded S) :=
    match def with
    | DNone => Raise ValueError
    | DFalse => Ok NoSchema
    | DTrue => Raise AttributeError
    | DSchema s => Ok (Schema s)
    | DText text =>
        let* v := loads (match file_at text with Some content => content | None => text end) in load_value v
    | DValue v => load_value v
    end.
  (** what the caller's own dictionary is after the call: validator/__init__.py 34-40 change it in place *)
  Definition left_to_caller (d : record) : record :=
    let d := match dget str_eqb $"fields" d with
             | Some fields => if truthy fields then dset str_eqb $"columns" fields (ddel str_eqb $"fields" d) else d
             | None => d
             end in
    dset str_eqb $"name" (match dget str_eqb $"name" d with Some name => name | None => VStr $"wal" end) d.
End SchemaLoader.
