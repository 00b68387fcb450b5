(** Model: how a record becomes a line of a blob. *)
From Verif.Base Require Import Py Value.
From Verif.Model Require Import DictSet Writers.

(** The libraries: orjson.dumps, json.dumps and str. *)
Section Serialise.
  Context (orjson json : value -> result str) (to_str : value -> str).
  (** blob_writer.py 66-82 (text_append): the text of a record with the line end.  orjson's error is a TypeError, then json is
      tried; flatten of what is no dictionary raises as it has no items.
      Simplification: records are texts or other values, not bytes; records which carry their own text ([mini]) are not
      modelled.  Parquet has no text per record (arrow_append). *)
  Definition serialise (f : format) (r : value) : result str :=
    let* text :=
      match f with
      | Text => Ok (match r with VStr s => s | _ => to_str r end)
      | Flat => match r with VDict d => orjson (VDict (flatten d)) | _ => Raise AttributeError end
      | _ => match orjson r with
             | Ok t => Ok t
             | Raise TypeError => json r
             | Raise e => Raise e
             end
      end in
    Ok (text ++ ["010"%char]).
End Serialise.
