(** Specification: the formats of a writer and what is read of them. *)
From Verif.Base Require Import Py Value.
From Verif.Model Require Import DictSet Storage Writers Formats.
From Verif.Spec Require Import Json Reader.

(** what orjson writes is read back and takes one line *)
Definition faithful_orjson (orjson : value -> result str) (parse : str -> result value) : Prop :=
  forall v t, distinct_keys v -> orjson v = Ok t -> parse t = Ok v /\ one_line t.
(** orjson writes it (it does not write integers of more than 64 bits) *)
Definition writable (orjson : value -> result str) (v : value) : Prop := distinct_keys v /\ exists t, orjson v = Ok t.
(** a record without nesting *)
Definition flattened (r : value) : value := match r with VDict d => VDict (flatten d) | _ => r end.
