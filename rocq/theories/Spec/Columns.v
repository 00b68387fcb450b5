(** Specification: the types of columns, least and greatest texts. *)
From Verif.Base Require Import Py Value.
From Verif.Spec Require Import DictSet.

(** the values of a column, of the records which have it, without the nulls *)
Definition present (column : str) (rows : list record) : list value :=
  filter (fun v => match v with VNull => false | _ => true end) (column_values column rows).

(** texts have the order of their characters *)
Definition all_texts (vs : list value) : Prop := Forall (fun v => exists s, v = VStr s) vs.
Definition last_text (vs : list value) (m : str) : Prop :=
  In (VStr m) vs /\ forall s, In (VStr s) vs -> str_leb s m = true.
Definition first_text (vs : list value) (m : str) : Prop :=
  In (VStr m) vs /\ forall s, In (VStr s) vs -> str_leb m s = true.
