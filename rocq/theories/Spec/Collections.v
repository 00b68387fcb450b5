(** Specification: records split by the value of a column; pages. *)
From Verif.Base Require Import Py Value.

(** a record without one of its columns *)
Definition without (column : str) (r : record) : record := filter (fun kv => negb (str_eqb (fst kv) column)) r.

(** the records whose value is (equal to) [k], in order, without the column *)
Definition records_with (column : str) (k : value) (rows : list record) : list record :=
  map (without column) (filter (fun r => py_eq (rget column r) k) rows).

Record partitions (column : str) (rows : list record) (groups : list (value * list record)) : Prop := {
  (* every group is the records with its value *)
  group_exact : forall k g, In (k, g) groups -> g = records_with column k rows /\ g <> [];
  (* every record's value has a group *)
  group_exists : forall r, In r rows -> exists k g, In (k, g) groups /\ py_eq (rget column r) k = true;
  (* and only one *)
  group_once : ForallOrdPairs (fun a b => py_eq (fst a) (fst b) = false) groups
}.

(** the value is one Python can use as a dictionary key *)
Definition can_be_key (v : value) : Prop := match v with VList _ | VDict _ => False | _ => True end.

(** the values of a column which are there and are not null, in the order of the records *)
Definition known_values (column : str) (rows : list record) : list value :=
  filter (fun v => match v with VNull => false | _ => true end) (map (rget column) rows).

(** two records have equal values in the same columns, in whatever order *)
Definition same_record (a b : record) : Prop :=
  (forall c v, In (c, v) a -> exists w, In (c, w) b /\ py_eq v w = true) /\
  (forall c v, In (c, v) b -> exists w, In (c, w) a /\ py_eq v w = true).
