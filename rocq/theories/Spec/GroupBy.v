(** What GROUP BY is expected to return. *)
From Verif.Base Require Import Py Value.
From Verif.Spec Require Export DictSet.
From Verif.Model Require Import GroupBy.   (* only the names SUM, MAX, ... and the shape of a result row *)

(** the records which agree with [r] on the grouping columns *)
Definition group_of (columns : list str) (r : record) (rows group : list record) : Prop :=
  picks (agree_on columns r) rows group.

(** the values of a column which are there and not null *)
Fixpoint non_null (c : str) (rows : list record) : list value :=
  match rows with
  | [] => []
  | r :: rest => match rget c r with VNull => non_null c rest | v => v :: non_null c rest end
  end.
(** what COUNT(c) counts *)
Definition counted (c : str) (rows : list record) : nat :=
  if str_eqb c $"*" then length rows else length (non_null c rows).

Fixpoint abs_total (vs : list value) : Z :=
  match vs with [] => 0%Z | v :: vs' => (Z.abs (number v) + abs_total vs')%Z end.

(** the value of one aggregate for one group; an aggregate of no values is null *)
Definition aggregate_is (f : func) (c : str) (group : list record) (x : cell) : Prop :=
  match f with
  | COUNT => x = Cell (if counted c group =? 0 then VNull else VInt (Z.of_nat (counted c group)))
  | SUM => exists v, x = Cell v /\
                     (non_null c group = [] -> v = VNull) /\
                     (non_null c group <> [] -> num_of v = Some (total (non_null c group)))
  | MAX => exists v, x = Cell v /\
                     (non_null c group = [] -> v = VNull) /\
                     (non_null c group <> [] -> greatest (non_null c group) v)
  | MIN => exists v, x = Cell v /\
                     (non_null c group = [] -> v = VNull) /\
                     (non_null c group <> [] -> least (non_null c group) v)
  | AVG => x = Quotient (total (non_null c group)) (Z.of_nat (length (non_null c group)))
  end.

(** the row of the group of [r] *)
Definition row_is (columns : list str) (requested : list (func * str)) (r : record) (group : list record)
           (out : row) : Prop :=
  (forall c, In c columns -> dget str_eqb c out = Some (Cell (rget c r))) /\
  (forall f c, In (f, c) requested ->
     exists x, dget str_eqb (agg_name f c) out = Some x /\ aggregate_is f c group x) /\
  (forall k, In k (map fst out) -> In k columns \/ exists f c, In (f, c) requested /\ k = agg_name f c).

(** there is something to aggregate in the group *)
Definition has_values (requested : list (func * str)) (group : list record) : Prop :=
  exists f c, In (f, c) requested /\ 0 < counted c group.

(** the result: a row for every group which has values, no other rows, no group twice *)
Definition group_by_is (columns : list str) (requested : list (func * str)) (rows : list record)
           (out : list row) : Prop :=
  (forall row, In row out -> exists r group,
     In r rows /\ group_of columns r rows group /\ has_values requested group /\ row_is columns requested r group row) /\
  (forall r group, In r rows -> group_of columns r rows group -> has_values requested group ->
     exists row, In row out /\ row_is columns requested r group row) /\
  (forall i j a b, nth_error out i = Some a -> nth_error out j = Some b ->
     (forall c, In c columns -> dget str_eqb c a = dget str_eqb c b) -> i = j).

(** no aggregate twice, and no average of a column together with its sum or count *)
Definition separate (requested : list (func * str)) : Prop :=
  NoDup requested /\
  forall c, In (AVG, c) requested -> ~ In (SUM, c) requested /\ ~ In (COUNT, c) requested.

(** values the aggregate works on: numbers, with a total of less than 28 digits; for MIN and MAX not zero *)
Definition suitable (rows : list record) (f : func) (c : str) : Prop :=
  match f with
  | COUNT => True
  | SUM | AVG => c <> $"*" /\ number_column c rows /\ (abs_total (non_null c rows) < 10 ^ 28)%Z
  | MIN | MAX => c <> $"*" /\ number_column c rows /\ Forall (fun v => number v <> 0%Z) (non_null c rows)
  end.
