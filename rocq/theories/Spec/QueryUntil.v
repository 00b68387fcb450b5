(** What is read, and what a query answers, when the condition raises for some of the records. *)
From Verif.Base Require Import Py Value.
From Verif.Model Require Import Tokens Expression.   (* tree; evaluate_recursive: whether it raises *)
From Verif.Spec Require Import Expression Reader Query.

(** what a selection and a filter make of the records of a blob, up to the first for which one of them raises *)
Inductive until_error (columns : value -> result value) (filters : value -> result bool) : list value -> list value -> Prop :=
| all_read : until_error columns filters [] []
| one_kept r v rest out : columns r = Ok v -> filters v = Ok true -> until_error columns filters rest out ->
    until_error columns filters (r :: rest) (v :: out)
| one_left r v rest out : columns r = Ok v -> filters v = Ok false -> until_error columns filters rest out ->
    until_error columns filters (r :: rest) out
| column_raises r e rest : columns r = Raise e -> until_error columns filters (r :: rest) []
| filter_raises r v e rest : columns r = Ok v -> filters v = Raise e -> until_error columns filters (r :: rest) [].

(** a reader which gives the records of blobs: an error ends the blob it is in, and no other *)
Definition gives_blobs (read : (value -> result value) -> (value -> result bool) -> nat -> result (list value)) (blobs : list (list value)) : Prop :=
  forall columns filters n, exists outs, Forall2 (until_error columns filters) blobs outs /\ read columns filters n = Ok (firstn n (concat outs)).

(** the condition returns *)
Definition answered float_of date_of py_is matches (t : option tree) (r : record) : Prop :=
  forall t', t = Some t' -> exists v, evaluate_recursive float_of date_of py_is matches t' r = Ok v.
(** the records of a blob before the first for which the condition raises *)
Definition before_error float_of date_of py_is matches (t : option tree) (blob rows : list record) : Prop :=
  exists rest, blob = rows ++ rest /\ (forall r, In r rows -> answered float_of date_of py_is matches t r) /\
    match rest with
    | [] => True
    | r :: _ => exists t' e, t = Some t' /\ evaluate_recursive float_of date_of py_is matches t' r = Raise e
    end.
