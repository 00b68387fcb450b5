(** The mean and the variance of numbers. *)
From Coq Require Import QArith.
From Verif.Base Require Import Py Value.
From Verif.Spec Require Import DictSet.
Local Open Scope Q_scope.

(** the sum of [f] over numbers *)
Fixpoint sum_of (f : Q -> Q) (vs : list value) : Q :=
  match vs with [] => 0 | v :: vs' => f (inject_Z (number v)) + sum_of f vs' end.

(** how many *)
Definition many (vs : list value) : Q := inject_Z (Z.of_nat (length vs)).

(** the mean: above it there is as much as there is below *)
Definition mean_of (vs : list value) (m : Q) : Prop := sum_of (fun x => x - m) vs == 0.

(** the variance of a sample: the squares of the differences from the mean, divided by one less than their number *)
Definition variance_of (vs : list value) (v : Q) : Prop :=
  exists m, mean_of vs m /\ v * (many vs - 1) == sum_of (fun x => (x - m) * (x - m)) vs.
