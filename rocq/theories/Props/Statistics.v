(** The mean and the variance of a column (C80). *)
From Coq Require Import QArith Permutation.
From Verif.Base Require Import Py Value.
From Verif.Model Require Import DictSet Statistics.
From Verif.Spec Require Import DictSet Statistics.
From Verif.Proofs Require Statistics.
Local Open Scope nat_scope.

(** ** C80 *)
(** numbers in a column, at least one; records without the column don't count *)
Theorem mean_exact : forall column rows,
  all_numbers (column_values column rows) -> column_values column rows <> [] ->
  exists m, ds_mean column rows = Ok m /\ mean_of (column_values column rows) m.
Proof. exact Statistics.mean_spec. Qed.
Print Assumptions mean_exact.

(** there is only one mean; it lies between any bounds of the numbers, and times their number it is the sum *)
Theorem mean_is_one : forall vs m m', vs <> [] -> mean_of vs m -> mean_of vs m' -> (m == m')%Q.
Proof. exact Statistics.mean_unique. Qed.
Print Assumptions mean_is_one.

Theorem mean_within_bounds : forall vs m lo hi, vs <> [] -> mean_of vs m ->
  Forall (fun v => (lo <= inject_Z (number v) <= hi)%Q) vs -> (lo <= m <= hi)%Q.
Proof. exact Statistics.mean_bounds. Qed.
Print Assumptions mean_within_bounds.

Theorem mean_and_sum : forall column rows m, all_numbers (column_values column rows) -> ds_mean column rows = Ok m ->
  exists s, ds_sum column rows = Ok (VInt s) /\ (inject_Z s == m * many (column_values column rows))%Q.
Proof. exact Statistics.mean_total. Qed.
Print Assumptions mean_and_sum.

(** of two numbers or more, the variance *)
Theorem variance_exact : forall column rows,
  all_numbers (column_values column rows) -> 2 <= length (column_values column rows) ->
  exists v, ds_variance column rows = Ok v /\ variance_of (column_values column rows) v.
Proof. exact Statistics.variance_spec. Qed.
Print Assumptions variance_exact.

Theorem variance_is_one : forall vs v v', 2 <= length vs -> variance_of vs v -> variance_of vs v' -> (v == v')%Q.
Proof. exact Statistics.variance_unique. Qed.
Print Assumptions variance_is_one.

(** it is never negative, and zero only if all numbers are the same *)
Theorem variance_of_equals : forall vs v, 2 <= length vs -> variance_of vs v ->
  (0 <= v)%Q /\ ((v == 0)%Q <-> forall x y, In x vs -> In y vs -> number x = number y).
Proof. exact Statistics.variance_facts. Qed.
Print Assumptions variance_of_equals.

(** the order of the records doesn't matter *)
Theorem mean_of_any_order : forall column rows rows' m, all_numbers (column_values column rows) ->
  Permutation rows rows' -> ds_mean column rows = Ok m -> exists m', ds_mean column rows' = Ok m' /\ (m == m')%Q.
Proof. exact Statistics.mean_order. Qed.
Print Assumptions mean_of_any_order.

Theorem variance_of_any_order : forall column rows rows' v, all_numbers (column_values column rows) ->
  Permutation rows rows' -> ds_variance column rows = Ok v ->
  exists v', ds_variance column rows' = Ok v' /\ (v == v')%Q.
Proof. exact Statistics.variance_order. Qed.
Print Assumptions variance_of_any_order.

(** too few numbers, or a null, a text, a list or a record among them, are errors *)
Theorem mean_refuses : forall column rows,
  (column_values column rows = [] -> ds_mean column rows = Raise ValueError) /\
  (Exists (fun v => num_of v = None) (column_values column rows) -> ds_mean column rows = Raise TypeError).
Proof. exact Statistics.mean_refused. Qed.
Print Assumptions mean_refuses.

Theorem variance_refuses : forall column rows,
  (length (column_values column rows) < 2 -> ds_variance column rows = Raise ValueError) /\
  (2 <= length (column_values column rows) -> Exists (fun v => num_of v = None) (column_values column rows) ->
   ds_variance column rows = Raise TypeError).
Proof. exact Statistics.variance_refused. Qed.
Print Assumptions variance_refuses.

Example statistics_case :
  let rows := [[($"v", VInt (-3)); ($"k", VNull)]; [($"k", VInt 1)]; [($"v", VInt 0)]; [($"v", VInt 5)]] in
  all_numbers (column_values $"v" rows) /\ length (column_values $"v" rows) = 3 /\
  ds_mean $"v" rows = Ok (2 # 3)%Q /\
  (exists v, ds_variance $"v" rows = Ok v /\ (v == 49 # 3)%Q) /\
  ds_mean $"k" rows = Raise TypeError /\ ds_mean $"none" rows = Raise ValueError.
Proof.
  cbv zeta. split; [|split; [reflexivity|split; [reflexivity|split; [|split; reflexivity]]]].
  - repeat constructor; eexists; reflexivity.
  - eexists. split; [vm_compute; reflexivity|]. reflexivity.
Qed.
