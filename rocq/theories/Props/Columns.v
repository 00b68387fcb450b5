(** Claims about the types of columns (C70) and the least and greatest texts of a column (C59). *)
From Verif.Base Require Import Py Value.
From Verif.Model Require Import Storage DictSet Columns.
From Verif.Spec Require Import DictSet Columns.
From Verif.Proofs Require Columns ColumnsCases.

(** ** C70 *)
(** [types(n)] has the columns of the first n records, each once. *)
Theorem types_name_every_column : forall type_name persisted n rows, 1 <= n -> Forall well_formed rows ->
  first_occurrences eq [] (flat_map (map fst) (firstn n rows)) (map fst (types type_name persisted (Z.of_nat n) rows)).
Proof. exact Columns.types_columns. Qed.
Print Assumptions types_name_every_column.

(** A set which is kept in memory, compressed memory or on disk.  A column whose values in the first n records are,
    but for nulls, of one type: *)
Theorem types_of_a_uniform_column : forall type_name n rows column t, 1 <= n -> Forall well_formed rows ->
  present column (firstn n rows) <> [] -> Forall (fun v => type_name v = t) (present column (firstn n rows)) ->
  dget str_eqb column (types type_name true (Z.of_nat n) rows) = Some t.
Proof. exact Columns.types_one. Qed.
Print Assumptions types_of_a_uniform_column.

(** ... or of several types: *)
Theorem types_of_a_mixed_column : forall type_name n rows column v w, 1 <= n -> Forall well_formed rows ->
  In v (present column (firstn n rows)) -> In w (present column (firstn n rows)) -> type_name v <> type_name w ->
  dget str_eqb column (types type_name true (Z.of_nat n) rows) = Some $"numeric" /\
    Forall (fun x => type_name x = $"int" \/ type_name x = $"float") (present column (firstn n rows)) \/
  dget str_eqb column (types type_name true (Z.of_nat n) rows) = Some $"mixed" /\
    Exists (fun x => type_name x <> $"int" /\ type_name x <> $"float") (present column (firstn n rows)).
Proof. exact Columns.types_several. Qed.
Print Assumptions types_of_a_mixed_column.

Example types_of_people : ColumnsCases.types_claim.
Proof. exact ColumnsCases.types_holds. Qed.

(** A column of nulls only is called mixed, not empty. *)
Theorem types_of_nulls_refuted : forall type_name n rows column, 1 <= n -> Forall well_formed rows ->
  (exists r, In r (firstn n rows) /\ In column (map fst r)) -> present column (firstn n rows) = [] ->
  dget str_eqb column (types type_name true (Z.of_nat n) rows) = Some $"mixed".
Proof. exact Columns.types_nulls. Qed.
Print Assumptions types_of_nulls_refuted.

(** In a set which is not persisted every column is called mixed. *)
Theorem types_without_persistance_refuted : forall type_name n rows, 1 <= n -> Forall well_formed rows ->
  Forall (fun kt => snd kt = $"mixed") (types type_name false (Z.of_nat n) rows).
Proof. exact Columns.types_not_persisted. Qed.
Print Assumptions types_without_persistance_refuted.

(** ** C59: columns of texts *)
Theorem max_of_texts : forall column rows,
  all_texts (column_values column rows) -> column_values column rows <> [] ->
  exists m, ds_max column rows = Ok (VStr m) /\ last_text (column_values column rows) m.
Proof. exact Columns.max_text. Qed.
Print Assumptions max_of_texts.

Theorem min_of_texts : forall column rows,
  all_texts (column_values column rows) -> column_values column rows <> [] ->
  exists m, ds_min column rows = Ok (VStr m) /\ first_text (column_values column rows) m.
Proof. exact Columns.min_text. Qed.
Print Assumptions min_of_texts.

Example greatest_names : ds_max $"n" [[($"n", VStr $"bob")]; []; [($"n", VStr $"bo")]; [($"n", VStr $"ann")]] = Ok (VStr $"bob") /\
  ds_min $"n" [[($"n", VStr $"bob")]; []; [($"n", VStr $"bo")]; [($"n", VStr $"ann")]] = Ok (VStr $"ann").
Proof. split; reflexivity. Qed.
