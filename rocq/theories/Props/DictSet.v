(** C31, C32, C33, C40, C52, C53, C59: operations on sets of records. *)
From Verif.Base Require Import Py Value.
From Verif.Model Require Import DictSet.
From Verif.Spec Require Import DictSet.
From Verif.Proofs Require DictSet Sorting.

(** ** C31 *)
(** For every set of records whose column holds numbers, or texts (nulls and missing values allowed), every
    number of records asked for, both directions and both implementations (in memory or not): the answer is
    the beginning of the set sorted by the column, nulls first when ascending and last when descending, ties
    in their original order. *)
Theorem sort_and_take_is_sort_then_take : forall in_memory column n descending rows,
  number_column column rows \/ text_column column rows ->
  exists full, stable_sort (row_le column descending) rows full /\
               sort_and_take in_memory column (Z.of_nat n) descending rows = Ok (firstn n full).
Proof. exact Sorting.sort_and_take_spec. Qed.
Print Assumptions sort_and_take_is_sort_then_take.

(** there is only one such order, so the theorem above determines the answer *)
Theorem stable_sort_unique : forall column descending rows one other,
  number_column column rows \/ text_column column rows ->
  stable_sort (row_le column descending) rows one -> stable_sort (row_le column descending) rows other ->
  one = other.
Proof. exact Sorting.stable_sort_unique. Qed.
Print Assumptions stable_sort_unique.

Definition planets : list record :=
  [[($"n", VStr $"b"); ($"v", VInt 2)]; [($"n", VStr $"a"); ($"v", VInt 2)]; [($"n", VStr $"c")];
   [($"n", VStr $"d"); ($"v", VInt (-1))]; [($"n", VStr $"e"); ($"v", VNull)]; [($"n", VStr $"f"); ($"v", VInt 7)]].
Example planets_numbers : number_column $"v" planets.
Proof.
  intros r H. repeat (destruct H as [<-|H]; [try (left; reflexivity); right; eexists; reflexivity|]). destruct H.
Qed.
Example planets_names : text_column $"n" planets.
Proof. intros r H. repeat (destruct H as [<-|H]; [right; eexists; reflexivity|]). destruct H. Qed.
Example planets_sorted :
  (forall mem, (let* s := sort_and_take mem $"v" 4 false planets in Ok (map (rget $"n") s)) =
   Ok [VStr $"c"; VStr $"e"; VStr $"d"; VStr $"b"]) /\
  (forall mem, (let* s := sort_and_take mem $"v" 4 true planets in Ok (map (rget $"n") s)) =
   Ok [VStr $"f"; VStr $"b"; VStr $"a"; VStr $"d"]).
Proof. split; intros []; vm_compute; reflexivity. Qed.

(** ** C32 *)
(** [take(n)] for n of at least 1; missing: n = 0, where the property is false (below) *)
Theorem take_first_partial : forall n rows, 1 <= n -> take (Z.of_nat n) rows = firstn n rows.
Proof. exact DictSet.take_spec. Qed.
Print Assumptions take_first_partial.

(** [take(0)] gives every record *)
Theorem take_first_refuted : exists n rows, take (Z.of_nat n) rows <> firstn n rows.
Proof. exists 0, planets. discriminate. Qed.
Print Assumptions take_first_refuted.

Theorem take_zero_takes_all : forall n rows, (n <= 0)%Z -> take n rows = rows.
Proof. exact (DictSet.itake_from_all 0). Qed.
Print Assumptions take_zero_takes_all.

(** ** C33 *)
(** Every column holds texts only, or numbers, booleans and nulls only; the values of all columns but the last are
    printed with the same number of characters (so a single column needs no such condition); and different texts do
    not have the same hash: the first record of every combination of values is kept.  Missing: other columns, see the
    refutations. *)
Theorem distinct_columns_partial : forall hash columns rows, columns <> [] ->
  (forall c, In c columns -> one_kind c rows) ->
  (forall front last, columns = front ++ [last] -> forall c, In c front -> same_width c rows) ->
  (forall a b, In a rows -> In b rows ->
     hash (column_text columns a) = hash (column_text columns b) -> column_text columns a = column_text columns b) ->
  first_occurrences (agree_on columns) [] rows (distinct hash columns rows).
Proof. exact DictSet.distinct_columns_spec. Qed.
Print Assumptions distinct_columns_partial.

(** Without columns: records with the same column names, whose values are told apart by their texts, and for which
    the combined hashes of the numbered values do not collide *)
Theorem distinct_records_partial : forall hash rows names,
  (forall r, In r rows -> map fst r = names) ->
  (forall a b v w, In a rows -> In b rows -> In v (map snd a) -> In w (map snd b) -> py_str v = py_str w -> v = w) ->
  (forall a b, In a rows -> In b rows ->
     xor_all hash (numbered 0 (map snd a)) = xor_all hash (numbered 0 (map snd b)) ->
     numbered 0 (map snd a) = numbered 0 (map snd b)) ->
  first_occurrences eq [] rows (distinct hash [] rows).
Proof. exact DictSet.distinct_rows_texts. Qed.
Print Assumptions distinct_records_partial.

(** a hash without collisions, for the examples: the bytes of the text as a number *)
Definition text_number (s : str) : Z := fold_left (fun a c => a * 257 + Z.of_N (N_of_ascii c) + 1)%Z s 0%Z.
Example distinct_codes :
  distinct text_number [$"a"; $"b"]
    [[($"a", VStr $"x"); ($"b", VStr $"yz")]; [($"b", VStr $"yz"); ($"a", VStr $"x"); ($"c", VInt 1)];
     [($"a", VStr $"x"); ($"b", VStr $"y")]] =
    [[($"a", VStr $"x"); ($"b", VStr $"yz")]; [($"a", VStr $"x"); ($"b", VStr $"y")]].
Proof. vm_compute. reflexivity. Qed.
Example distinct_codes_conditions :
  let rows := [[($"a", VStr $"x"); ($"b", VInt 12)]; [($"b", VBool true); ($"a", VStr $"y")]; [($"a", VStr $"x"); ($"b", VInt 12)]] in
  distinct text_number [$"a"; $"b"] rows = firstn 2 rows /\
  (forall c, In c [$"a"; $"b"] -> one_kind c rows) /\ same_width $"a" rows /\
  forall a b, In a rows -> In b rows ->
    text_number (column_text [$"a"; $"b"] a) = text_number (column_text [$"a"; $"b"] b) ->
    column_text [$"a"; $"b"] a = column_text [$"a"; $"b"] b.
Proof.
  cbv zeta. repeat split.
  - intros c [<-|[<-|[]]]; [left|right]; intros r Hr; repeat (destruct Hr as [<-|Hr]; [eexists; (reflexivity || (split; [reflexivity|exact I]))|]); destruct Hr.
  - intros r r' Hr Hr'. repeat (destruct Hr as [<-|Hr]; [repeat (destruct Hr' as [<-|Hr']; [reflexivity|]); destruct Hr'|]). destruct Hr.
  - intros a b Ha Hb. repeat (destruct Ha as [<-|Ha]; [repeat (destruct Hb as [<-|Hb];
      [vm_compute; intros H; (reflexivity || discriminate H)|]); destruct Hb|]). destruct Ha.
Qed.
Example distinct_codes_records :
  let rows := [[($"a", VInt 1); ($"b", VInt 2)]; [($"a", VInt 2); ($"b", VInt 1)]; [($"a", VInt 1); ($"b", VInt 2)]] in
  distinct text_number [] rows = [[($"a", VInt 1); ($"b", VInt 2)]; [($"a", VInt 2); ($"b", VInt 1)]] /\
  (forall a b, In a rows -> In b rows ->
    xor_all text_number (numbered 0 (map snd a)) = xor_all text_number (numbered 0 (map snd b)) ->
    numbered 0 (map snd a) = numbered 0 (map snd b)) /\
  (forall a b v w, In a rows -> In b rows -> In v (map snd a) -> In w (map snd b) -> py_str v = py_str w -> v = w).
Proof.
  split; [vm_compute; reflexivity|]. split.
  - intros a b Ha Hb.
    repeat (destruct Ha as [<-|Ha]; [repeat (destruct Hb as [<-|Hb];
      [vm_compute; intros H; (reflexivity || discriminate H)|]); destruct Hb|]). destruct Ha.
  - intros a b v w Ha Hb Hv Hw.
    assert (V: v = VInt 1 \/ v = VInt 2) by (repeat (destruct Ha as [<-|Ha]; [cbn in Hv; intuition congruence|]); destruct Ha).
    assert (X: w = VInt 1 \/ w = VInt 2) by (repeat (destruct Hb as [<-|Hb]; [cbn in Hw; intuition congruence|]); destruct Hb).
    destruct V as [-> | ->], X as [-> | ->]; vm_compute; intros H; (reflexivity || discriminate H).
Qed.

(** whatever the hash: ("x", "yz") and ("xy", "z") count as the same combination *)
Theorem distinct_columns_refuted : exists columns rows, forall hash,
  ~ first_occurrences (agree_on columns) [] rows (distinct hash columns rows).
Proof.
  exists [$"a"; $"b"], [[($"a", VStr $"x"); ($"b", VStr $"yz")]; [($"a", VStr $"xy"); ($"b", VStr $"z")]].
  intros hash. unfold distinct. simpl. rewrite Z.eqb_refl. simpl. intros F.
  inversion F; subst; [|match goal with H : exists y, _ |- _ => destruct H as (y & Hy & _); destruct Hy end].
  match goal with H : first_occurrences _ ([] ++ _) _ _ |- _ => inversion H; subst end.
  match goal with H : exists y, _ |- _ => destruct H as (y & Hy & A) end. destruct Hy as [<-|[]].
  specialize (A $"a" (or_introl eq_refl)). discriminate A.
Qed.
Print Assumptions distinct_columns_refuted.

(** whatever the hash: {"a": 1} and {"b": 1} count as the same record *)
Theorem distinct_records_refuted : exists rows, forall hash,
  ~ first_occurrences eq [] rows (distinct hash [] rows).
Proof.
  exists [[($"a", VInt 1)]; [($"b", VInt 1)]].
  intros hash. unfold distinct. simpl. rewrite Z.eqb_refl. simpl. intros F.
  inversion F; subst; [|match goal with H : exists y, _ |- _ => destruct H as (y & Hy & _); destruct Hy end].
  match goal with H : first_occurrences _ ([] ++ _) _ _ |- _ => inversion H; subst end.
  match goal with H : exists y, _ |- _ => destruct H as (y & Hy & A) end. destruct Hy as [<-|[]]. discriminate A.
Qed.
Print Assumptions distinct_records_refuted.

(** ** C40 *)
(** A nested record without lists, whose keys are not empty and have no dot: every leaf is there under its
    dotted path, and nothing else.  Missing: lists, where values are lost (below). *)
Theorem flatten_leaves_partial : forall r, nested (VDict r) ->
  forall key x, dget str_eqb key (flatten r) = Some x <->
                exists path, leaf_at path x (VDict r) /\ key = join $"." path.
Proof. exact DictSet.flatten_spec. Qed.
Print Assumptions flatten_leaves_partial.

Definition nested_record : record :=
  [($"a", VInt 1); ($"b", VDict [($"c", VStr $"x"); ($"d", VDict [($"a", VNull)])])].
Example nested_record_ok : nested (VDict nested_record) /\
  flatten nested_record = [($"a", VInt 1); ($"b.c", VStr $"x"); ($"b.d.a", VNull)].
Proof.
  split; [|vm_compute; reflexivity].
  assert (forall k, k = $"a" \/ k = $"b" \/ k = $"c" \/ k = $"d" -> plain_key k) as K.
  { intros k H. split; [intros ->; decompose [or] H; discriminate|].
    intros I. decompose [or] H; subst; simpl in I; decompose [or] I; (discriminate || contradiction). }
  assert (forall d : list (str * value), NoDup (map fst d) -> Forall plain_key (map fst d) ->
                                         Forall nested (map snd d) -> nested (VDict d)) as D by (intros; constructor 2; auto).
  apply D; [repeat (constructor; [simpl; intuition discriminate|]); constructor
           |repeat (constructor; [apply K; auto 6|]); constructor|].
  simpl. constructor; [constructor; exact I|]. constructor; [|constructor].
  apply D; [repeat (constructor; [simpl; intuition discriminate|]); constructor
           |repeat (constructor; [apply K; auto 6|]); constructor|].
  simpl. constructor; [constructor; exact I|]. constructor; [|constructor].
  apply D; [repeat (constructor; [simpl; intuition discriminate|]); constructor
           |repeat (constructor; [apply K; auto 6|]); constructor|].
  simpl. constructor; [constructor; exact I|]. constructor.
Qed.

(** {"a": [1], "b": [2]} becomes {"0": 2}: the value 1 is lost *)
Theorem flatten_lists_refuted :
  exists r x, (exists k l, In (k, VList l) r /\ In x l) /\ ~ In x (map snd (flatten r)).
Proof.
  exists [($"a", VList [VInt 1]); ($"b", VList [VInt 2])], (VInt 1). split.
  - exists $"a", [VInt 1]. split; left; reflexivity.
  - vm_compute. intros [H|[]]; discriminate H.
Qed.
Print Assumptions flatten_lists_refuted.

(** ** C52 *)
(** Reordering the columns of each record, and then the records, does not change the hash *)
Theorem hash_order_independent : forall dumps cityhash seed one middle other,
  Forall well_formed one -> Forall2 same_columns one middle -> Permutation middle other ->
  ds_hash dumps cityhash seed one = ds_hash dumps cityhash seed other.
Proof. exact DictSet.ds_hash_spec. Qed.
Print Assumptions hash_order_independent.

Example hash_reordered :
  let one := [[($"a", VInt 1); ($"b", VInt 2)]; [($"a", VInt 3)]] in
  let middle := [[($"b", VInt 2); ($"a", VInt 1)]; [($"a", VInt 3)]] in
  Forall well_formed one /\ Forall2 same_columns one middle /\ Permutation middle (rev middle).
Proof.
  repeat split.
  - repeat constructor; simpl; intuition discriminate.
  - repeat constructor.
  - apply Permutation_rev.
Qed.

(** A record which occurs twice does not count at all: sets of different sizes have the same hash *)
Theorem hash_ignores_pairs : forall dumps cityhash seed r rows,
  ds_hash dumps cityhash seed (r :: r :: rows) = ds_hash dumps cityhash seed rows.
Proof. exact DictSet.ds_hash_twice. Qed.
Print Assumptions hash_ignores_pairs.

(** ** C53 *)
(** [select] with a list of column names: every record is replaced, in place, by one with exactly the
    requested columns in the requested order (a repeated name counts once), holding the record's value or null *)
Theorem select_exact : forall columns rows, ~ In $"*" columns ->
  Forall2 (fun r out => first_occurrences eq [] columns (map fst out) /\
                        forall k, In k columns -> dget str_eqb k out = Some (rget k r))
          rows (select columns rows).
Proof. exact DictSet.select_spec. Qed.
Print Assumptions select_exact.

Theorem select_record_fields_exact : forall r fields,
  first_occurrences eq [] fields (map fst (select_record_fields r fields)) /\
  forall k, In k fields -> dget str_eqb k (select_record_fields r fields) = Some (rget k r).
Proof. exact DictSet.select_record_fields_spec. Qed.
Print Assumptions select_record_fields_exact.

(** [set_value] changes the one field only *)
Theorem set_value_exact : forall r field s k,
  dget str_eqb k (set_value r field s) =
  if str_eqb k field then Some (match s with Constant v => v | Computed g => g r end) else dget str_eqb k r.
Proof. exact DictSet.set_value_spec. Qed.
Print Assumptions set_value_exact.

(** [order] keeps the entries and sorts them by name *)
Theorem order_exact : forall r, well_formed r ->
  Permutation (order r) r /\ StronglySorted (fun a b => str_leb a b = true) (map fst (order r)).
Proof. exact DictSet.order_spec. Qed.
Print Assumptions order_exact.

Example select_example :
  ~ In $"*" [$"v"; $"z"; $"v"] /\
  select [$"v"; $"z"; $"v"] (firstn 1 planets) = [[($"v", VInt 2); ($"z", VNull)]] /\
  order [($"b", VInt 1); ($"a", VInt 2)] = [($"a", VInt 2); ($"b", VInt 1)].
Proof. split; [|split; vm_compute; reflexivity]. simpl. intuition discriminate. Qed.

(** ** C59 *)
(** a column whose values (of the records which have it) are numbers, at least one *)
Theorem max_exact : forall column rows,
  all_numbers (column_values column rows) -> column_values column rows <> [] ->
  exists m, ds_max column rows = Ok m /\ greatest (column_values column rows) m.
Proof. exact DictSet.ds_max_spec. Qed.
Print Assumptions max_exact.

Theorem min_exact : forall column rows,
  all_numbers (column_values column rows) -> column_values column rows <> [] ->
  exists m, ds_min column rows = Ok m /\ least (column_values column rows) m.
Proof. exact DictSet.ds_min_spec. Qed.
Print Assumptions min_exact.

Theorem min_max_exact : forall column rows lo hi,
  ds_min column rows = Ok lo -> ds_max column rows = Ok hi -> ds_min_max column rows = Ok (lo, hi).
Proof. exact DictSet.ds_min_max_both. Qed.
Print Assumptions min_max_exact.

Theorem sum_exact : forall column rows, all_numbers (column_values column rows) ->
  ds_sum column rows = Ok (VInt (total (column_values column rows))).
Proof. exact DictSet.ds_sum_spec. Qed.
Print Assumptions sum_exact.

Theorem collect_list_exact : forall column rows, collect_list column rows = column_values column rows.
Proof. exact DictSet.collect_list_spec. Qed.
Print Assumptions collect_list_exact.

(** the keys of all records, each once, in the order of their first occurrence *)
Theorem keys_exact : forall rows, Forall well_formed rows ->
  first_occurrences eq [] (flat_map (map fst) rows) (keys 0 rows).
Proof. exact DictSet.keys_all_spec. Qed.
Print Assumptions keys_exact.

Theorem keys_of_first_rows : forall n rows, 1 <= n -> Forall well_formed rows ->
  first_occurrences eq [] (flat_map (map fst) (firstn n rows)) (keys (Z.of_nat n) rows).
Proof. exact DictSet.keys_some_spec. Qed.
Print Assumptions keys_of_first_rows.

Example aggregates :
  let rows := [[($"v", VInt (-3)); ($"k", VNull)]; [($"k", VInt 1)]; [($"v", VInt 0)]; [($"v", VInt 5)]] in
  all_numbers (column_values $"v" rows) /\ Forall well_formed rows /\
  ds_max $"v" rows = Ok (VInt 5) /\ ds_min $"v" rows = Ok (VInt (-3)) /\ ds_sum $"v" rows = Ok (VInt 2) /\
  keys 0 rows = [$"v"; $"k"].
Proof.
  cbv zeta. split; [|split; [|repeat split; vm_compute; reflexivity]].
  - repeat constructor; simpl; eauto.
  - repeat constructor; simpl; intuition discriminate.
Qed.

(** A null among the values: no maximum, minimum or sum of the other values, but an exception *)
Theorem aggregates_skip_nulls_refuted : exists column rows,
  In (VInt 1) (column_values column rows) /\
  ds_max column rows = Raise TypeError /\ ds_min column rows = Raise TypeError /\ ds_sum column rows = Raise TypeError.
Proof.
  exists $"v", [[($"v", VInt 1)]; [($"v", VNull)]]. split; [left; reflexivity|repeat split].
Qed.
Print Assumptions aggregates_skip_nulls_refuted.
