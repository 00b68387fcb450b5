(** C34, C35, C36, C37: GROUP BY. *)
From Verif.Base Require Import Py Value.
From Verif.Model Require Import DictSet GroupBy.
From Verif.Spec Require Import GroupBy.
From Verif.Proofs Require GroupBy.

(** For every hash, list of grouping columns, list of aggregates and set of records.  Provided the code tells
    the groups apart ([group_key]; see [groups_told_apart_partial] for when it does and the refutations
    for when it does not), there are fewer than 4999999 groups, no aggregate is requested twice and no average
    together with the sum or count of its column, sums have at most 28 digits, MIN and MAX see no zero, no
    grouping column is named like an aggregate, and groups with values have values to average:
    the result has exactly one row for every group with values, it shows the group's columns and its COUNT,
    SUM, MIN, MAX and AVG as defined in Spec.GroupBy, and has nothing else.
    Missing: what these conditions exclude. *)
Theorem group_by_exact_partial : forall xxh columns requested rows,
  (forall a b, In a rows -> In b rows -> (group_key xxh columns a = group_key xxh columns b <-> agree_on columns a b)) ->
  (Z.of_nat (length (dedup str_eqb (map (group_text columns) rows))) < 4999999)%Z ->
  separate requested ->
  (forall f c, In (f, c) requested -> suitable rows f c) ->
  (forall f c, In (f, c) requested -> ~ In (agg_name f c) columns) ->
  (forall c r group, In (AVG, c) requested -> In r rows -> group_of columns r rows group ->
                     has_values requested group -> 0 < counted c group) ->
  exists out, aggregate xxh columns requested rows = Ok out /\ group_by_is columns requested rows out.
Proof. exact GroupBy.aggregate_spec. Qed.
Print Assumptions group_by_exact_partial.

(** the definition of the result does not depend on the order of the records *)
Theorem group_by_ignores_order : forall columns requested rows rows' out,
  Permutation rows rows' -> group_by_is columns requested rows out -> group_by_is columns requested rows' out.
Proof. exact GroupBy.group_by_perm. Qed.
Print Assumptions group_by_ignores_order.

(** Every grouping column holds texts only, or numbers, booleans and nulls only; the values of all but the last are
    printed with the same number of characters (a single column needs no such condition); no two different texts have
    the same hash: two records have the same key iff they agree on every grouping column.  Missing: other columns. *)
Theorem groups_told_apart_partial : forall xxh columns rows,
  (forall c, In c columns -> one_kind c rows) ->
  (forall front last, columns = front ++ [last] -> forall c, In c front -> same_width c rows) ->
  (forall a b, In a rows -> In b rows -> xxh (group_text columns a) = xxh (group_text columns b) ->
               group_text columns a = group_text columns b) ->
  forall a b, In a rows -> In b rows -> (group_key xxh columns a = group_key xxh columns b <-> agree_on columns a b).
Proof. exact GroupBy.text_keys_faithful. Qed.
Print Assumptions groups_told_apart_partial.

(** [groups()]: one record for each group, in order of first occurrence, with exactly the grouping columns *)
Theorem groups_exact_partial : forall xxh columns rows,
  (forall a b, In a rows -> In b rows -> (group_key xxh columns a = group_key xxh columns b <-> agree_on columns a b)) ->
  (Z.of_nat (length (dedup str_eqb (map (group_text columns) rows))) < 4999999)%Z ->
  exists firsts out, first_occurrences (agree_on columns) [] rows firsts /\
    groups xxh columns rows = Ok out /\
    Forall2 (fun r o => first_occurrences eq [] columns (map fst o) /\
                        forall c, In c columns -> dget str_eqb c o = Some (rget c r)) firsts out.
Proof. exact GroupBy.groups_spec. Qed.
Print Assumptions groups_exact_partial.

(** a case which meets the conditions; the hash is one without collisions: the bytes as a number *)
Definition text_code (s : str) : N := fold_left (fun a c => a * 257 + N_of_ascii c + 1)%N s 0%N.
Definition sales : list record :=
  [[($"where", VStr $"UK"); ($"what", VStr $"tea"); ($"n", VInt 3)];
   [($"where", VStr $"FR"); ($"what", VStr $"coffee"); ($"n", VInt (-7))];
   [($"what", VStr $"tea"); ($"where", VStr $"UK"); ($"n", VNull)];
   [($"where", VStr $"UK"); ($"what", VStr $"tea"); ($"n", VInt 4)];
   [($"where", VStr $"UK"); ($"what", VStr $"coffee"); ($"n", VInt 9)]].
Definition asked : list (func * str) := [(COUNT, $"*"); (COUNT, $"n"); (SUM, $"n"); (MIN, $"n"); (MAX, $"n")].
Ltac each H := repeat (destruct H as [<-|H]; [|]); try contradiction.
Example sales_told_apart : forall a b, In a sales -> In b sales ->
  (group_key text_code [$"where"; $"what"] a = group_key text_code [$"where"; $"what"] b <-> agree_on [$"where"; $"what"] a b).
Proof.
  apply GroupBy.text_keys_faithful.
  - intros c Hc. left. intros r Hr. each Hr; each Hc; eexists; reflexivity.
  - intros front last E c Hc r r' Hr Hr'.
    destruct front as [|x [|y [|]]]; try discriminate; injection E as; subst; [].
    each Hc. each Hr; each Hr'; reflexivity.
  - intros a b Ha Hb. each Ha; each Hb; vm_compute; intros E; try reflexivity; discriminate.
Qed.
Example sales_few : (Z.of_nat (length (dedup str_eqb (map (group_text [$"where"; $"what"]) sales))) < 4999999)%Z.
Proof. vm_compute. reflexivity. Qed.
Example sales_suitable : separate asked /\ (forall f c, In (f, c) asked -> suitable sales f c) /\
  (forall f c, In (f, c) asked -> ~ In (agg_name f c) [$"where"; $"what"]).
Proof.
  assert (number_column $"n" sales) as Hn.
  { intros r Hr. each Hr; vm_compute; eauto. }
  split; [|split].
  - split; [repeat constructor; vm_compute; intuition discriminate|].
    intros c H. exfalso. vm_compute in H. intuition discriminate.
  - intros f c H. repeat (destruct H as [E|H]; [injection E as <- <-|]); try contradiction; simpl; auto.
    + split; [discriminate|]. split; auto. reflexivity.
    + split; [discriminate|]. split; auto. repeat constructor; discriminate.
    + split; [discriminate|]. split; auto. repeat constructor; discriminate.
  - intros f c H. repeat (destruct H as [E|H]; [injection E as <- <-|]); try contradiction; vm_compute; intuition discriminate.
Qed.
Example sales_by_place :
  aggregate text_code [$"where"; $"what"] [(COUNT, $"*"); (COUNT, $"n"); (SUM, $"n")] sales =
  Ok [[($"COUNT(*)", Cell (VInt 3)); ($"COUNT(n)", Cell (VInt 2)); ($"SUM(n)", Cell (VInt 7));
       ($"where", Cell (VStr $"UK")); ($"what", Cell (VStr $"tea"))];
      [($"COUNT(*)", Cell (VInt 1)); ($"COUNT(n)", Cell (VInt 1)); ($"SUM(n)", Cell (VInt (-7)));
       ($"where", Cell (VStr $"FR")); ($"what", Cell (VStr $"coffee"))];
      [($"COUNT(*)", Cell (VInt 1)); ($"COUNT(n)", Cell (VInt 1)); ($"SUM(n)", Cell (VInt 9));
       ($"where", Cell (VStr $"UK")); ($"what", Cell (VStr $"coffee"))]].
Proof. vm_compute. reflexivity. Qed.
Example sales_average :
  aggregate text_code [$"where"] [(AVG, $"n")] sales =
  Ok [[($"AVG(n)", Quotient (-7) 1); ($"where", Cell (VStr $"FR"))];
      [($"AVG(n)", Quotient 16 3); ($"where", Cell (VStr $"UK"))]] /\
  separate [(AVG, $"n")] /\ suitable sales AVG $"n" /\ ~ In (agg_name AVG $"n") [$"where"] /\
  forall c r group, In (AVG, c) [(AVG, $"n")] -> In r sales -> group_of [$"where"] r sales group ->
                    has_values [(AVG, $"n")] group -> 0 < counted c group.
Proof.
  repeat split; try (vm_compute; (reflexivity || discriminate)).
  - repeat constructor. intros [].
  - intros [E|[]]. discriminate.
  - intros [E|[]]. discriminate.
  - intros r Hr. each Hr; vm_compute; eauto.
  - vm_compute. intuition discriminate.
  - intros c r group [E|[]] _ _ (f & c' & [E'|[]] & L). injection E as <-. injection E' as <- <-. exact L.
Qed.

(** ** The conditions are needed; whatever the hash *)
Ltac run := unfold aggregate; cbn; unfold reduce_record, dhas, dget_entry; cbn; rewrite ?N.eqb_refl;
            repeat progress (cbn; unfold dget_entry; rewrite ?N.eqb_refl;
              repeat match goal with |- context [decimal_round (Zpos ?p)] =>
                       let v := eval vm_compute in (decimal_round (Zpos p)) in
                       change (decimal_round (Zpos p)) with v end); reflexivity.

(** C34: the count of a column with no values is null, not 0 *)
Theorem group_by_count_refuted : exists columns c rows, forall xxh, exists out,
  aggregate xxh columns [(COUNT, $"*"); (COUNT, c)] rows = Ok [out] /\
  counted c rows = 0 /\ dget str_eqb (agg_name COUNT c) out = Some (Cell VNull).
Proof.
  exists [$"g"], $"n", [[($"g", VInt 1); ($"n", VNull)]]. intros xxh.
  exists [($"COUNT(*)", Cell (VInt 1)); ($"COUNT(n)", Cell VNull); ($"g", Cell (VInt 1))].
  split; [run|split; reflexivity].
Qed.
Print Assumptions group_by_count_refuted.

(** C35: the least of 0 and 5 is said to be 5, the greatest of -5 and 0 is said to be -5 *)
Theorem group_by_min_max_refuted : exists columns c rows, forall xxh,
  non_null c rows = [VInt 5; VInt 0; VInt (-5)] /\ 
  exists low high, aggregate xxh columns [(MIN, c)] (firstn 2 rows) = Ok [low] /\
                   dget str_eqb (agg_name MIN c) low = Some (Cell (VInt 5)) /\
                   aggregate xxh columns [(MAX, c)] (skipn 1 rows) = Ok [high] /\
                   dget str_eqb (agg_name MAX c) high = Some (Cell (VInt (-5))).
Proof.
  exists [$"g"], $"n", [[($"g", VInt 1); ($"n", VInt 5)]; [($"g", VInt 1); ($"n", VInt 0)]; [($"g", VInt 1); ($"n", VInt (-5))]].
  intros xxh. split; [reflexivity|].
  exists [($"MIN(n)", Cell (VInt 5)); ($"g", Cell (VInt 1))], [($"MAX(n)", Cell (VInt (-5))); ($"g", Cell (VInt 1))].
  repeat split; run.
Qed.
Print Assumptions group_by_min_max_refuted.

(** C36: asked for with the average of the same column, the sum of 5 and 7 is doubled, and with it the average *)
Theorem group_by_combined_refuted : exists columns c rows, forall xxh, exists alone together,
  aggregate xxh columns [(SUM, c)] rows = Ok [alone] /\ aggregate xxh columns [(AVG, c); (SUM, c)] rows = Ok [together] /\
  dget str_eqb (agg_name SUM c) alone = Some (Cell (VInt 12)) /\
  dget str_eqb (agg_name SUM c) together = Some (Cell (VInt 24)) /\
  dget str_eqb (agg_name AVG c) together = Some (Quotient 24 2).
Proof.
  exists [$"g"], $"n", [[($"g", VInt 1); ($"n", VInt 5)]; [($"g", VInt 1); ($"n", VInt 7)]]. intros xxh.
  exists [($"SUM(n)", Cell (VInt 12)); ($"g", Cell (VInt 1))],
         [($"AVG(n)", Quotient 24 2); ($"SUM(n)", Cell (VInt 24)); ($"g", Cell (VInt 1))].
  repeat split; run.
Qed.
Print Assumptions group_by_combined_refuted.

(** C36: an average over no values, next to another aggregate, raises *)
Theorem group_by_average_refuted : exists columns c rows, forall xxh,
  aggregate xxh columns [(COUNT, $"*"); (AVG, c)] rows = Raise KeyError.
Proof. exists [$"g"], $"n", [[($"g", VInt 1); ($"n", VNull)]]. intros xxh. run. Qed.
Print Assumptions group_by_average_refuted.

(** C37: records which differ in both grouping columns are counted as one group, ... *)
Theorem group_by_columns_refuted : exists columns a b, ~ agree_on columns a b /\ forall xxh, exists out,
  aggregate xxh columns [(COUNT, $"*")] [a; b] = Ok [out] /\ dget str_eqb $"COUNT(*)" out = Some (Cell (VInt 2)).
Proof.
  exists [$"p"; $"q"], [($"p", VStr $"a"); ($"q", VStr $"bc")], [($"p", VStr $"ab"); ($"q", VStr $"c")].
  split; [intros H; discriminate (H $"p" (or_introl eq_refl))|]. intros xxh.
  exists [($"COUNT(*)", Cell (VInt 2)); ($"p", Cell (VStr $"a")); ($"q", Cell (VStr $"bc"))]. split; run.
Qed.
Print Assumptions group_by_columns_refuted.

(** ... and so are, with a single column, the number 1 and the text "1"; *)
Theorem group_by_types_refuted : exists column a b, rget column a <> rget column b /\ forall xxh, exists out,
  aggregate xxh [column] [(COUNT, $"*")] [a; b] = Ok [out] /\ dget str_eqb $"COUNT(*)" out = Some (Cell (VInt 2)).
Proof.
  exists $"p", [($"p", VStr $"1")], [($"p", VInt 1)]. split; [discriminate|]. intros xxh.
  exists [($"COUNT(*)", Cell (VInt 2)); ($"p", Cell (VStr $"1"))]. split; run.
Qed.
Print Assumptions group_by_types_refuted.

(** a group without values has no row *)
Theorem group_by_every_group_refuted : exists columns c rows, rows <> [] /\ forall xxh,
  aggregate xxh columns [(SUM, c)] rows = Ok [].
Proof.
  exists [$"g"], $"n", [[($"g", VInt 1); ($"n", VNull)]]. split; [discriminate|]. intros xxh. run.
Qed.
Print Assumptions group_by_every_group_refuted.
