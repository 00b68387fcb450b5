(** Lemmas about means and variances. *)
From Coq Require Import QArith Lia Lqa Permutation.
From Verif.Base Require Import Py PyFacts Value ValueFacts.
From Verif.Model Require Import DictSet Statistics.
From Verif.Spec Require Import DictSet Statistics.
From Verif.Proofs Require DictSet.
Local Open Scope Q_scope.

Lemma num_number v z : num_of v = Some z -> number v = z.
Proof. intro H. unfold number. now rewrite H. Qed.

Lemma exact_sum_numbers vs : all_numbers vs -> exists s, exact_sum vs = Ok s /\ s == sum_of (fun x => x) vs.
Proof.
  induction 1 as [|v vs (z & Hz) _ (s & E & Es)]; cbn [exact_sum sum_of]; [exists 0; split; reflexivity|].
  rewrite Hz, E, (num_number v z Hz). eexists. split; [reflexivity|]. now rewrite Es.
Qed.

Lemma exact_sum_other vs : Exists (fun v => num_of v = None) vs -> exact_sum vs = Raise TypeError.
Proof.
  induction 1 as [v vs H|v vs _ IH]; cbn [exact_sum]; [now rewrite H|]. destruct (num_of v); [now rewrite IH|reflexivity].
Qed.

Lemma sum_shift vs m : sum_of (fun x => x - m) vs == sum_of (fun x => x) vs - many vs * m.
Proof.
  unfold many. induction vs as [|v vs IH]; cbn [sum_of length]; [unfold inject_Z; ring|].
  rewrite IH, Nat2Z.inj_succ, <- Z.add_1_l, inject_Z_plus. ring.
Qed.

Lemma many_pos vs : vs <> [] -> 0 < many vs.
Proof. intro H. unfold many. change 0 with (inject_Z 0). rewrite <- Zlt_Qlt. destruct vs; [congruence|cbn; lia]. Qed.

Lemma mean_unique vs m m' : vs <> [] -> mean_of vs m -> mean_of vs m' -> m == m'.
Proof.
  unfold mean_of. rewrite !sum_shift. intros Hn H H'. pose proof (many_pos vs Hn) as P.
  apply (Qmult_inj_l _ _ (many vs)); [lra|]. lra.
Qed.

Lemma mean_spec c rows : all_numbers (column_values c rows) -> column_values c rows <> [] ->
  exists m, ds_mean c rows = Ok m /\ mean_of (column_values c rows) m.
Proof.
  intros H Hn. unfold ds_mean, statistics_mean. rewrite DictSet.collect_list_spec.
  set (vs := column_values c rows) in *. destruct (exact_sum_numbers vs H) as (s & E & Es).
  replace (Z.of_nat (length vs) <? 1)%Z with false.
  - rewrite E. eexists. split; [reflexivity|]. unfold mean_of. rewrite sum_shift, <- Es.
    change (inject_Z (Z.of_nat (length vs))) with (many vs). rewrite Qmult_div_r; [ring|].
    pose proof (many_pos vs Hn). lra.
  - symmetry. apply Z.ltb_ge. destruct vs; [congruence|cbn; lia].
Qed.

Lemma squares_spec c vs : all_numbers vs -> squares c vs == sum_of (fun x => (x - c) * (x - c)) vs.
Proof.
  intro H. unfold squares.
  assert (G : forall acc, fold_left (fun acc v => match num_of v with
      | Some z => acc + (inject_Z z - c) * (inject_Z z - c) | None => acc end) vs acc == acc + sum_of (fun x => (x - c) * (x - c)) vs).
  { induction H as [|v vs (z & Hz) _ IH]; intro acc; cbn [fold_left sum_of]; [ring|].
    rewrite Hz, IH, (num_number v z Hz). ring. }
  rewrite G. ring.
Qed.

Lemma sum_ext f g vs : (forall x, f x == g x) -> sum_of f vs == sum_of g vs.
Proof. intro H. induction vs as [|v vs IH]; cbn [sum_of]; [reflexivity|]. now rewrite H, IH. Qed.

Lemma variance_spec c rows : all_numbers (column_values c rows) -> (2 <= length (column_values c rows))%nat ->
  exists v, ds_variance c rows = Ok v /\ variance_of (column_values c rows) v.
Proof.
  intros H Hn. assert (Hne : column_values c rows <> []) by (intro E; rewrite E in Hn; cbn in Hn; lia).
  destruct (mean_spec c rows H Hne) as (m & Em & Hm).
  unfold ds_mean, statistics_mean in Em. unfold ds_variance, statistics_variance.
  rewrite DictSet.collect_list_spec in *. set (vs := column_values c rows) in *.
  replace (Z.of_nat (length vs) <? 2)%Z with false by (symmetry; apply Z.ltb_ge; lia).
  destruct (Z.of_nat (length vs) <? 1)%Z; [discriminate|].
  destruct (exact_sum vs) as [s|]; [|discriminate]. injection Em as <-. eexists. split; [reflexivity|].
  eexists. split; [exact Hm|]. rewrite squares_spec by auto.
  assert (E : inject_Z (Z.of_nat (length vs) - 1) == many vs - 1).
  { unfold many, Z.sub. rewrite inject_Z_plus. reflexivity. }
  assert (P : 0 < many vs - 1).
  { rewrite <- E. change 0 with (inject_Z 0). rewrite <- Zlt_Qlt. lia. }
  rewrite <- E. rewrite <- E in P. field. lra.
Qed.

(** ** Consequences *)
Lemma mean_total c rows m : all_numbers (column_values c rows) -> ds_mean c rows = Ok m ->
  exists s, ds_sum c rows = Ok (VInt s) /\ inject_Z s == m * many (column_values c rows).
Proof.
  intros H E. exists (total (column_values c rows)). split; [now apply DictSet.ds_sum_spec|].
  assert (Hn : column_values c rows <> []).
  { intro Z. unfold ds_mean, statistics_mean in E. rewrite DictSet.collect_list_spec, Z in E. discriminate. }
  destruct (mean_spec c rows H Hn) as (m' & E' & Hm). rewrite E in E'. injection E' as <-.
  unfold mean_of in Hm. rewrite sum_shift in Hm.
  assert (G : forall vs, inject_Z (total vs) == sum_of (fun x => x) vs).
  { induction vs as [|v vs IH]; cbn [total sum_of]; [reflexivity|]. now rewrite inject_Z_plus, IH. }
  rewrite G. lra.
Qed.

Lemma sum_bounds vs lo hi : Forall (fun v => lo <= inject_Z (number v) <= hi) vs ->
  lo * many vs <= sum_of (fun x => x) vs <= hi * many vs.
Proof.
  unfold many. induction 1 as [|v vs Hv _ IH]; cbn [sum_of length]; [change (inject_Z (Z.of_nat 0)) with 0; split; lra|].
  rewrite Nat2Z.inj_succ, <- Z.add_1_l, inject_Z_plus. change (inject_Z 1) with 1. lra.
Qed.

Lemma mean_bounds vs m lo hi : vs <> [] -> mean_of vs m -> Forall (fun v => lo <= inject_Z (number v) <= hi) vs -> lo <= m <= hi.
Proof.
  intros Hn Hm Hb. apply sum_bounds in Hb. unfold mean_of in Hm. rewrite sum_shift in Hm.
  pose proof (many_pos vs Hn) as P. split; apply (Qmult_le_l _ _ (many vs)); auto; lra.
Qed.

Lemma sum_perm f vs vs' : Permutation vs vs' -> sum_of f vs == sum_of f vs'.
Proof.
  induction 1; cbn [sum_of]; [reflexivity| |ring|].
  - now rewrite IHPermutation.
  - etransitivity; eassumption.
Qed.

Lemma many_perm vs vs' : Permutation vs vs' -> many vs = many vs'.
Proof. intro H. unfold many. now rewrite (Permutation_length H). Qed.

Lemma column_perm c rows rows' : Permutation rows rows' -> Permutation (column_values c rows) (column_values c rows').
Proof.
  induction 1; cbn [column_values]; auto.
  - destruct (dget str_eqb c x); auto.
  - destruct (dget str_eqb c x), (dget str_eqb c y); auto. constructor.
  - etransitivity; eassumption.
Qed.

Lemma mean_order c rows rows' m : all_numbers (column_values c rows) -> Permutation rows rows' ->
  ds_mean c rows = Ok m -> exists m', ds_mean c rows' = Ok m' /\ m == m'.
Proof.
  intros H P E. pose proof (column_perm c _ _ P) as PC.
  assert (Hn : column_values c rows <> []).
  { intro Z. unfold ds_mean, statistics_mean in E. rewrite DictSet.collect_list_spec, Z in E. discriminate. }
  assert (Hn' : column_values c rows' <> []).
  { intro Z. rewrite Z in PC. apply Permutation_sym, Permutation_nil in PC. contradiction. }
  assert (H' : all_numbers (column_values c rows')) by (eapply Permutation_Forall; eauto).
  destruct (mean_spec c rows H Hn) as (m0 & E0 & Hm). rewrite E in E0. injection E0 as <-.
  destruct (mean_spec c rows' H' Hn') as (m' & E' & Hm'). exists m'. split; auto.
  apply (mean_unique (column_values c rows)); auto. unfold mean_of in *. now rewrite (sum_perm _ _ _ PC).
Qed.

Lemma variance_unique vs v v' : (2 <= length vs)%nat -> variance_of vs v -> variance_of vs v' -> v == v'.
Proof.
  intros Hn (m & Hm & Hv) (m' & Hm' & Hv').
  assert (Hne : vs <> []) by (intro E; rewrite E in Hn; cbn in Hn; lia).
  pose proof (mean_unique vs m m' Hne Hm Hm') as Em.
  assert (P : 0 < many vs - 1).
  { unfold many. change 1 with (inject_Z 1). unfold Qminus. rewrite <- inject_Z_opp, <- inject_Z_plus.
    change 0 with (inject_Z 0). rewrite <- Zlt_Qlt. lia. }
  apply (Qmult_inj_r _ _ (many vs - 1)); [lra|]. rewrite Hv, Hv'. apply sum_ext. intro x. now rewrite Em.
Qed.

Lemma variance_order c rows rows' v : all_numbers (column_values c rows) -> Permutation rows rows' ->
  ds_variance c rows = Ok v -> exists v', ds_variance c rows' = Ok v' /\ v == v'.
Proof.
  intros H P E. pose proof (column_perm c _ _ P) as PC.
  assert (Hn : (2 <= length (column_values c rows))%nat).
  { unfold ds_variance, statistics_variance in E. rewrite DictSet.collect_list_spec in E.
    destruct (Z.of_nat (length (column_values c rows)) <? 2)%Z eqn:L; [discriminate|]. apply Z.ltb_ge in L. lia. }
  assert (Hn' : (2 <= length (column_values c rows'))%nat) by (rewrite <- (Permutation_length PC); auto).
  assert (H' : all_numbers (column_values c rows')) by (eapply Permutation_Forall; eauto).
  destruct (variance_spec c rows H Hn) as (v0 & E0 & Hv). rewrite E in E0. injection E0 as <-.
  destruct (variance_spec c rows' H' Hn') as (v' & E' & Hv'). exists v'. split; auto.
  apply (variance_unique (column_values c rows)); auto. destruct Hv' as (m & Hm & Hs). exists m.
  unfold mean_of in *. rewrite !(sum_perm _ _ _ PC), (many_perm _ _ PC). auto.
Qed.

Lemma squares_nonneg vs m : 0 <= sum_of (fun x => (x - m) * (x - m)) vs.
Proof.
  induction vs as [|v vs IH]; cbn [sum_of]; [lra|]. set (y := inject_Z (number v) - m).
  assert (0 <= y * y) by (destruct (Qlt_le_dec y 0); [setoid_replace (y * y) with ((- y) * (- y)) by ring|];
    apply Qmult_le_0_compat; lra). lra.
Qed.

Lemma squares_zero vs m : sum_of (fun x => (x - m) * (x - m)) vs == 0 -> Forall (fun v => inject_Z (number v) == m) vs.
Proof.
  induction vs as [|v vs IH]; cbn [sum_of]; intro H; [constructor|]. pose proof (squares_nonneg vs m) as P.
  set (y := inject_Z (number v) - m) in *.
  assert (S : 0 <= y * y) by (destruct (Qlt_le_dec y 0); [setoid_replace (y * y) with ((- y) * (- y)) by ring|];
    apply Qmult_le_0_compat; lra).
  assert (Z : y * y == 0) by lra. constructor; [|apply IH; lra].
  apply Qmult_integral in Z. unfold y in Z. destruct Z; lra.
Qed.

Lemma variance_facts vs v : (2 <= length vs)%nat -> variance_of vs v ->
  0 <= v /\ (v == 0 <-> forall x y, In x vs -> In y vs -> number x = number y).
Proof.
  intros Hn (m & Hm & Hv).
  assert (P : 0 < many vs - 1).
  { unfold many. change 1 with (inject_Z 1). unfold Qminus. rewrite <- inject_Z_opp, <- inject_Z_plus.
    change 0 with (inject_Z 0). rewrite <- Zlt_Qlt. lia. }
  pose proof (squares_nonneg vs m) as S. split.
  - rewrite <- Hv in S. destruct (Qlt_le_dec v 0) as [L|L]; auto. exfalso.
    assert (v * (many vs - 1) < 0 * (many vs - 1)) by (apply Qmult_lt_r; auto). lra.
  - split.
    + intros Z x y Hx Hy. rewrite Z in Hv. assert (E : sum_of (fun x => (x - m) * (x - m)) vs == 0) by (rewrite <- Hv; ring).
      apply squares_zero in E. rewrite Forall_forall in E. apply inject_Z_injective. now rewrite (E x Hx), (E y Hy).
    + intro A. destruct vs as [|x vs]; [cbn in Hn; lia|].
      assert (M : m == inject_Z (number x)).
      { apply (mean_unique (x :: vs)); auto; [discriminate|]. unfold mean_of. clear - A.
        assert (G : forall l, (forall y, In y l -> number y = number x) -> sum_of (fun t => t - inject_Z (number x)) l == 0).
        { induction l as [|y l IH]; intro H; cbn [sum_of]; [reflexivity|]. rewrite IH by (intros; apply H; now right).
          rewrite (H y) by now left. ring. }
        apply G. intros y Hy. apply A; [exact Hy|now left]. }
      assert (E : sum_of (fun t => (t - m) * (t - m)) (x :: vs) == 0).
      { assert (G : forall l, (forall y, In y l -> number y = number x) -> sum_of (fun t => (t - m) * (t - m)) l == 0).
        { induction l as [|y l IH]; intro H; cbn [sum_of]; [reflexivity|]. rewrite IH by (intros; apply H; now right).
          rewrite (H y) by now left. rewrite M. ring. }
        apply G. intros y Hy. apply A; [exact Hy|now left]. }
      rewrite E in Hv. apply Qmult_integral in Hv. destruct Hv; [auto|lra].
Qed.

Lemma mean_refused c rows : (column_values c rows = [] -> ds_mean c rows = Raise ValueError) /\
  (Exists (fun v => num_of v = None) (column_values c rows) -> ds_mean c rows = Raise TypeError).
Proof.
  unfold ds_mean, statistics_mean. rewrite DictSet.collect_list_spec. split; intro H; [now rewrite H|].
  rewrite (exact_sum_other _ H). replace (Z.of_nat _ <? 1)%Z with false; auto.
  symmetry. apply Z.ltb_ge. inversion H; subst; cbn; lia.
Qed.

Lemma variance_refused c rows : ((length (column_values c rows) < 2)%nat -> ds_variance c rows = Raise ValueError) /\
  ((2 <= length (column_values c rows))%nat -> Exists (fun v => num_of v = None) (column_values c rows) ->
   ds_variance c rows = Raise TypeError).
Proof.
  unfold ds_variance, statistics_variance. rewrite DictSet.collect_list_spec. split; intro H.
  - replace (Z.of_nat _ <? 2)%Z with true; auto. symmetry. apply Z.ltb_lt. lia.
  - intro He. replace (Z.of_nat _ <? 2)%Z with false by (symmetry; apply Z.ltb_ge; lia). now rewrite (exact_sum_other _ He).
Qed.
