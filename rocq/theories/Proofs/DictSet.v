(** Operations on sets of records. *)
From Verif.Base Require Import Py PyFacts Value ValueFacts.
From Verif.Model Require Import DictSet.
From Verif.Spec Require Import DictSet.

(** ** take *)
Lemma itake_from_spec count n rows : (count < n)%Z ->
  itake_from count n rows = firstn (Z.to_nat (n - count)) rows.
Proof.
  revert count. induction rows as [|r rows IH]; intros count H; simpl.
  - rewrite firstn_nil. reflexivity.
  - destruct (Z.to_nat (n - count)) as [|m] eqn:E; [lia|]. simpl. f_equal.
    destruct (count + 1 =? n)%Z eqn:F.
    + replace m with 0 by lia. reflexivity.
    + rewrite IH by lia. f_equal. lia.
Qed.

Lemma take_spec n rows : 1 <= n -> take (Z.of_nat n) rows = firstn n rows.
Proof. intros H. unfold take, itake. rewrite itake_from_spec by lia. f_equal. lia. Qed.

Lemma itake_from_all count n rows : (n <= count)%Z -> itake_from count n rows = rows.
Proof.
  revert count. induction rows as [|r rows IH]; intros count H; simpl; auto.
  replace (count + 1 =? n)%Z with false by lia. rewrite IH by lia. reflexivity.
Qed.

(** ** dictionaries built from items *)
Lemma mkdict_snoc items k v : mkdict (items ++ [(k, v)]) = dset str_eqb k v (mkdict items).
Proof. unfold mkdict. rewrite fold_left_app. reflexivity. Qed.

Lemma mkdict_get items k : dget str_eqb k (mkdict items) = dget str_eqb k (rev items).
Proof.
  induction items as [|[k' v] items IH] using rev_ind; auto.
  rewrite mkdict_snoc, rev_app_distr. simpl. destruct (str_eqb k k') eqn:E.
  - apply str_eqb_eq in E. subst. apply dget_dset_same, str_keqb.
  - rewrite dget_dset_other; auto using str_keqb. intros ->. rewrite str_eqb_refl in E. discriminate.
Qed.

Lemma mkdict_keys_NoDup items : NoDup (dkeys (mkdict items)).
Proof.
  induction items as [|[k v] items IH] using rev_ind; [constructor|].
  rewrite mkdict_snoc. apply dset_NoDup; auto using str_keqb.
Qed.

Lemma mkdict_id items : NoDup (map fst items) -> mkdict items = items.
Proof.
  induction items as [|[k v] items IH] using rev_ind; auto. intros H.
  rewrite mkdict_snoc. rewrite map_app in H. simpl in H.
  pose proof (NoDup_remove_1 _ _ _ H) as H1. pose proof (NoDup_remove_2 _ _ _ H) as H2.
  rewrite app_nil_r in *. rewrite IH by auto. apply dset_notin; auto using str_keqb.
Qed.


Lemma dedup_snoc (l : list str) k :
  dedup str_eqb (l ++ [k]) = if str_mem k l then dedup str_eqb l else dedup str_eqb l ++ [k].
Proof.
  induction l as [|x l IH]; simpl; auto. rewrite IH. clear IH. unfold str_mem, mem. simpl.
  fold (mem str_eqb k l). fold (str_mem k l).
  destruct (str_eqb k x) eqn:E; simpl.
  - apply str_eqb_eq in E. subst x. destruct (str_mem k l); auto.
    rewrite filter_app. simpl. rewrite str_eqb_refl. simpl. rewrite app_nil_r. reflexivity.
  - destruct (str_mem k l); auto. rewrite filter_app. simpl.
    destruct (str_eqb x k) eqn:F; auto. apply str_eqb_eq in F. subst. rewrite str_eqb_refl in E. discriminate.
Qed.

Lemma str_mem_In k l : str_mem k l = true <-> In k l.
Proof.
  unfold str_mem, mem. rewrite existsb_exists. split.
  - intros (x & Hx & E). apply str_eqb_eq in E. subst. auto.
  - intros H. exists k. split; auto. apply str_eqb_refl.
Qed.

Lemma mkdict_keys items : dkeys (mkdict items) = dedup str_eqb (map fst items).
Proof.
  induction items as [|[k v] items IH] using rev_ind; auto.
  rewrite mkdict_snoc, map_app. simpl. rewrite dedup_snoc, dkeys_dset, IH.
  assert (dhas str_eqb k (mkdict items) = str_mem k (map fst items)) as ->.
  { unfold dhas. destruct (str_mem k (map fst items)) eqn:E.
    - destruct (dget str_eqb k (mkdict items)) eqn:F; auto.
      apply dget_None in F; auto using str_keqb. exfalso. apply F. rewrite IH.
      apply dedup_In; auto using str_keqb. apply str_mem_In. auto.
    - destruct (dget str_eqb k (mkdict items)) eqn:F; auto.
      apply dget_Some_keys in F; auto using str_keqb. rewrite IH in F.
      apply dedup_In in F; auto using str_keqb. apply str_mem_In in F. congruence. }
  reflexivity.
Qed.

(** ** select *)
Lemma dget_map_key (f : str -> value) k l :
  dget str_eqb k (map (fun k => (k, f k)) l) = if str_mem k l then Some (f k) else None.
Proof.
  unfold str_mem, mem. induction l as [|x l IH]; simpl; auto. destruct (str_eqb k x) eqn:E; simpl; auto.
  apply str_eqb_eq in E. subst. reflexivity.
Qed.

Lemma select_one_spec columns r :
  map fst (select_one columns r) = dedup str_eqb columns /\
  forall k, In k columns -> dget str_eqb k (select_one columns r) = Some (rget k r).
Proof.
  unfold select_one. split.
  - change (map fst (mkdict (map (fun k => (k, rget k r)) columns)))
      with (dkeys (mkdict (map (fun k => (k, rget k r)) columns))).
    rewrite mkdict_keys, map_map. simpl. rewrite map_id. reflexivity.
  - intros k Hk. rewrite mkdict_get, <- map_rev, (dget_map_key (fun k => rget k r)).
    replace (str_mem k (rev columns)) with true; auto. symmetry. apply str_mem_In. apply in_rev in Hk. auto.
Qed.

Lemma fo_ext {A} (P Q : A -> A -> Prop) before l out :
  (forall a b, In a (before ++ l) -> In b l -> P a b <-> Q a b) ->
  first_occurrences P before l out -> first_occurrences Q before l out.
Proof.
  intros H F. induction F as [before|before x l out Hn F IH|before x l out Hn F IH].
  - constructor.
  - apply fo_keep.
    + intros y Hy HQ. apply (Hn y Hy). apply H; auto; [apply in_or_app; auto|left; auto].
    + apply IH. intros a b Ha Hb. apply H; [|right; auto]. rewrite <- app_assoc in Ha. exact Ha.
  - apply fo_drop.
    + destruct Hn as (y & Hy & HP). exists y. split; auto. apply H; auto; [apply in_or_app; auto|left; auto].
    + apply IH. intros a b Ha Hb. apply H; [|right; auto]. rewrite <- app_assoc in Ha. exact Ha.
Qed.

Lemma dedup_first_gen l : forall before,
  first_occurrences (@eq str) before l (filter (fun x => negb (str_mem x before)) (dedup str_eqb l)).
Proof.
  induction l as [|x l IH]; intros before; simpl; [constructor|].
  assert (filter (fun y => negb (str_mem y before)) (filter (fun y => negb (str_eqb x y)) (dedup str_eqb l)) =
          filter (fun y => negb (str_mem y (before ++ [x]))) (dedup str_eqb l)) as E.
  { rewrite filter_filter. apply filter_ext. intros y. unfold str_mem, mem. rewrite existsb_app. simpl.
    rewrite orb_false_r, negb_orb, andb_comm. f_equal. f_equal.
    destruct (str_eqb x y) eqn:F, (str_eqb y x) eqn:G; auto; exfalso.
    - apply str_eqb_eq in F. subst. rewrite str_eqb_refl in G. discriminate.
    - apply str_eqb_eq in G. subst. rewrite str_eqb_refl in F. discriminate. }
  rewrite E. destruct (str_mem x before) eqn:M; simpl.
  - apply fo_drop; auto. exists x. split; auto. apply str_mem_In. auto.
  - apply fo_keep; auto. intros y Hy ->. apply str_mem_In in Hy. congruence.
Qed.

Lemma dedup_first l : first_occurrences (@eq str) [] l (dedup str_eqb l).
Proof.
  pose proof (dedup_first_gen l []) as H. erewrite filter_all in H; auto.
Qed.

Lemma select_spec columns rows : ~ In $"*" columns ->
  Forall2 (fun r out => first_occurrences eq [] columns (map fst out) /\
                        forall k, In k columns -> dget str_eqb k out = Some (rget k r))
          rows (select columns rows).
Proof.
  intros H. unfold select.
  replace (list_eqb str_eqb columns [$"*"]) with false.
  2:{ symmetry. destruct (list_eqb str_eqb columns [$"*"]) eqn:E; auto.
      apply (list_eqb_spec str_eqb str_keqb) in E. subst. exfalso. apply H. left. auto. }
  replace (str_mem $"*" columns) with false.
  2:{ symmetry. destruct (str_mem $"*" columns) eqn:E; auto. apply str_mem_In in E. contradiction. }
  induction rows as [|r rows IH]; simpl; constructor; auto.
  destruct (select_one_spec columns r) as [A B]. split; auto. rewrite A. apply dedup_first.
Qed.

Lemma select_record_fields_spec r fields :
  first_occurrences eq [] fields (map fst (select_record_fields r fields)) /\
  forall k, In k fields -> dget str_eqb k (select_record_fields r fields) = Some (rget k r).
Proof.
  destruct (select_one_spec fields r) as [A B]. unfold select_record_fields. fold (select_one fields r).
  split; auto. rewrite A. apply dedup_first.
Qed.

(** ** order *)
Lemma order_NoDup r : well_formed r -> order r = isort (fun a b => str_leb (fst a) (fst b)) r.
Proof.
  intros H. apply mkdict_id. unfold well_formed in H.
  eapply Permutation_NoDup; [|exact H]. apply Permutation_map, Permutation_sym, isort_perm.
Qed.

Lemma order_spec r : well_formed r ->
  Permutation (order r) r /\ StronglySorted (fun a b => str_leb a b = true) (map fst (order r)).
Proof.
  intros H. rewrite order_NoDup by auto. split; [apply isort_perm|].
  assert (StronglySorted (fun a b : str * value => str_leb (fst a) (fst b) = true)
            (isort (fun a b => str_leb (fst a) (fst b)) r)) as S.
  { apply (isort_sorted (fun a b : str * value => str_leb (fst a) (fst b))).
    - intros; apply str_leb_total.
    - intros x y z; apply str_leb_trans. }
  induction S as [|x l S IH F]; simpl; constructor; auto. rewrite Forall_map. auto.
Qed.

Lemma Sorted_impl_in {A} (R Q : A -> A -> Prop) l : (forall a b, In a l -> In b l -> R a b -> Q a b) ->
  StronglySorted R l -> StronglySorted Q l.
Proof.
  intros H Hs. induction Hs as [|x l Hs IH Hf]; constructor.
  - apply IH. intros a b Ha Hb. apply H; right; auto.
  - rewrite Forall_forall in *. intros y Hy. apply H; [left|right|]; auto.
Qed.

Lemma order_same a b : well_formed a -> Permutation a b -> order a = order b.
Proof.
  intros H P.
  assert (well_formed b) as H'. { eapply Permutation_NoDup; [apply Permutation_map, P|auto]. }
  rewrite !order_NoDup by auto. set (leb := fun x y : str * value => str_leb (fst x) (fst y)).
  set (R := fun x y : str * value => leb x y = true /\ (fst x = fst y -> x = y)).
  assert (forall r, well_formed r -> StronglySorted R (isort leb r)) as G.
  { intros r Hr. eapply Sorted_impl_in; [|apply (isort_sorted leb)].
    - intros x y Hx Hy Hxy. split; auto. intros E. apply isort_In in Hx. apply isort_In in Hy.
      destruct x as [k v], y as [k' w]. simpl in E. subst k'.
      assert (dget str_eqb k r = Some v) by (apply In_dget; auto using str_keqb).
      assert (dget str_eqb k r = Some w) by (apply In_dget; auto using str_keqb). congruence.
    - intros; apply str_leb_total.
    - intros x y z; apply str_leb_trans. }
  apply (sorted_perm_unique R); auto.
  - intros x y [A1 A2] [B1 B2]. apply A2. apply str_leb_antisym; auto.
  - rewrite !isort_perm. exact P.
Qed.

(** ** set_value *)
Lemma set_value_spec r f s k :
  dget str_eqb k (set_value r f s) =
  if str_eqb k f then Some (match s with Constant v => v | Computed g => g r end) else dget str_eqb k r.
Proof.
  destruct (str_eqb k f) eqn:E.
  - apply str_eqb_eq in E. subst. destruct s; apply dget_dset_same, str_keqb.
  - assert (k <> f) by (intros ->; rewrite str_eqb_refl in E; discriminate).
    destruct s; apply dget_dset_other; auto using str_keqb.
Qed.

(** ** keys *)
Lemma dedup_app_str a b :
  dedup str_eqb (a ++ b) = dedup str_eqb a ++ filter (fun x => negb (str_mem x a)) (dedup str_eqb b).
Proof.
  induction a as [|x a IH]; simpl.
  - symmetry. apply filter_all. auto.
  - rewrite IH, filter_app. f_equal. f_equal. rewrite filter_filter. apply filter_ext. intros y.
    unfold str_mem, mem. simpl. rewrite negb_orb. rewrite andb_comm. f_equal. f_equal.
    destruct (str_eqb x y) eqn:F, (str_eqb y x) eqn:G; auto; exfalso.
    + apply str_eqb_eq in F. subst. rewrite str_eqb_refl in G. discriminate.
    + apply str_eqb_eq in G. subst. rewrite str_eqb_refl in F. discriminate.
Qed.

Lemma dedup_mem x l : str_mem x (dedup str_eqb l) = str_mem x l.
Proof.
  destruct (str_mem x l) eqn:E.
  - apply str_mem_In. apply dedup_In; auto using str_keqb. apply str_mem_In. auto.
  - destruct (str_mem x (dedup str_eqb l)) eqn:F; auto. apply str_mem_In in F.
    apply dedup_In in F; auto using str_keqb. apply str_mem_In in F. congruence.
Qed.

Lemma reduce_keys_spec rows : Forall well_formed rows ->
  reduce_keys rows = dedup str_eqb (flat_map (map fst) rows).
Proof.
  unfold reduce_keys.
  assert (forall pre, Forall well_formed rows ->
    fold_left (fun x y => x ++ filter (fun a => negb (str_mem a x)) (dkeys y)) rows (dedup str_eqb pre) =
    dedup str_eqb (pre ++ flat_map (map fst) rows)) as G.
  { induction rows as [|r rows IH]; intros pre H; simpl.
    - rewrite app_nil_r. reflexivity.
    - inversion H; subst.
      replace (dedup str_eqb pre ++ filter (fun a => negb (str_mem a (dedup str_eqb pre))) (dkeys r))
        with (dedup str_eqb (pre ++ map fst r)).
      + rewrite IH by auto. rewrite <- app_assoc. reflexivity.
      + rewrite dedup_app_str. f_equal. rewrite dedup_NoDup_id; auto using str_keqb.
        apply filter_ext. intros y. rewrite dedup_mem. reflexivity. }
  intros H. apply (G [] H).
Qed.

Lemma keys_all_spec rows : Forall well_formed rows ->
  first_occurrences eq [] (flat_map (map fst) rows) (keys 0 rows).
Proof. intros H. unfold keys. simpl. rewrite reduce_keys_spec by auto. apply dedup_first. Qed.

Lemma Forall_firstn {A} (P : A -> Prop) n l : Forall P l -> Forall P (firstn n l).
Proof. intros H. rewrite Forall_forall in *. intros x Hx. apply H. eapply In_firstn; eauto. Qed.

Lemma keys_some_spec n rows : 1 <= n -> Forall well_formed rows ->
  first_occurrences eq [] (flat_map (map fst) (firstn n rows)) (keys (Z.of_nat n) rows).
Proof.
  intros Hn H. unfold keys. replace (0 <? Z.of_nat n)%Z with true by lia.
  change (itake (Z.of_nat n) rows) with (take (Z.of_nat n) rows). rewrite take_spec by auto.
  rewrite reduce_keys_spec by (apply Forall_firstn; auto). apply dedup_first.
Qed.

(** ** aggregates *)
Lemma collect_list_spec c rows : collect_list c rows = column_values c rows.
Proof.
  unfold collect_list. induction rows as [|r rows IH]; simpl; auto.
  destruct (dget str_eqb c r); simpl; congruence.
Qed.

Lemma py_lt_num v w x y : num_of v = Some x -> num_of w = Some y -> py_lt v w = Ok (x <? y)%Z.
Proof.
  destruct v, w; simpl; intros H1 H2; try discriminate; injection H1 as <-; injection H2 as <-; auto.
Qed.

Lemma reduce_max_gen vs : forall a, (exists z, num_of a = Some z) -> all_numbers vs ->
  exists m, fold_left (fun acc y => let* a := acc in py_max a y) vs (Ok a) = Ok m /\ greatest (a :: vs) m.
Proof.
  induction vs as [|v vs IH]; intros a Ha Hv; simpl.
  - exists a. split; auto. split; [left; auto|]. intros v [->|[]]. lia.
  - inversion Hv as [|? ? Hv1 Hv2]; subst. destruct Ha as [x Hx], Hv1 as [y Hy].
    unfold py_max at 2. rewrite (py_lt_num _ _ _ _ Hx Hy). cbn [bind].
    assert (number a = x) as Na by (unfold number; rewrite Hx; auto).
    assert (number v = y) as Nv by (unfold number; rewrite Hy; auto).
    destruct (x <? y)%Z eqn:E.
    + destruct (IH v) as (m & F & [G1 G2]); eauto. exists m. split; auto. split; [right; auto|].
      intros w [<-|Hw]; auto. specialize (G2 v (or_introl eq_refl)). lia.
    + destruct (IH a) as (m & F & [G1 G2]); eauto. exists m. split; auto. split.
      * destruct G1; [left|right; right]; auto.
      * intros w [<-|[<-|Hw]]; [apply G2; left; auto| |apply G2; right; auto].
        specialize (G2 a (or_introl eq_refl)). lia.
Qed.

Lemma reduce_min_gen vs : forall a, (exists z, num_of a = Some z) -> all_numbers vs ->
  exists m, fold_left (fun acc y => let* a := acc in py_min a y) vs (Ok a) = Ok m /\ least (a :: vs) m.
Proof.
  induction vs as [|v vs IH]; intros a Ha Hv; simpl.
  - exists a. split; auto. split; [left; auto|]. intros v [->|[]]. lia.
  - inversion Hv as [|? ? Hv1 Hv2]; subst. destruct Ha as [x Hx], Hv1 as [y Hy].
    unfold py_min at 2. rewrite (py_lt_num _ _ _ _ Hy Hx). cbn [bind].
    assert (number a = x) as Na by (unfold number; rewrite Hx; auto).
    assert (number v = y) as Nv by (unfold number; rewrite Hy; auto).
    destruct (y <? x)%Z eqn:E.
    + destruct (IH v) as (m & F & [G1 G2]); eauto. exists m. split; auto. split; [right; auto|].
      intros w [<-|Hw]; auto. specialize (G2 v (or_introl eq_refl)). lia.
    + destruct (IH a) as (m & F & [G1 G2]); eauto. exists m. split; auto. split.
      * destruct G1; [left|right; right]; auto.
      * intros w [<-|[<-|Hw]]; [apply G2; left; auto| |apply G2; right; auto].
        specialize (G2 a (or_introl eq_refl)). lia.
Qed.

Lemma ds_max_spec c rows : all_numbers (column_values c rows) -> column_values c rows <> [] ->
  exists m, ds_max c rows = Ok m /\ greatest (column_values c rows) m.
Proof.
  intros H Hn. unfold ds_max. rewrite collect_list_spec. destruct (column_values c rows) as [|v vs]; [congruence|].
  inversion H; subst. apply reduce_max_gen; auto.
Qed.

Lemma ds_min_spec c rows : all_numbers (column_values c rows) -> column_values c rows <> [] ->
  exists m, ds_min c rows = Ok m /\ least (column_values c rows) m.
Proof.
  intros H Hn. unfold ds_min. rewrite collect_list_spec. destruct (column_values c rows) as [|v vs]; [congruence|].
  inversion H; subst. apply reduce_min_gen; auto.
Qed.

Lemma ds_min_max_both c rows lo hi :
  ds_min c rows = Ok lo -> ds_max c rows = Ok hi -> ds_min_max c rows = Ok (lo, hi).
Proof.
  unfold ds_min, ds_max, ds_min_max, reduceM. destruct (collect_list c rows) as [|v vs]; [discriminate|].
  assert (forall a b, fold_left (fun acc y => let* a := acc in py_min a y) vs (Ok a) = Ok lo ->
    fold_left (fun acc y => let* a := acc in py_max a y) vs (Ok b) = Ok hi ->
    fold_left (fun acc y => let* ab := acc in
                            let* lo := py_min (fst ab) y in
                            let* hi := py_max (snd ab) y in Ok (lo, hi)) vs (Ok (a, b)) = Ok (lo, hi)) as G.
  { induction vs as [|w vs IH]; simpl; intros a b H1 H2.
    - congruence.
    - destruct (py_min a w) as [x|e] eqn:E; [|exfalso; revert H1; clear; induction vs; simpl; auto; discriminate].
      destruct (py_max b w) as [y|e] eqn:F; [|exfalso; revert H2; clear; induction vs; simpl; auto; discriminate].
      simpl. apply IH; auto. }
  apply G.
Qed.

Lemma ds_sum_spec c rows : all_numbers (column_values c rows) ->
  ds_sum c rows = Ok (VInt (total (column_values c rows))).
Proof.
  unfold ds_sum. rewrite collect_list_spec. generalize (column_values c rows). intros vs.
  assert (forall z, all_numbers vs ->
    fold_left (fun acc y => let* a := acc in py_add a y) vs (Ok (VInt z)) = Ok (VInt (z + total vs))) as G.
  { induction vs as [|v vs IH]; intros z H; cbn [fold_left total bind].
    - f_equal. f_equal. lia.
    - inversion H as [|? ? [y Hy] H2]; subst.
      assert (py_add (VInt z) v = Ok (VInt (z + number v))) as ->.
      { unfold number. rewrite Hy. destruct v; simpl in *; try discriminate; injection Hy as <-; auto. }
      rewrite IH by auto. f_equal. f_equal. lia. }
  intros H. rewrite G by auto. reflexivity.
Qed.

(** ** distinct *)
Lemma decZ_not_word z c s : is_alpha c = true -> decZ z = c :: s -> False.
Proof.
  unfold decZ. destruct (z <? 0)%Z; intros Hc H.
  - injection H as <- _. discriminate.
  - assert (In c (dec (Z.to_N z))) as Hd by (rewrite H; left; auto). apply dec_digits in Hd.
    unfold is_alpha, is_upper, is_lower in Hc. unfold is_digit in Hd. cbv zeta in *. lia.
Qed.

Section Distinct.
  Context (hash : str -> Z).

  Lemma dedupe_spec columns data : forall seen before,
    (forall z, In z seen <-> exists y, In y before /\ fingerprint hash columns y = z) ->
    first_occurrences (fun a b => fingerprint hash columns a = fingerprint hash columns b) before data
                      (dedupe hash columns seen data).
  Proof.
    induction data as [|x data IH]; intros seen before H; simpl; [constructor|].
    destruct (mem Z.eqb (fingerprint hash columns x) seen) eqn:E.
    - unfold mem in E. apply existsb_exists in E as (z & Hz & E). apply Z.eqb_eq in E. subst z.
      apply fo_drop; [apply H; auto|]. apply IH. intros z. rewrite H. split.
      + intros (y & Hy & F). exists y. split; auto. apply in_or_app. auto.
      + intros (y & Hy & F). apply in_app_or in Hy as [Hy|[<-|[]]]; [eauto|]. apply H. congruence.
    - assert (~ In (fingerprint hash columns x) seen) as N.
      { intros Hin. assert (mem Z.eqb (fingerprint hash columns x) seen = true); [|congruence].
        apply existsb_exists. eexists. split; eauto. apply Z.eqb_refl. }
      apply fo_keep.
      + intros y Hy F. apply N, H. eauto.
      + apply IH. intros z. simpl. rewrite H. split.
        * intros [<-|(y & Hy & F)]; [exists x|exists y]; split; auto; apply in_or_app; simpl; auto.
        * intros (y & Hy & F). apply in_app_or in Hy as [Hy|[<-|[]]]; eauto.
  Qed.

  Lemma distinct_by_fingerprint columns rows :
    first_occurrences (fun a b => fingerprint hash columns a = fingerprint hash columns b) [] rows
                      (distinct hash columns rows).
  Proof. apply dedupe_spec. intros z. simpl. split; [tauto|intros (y & [] & _)]. Qed.

  Lemma one_kind_has c rows r : one_kind c rows -> In r rows -> exists v, dget str_eqb c r = Some v.
  Proof. intros [H|H] Hr; destruct (H r Hr) as [v Hv]; [eauto|destruct Hv; eauto]. Qed.

  Lemma one_kind_inj c rows a b : one_kind c rows -> In a rows -> In b rows ->
    py_str (rget c a) = py_str (rget c b) -> rget c a = rget c b.
  Proof.
    unfold rget. intros [H|H] Ha Hb.
    - destruct (H a Ha) as [s ->], (H b Hb) as [s' ->]. simpl. congruence.
    - destruct (H a Ha) as (v & -> & Hv), (H b Hb) as (w & -> & Hw).
      destruct v, w; try contradiction; auto;
        repeat match goal with x : bool |- _ => destruct x end; auto; simpl; intros E; try discriminate E;
        try (apply decZ_inj in E; congruence);
        exfalso; [symmetry in E|symmetry in E|symmetry in E| | |];
        (eapply decZ_not_word; [|exact E]; reflexivity).
  Qed.

  (** texts of fixed width (but for the last column) are kept apart by their concatenation *)
  Lemma column_text_agree (rows : list record) columns a b :
    (forall c, In c columns -> one_kind c rows) ->
    (forall front last, columns = front ++ [last] -> forall c, In c front -> same_width c rows) ->
    In a rows -> In b rows -> column_text columns a = column_text columns b -> agree_on columns a b.
  Proof.
    intros Ht Hw Ha Hb. unfold column_text.
    induction columns as [|c columns IH]; intros E k Hk; [contradiction|]. simpl in E.
    pose proof (Ht c (or_introl eq_refl)) as K.
    destruct (one_kind_has _ _ _ K Ha) as [s Hs], (one_kind_has _ _ _ K Hb) as [s' Hs'].
    pose proof (one_kind_inj _ _ _ _ K Ha Hb) as I. unfold rget in I.
    rewrite Hs, Hs' in E, I. 
    assert (py_str s = py_str s' /\ concat (map (fun c => py_str match dget str_eqb c a with Some v => v | None => VStr $"$$" end) columns)
                    = concat (map (fun c => py_str match dget str_eqb c b with Some v => v | None => VStr $"$$" end) columns)) as [E1 E'].
    { destruct columns as [|c2 columns'].
      - simpl in E. rewrite !app_nil_r in E. auto.
      - assert (length (py_str s) = length (py_str s')) as L.
        { destruct (@exists_last _ (c2 :: columns')) as (fr & la & El); [discriminate|].
          pose proof (Hw (c :: fr) la ltac:(simpl; congruence) c (or_introl eq_refl) a b Ha Hb) as W.
          unfold rget in W. rewrite Hs, Hs' in W. exact W. }
        split.
        + apply (f_equal (firstn (length (py_str s)))) in E. rewrite firstn_app, firstn_all, Nat.sub_diag in E.
          rewrite L, firstn_app, firstn_all, Nat.sub_diag in E. simpl in E. rewrite !app_nil_r in E. auto.
        + apply (f_equal (skipn (length (py_str s)))) in E. rewrite skipn_app, skipn_all, Nat.sub_diag in E.
          rewrite L, skipn_app, skipn_all, Nat.sub_diag in E. simpl in E. auto. }
    destruct Hk as [->|Hk].
    - unfold rget. rewrite Hs, Hs'. auto.
    - apply IH; auto.
      + intros c' Hc'. apply Ht; auto. right. auto.
      + intros front la -> c' Hc'. apply (Hw (c :: front) la); auto. right. auto.
  Qed.

  Lemma agree_column_text (rows : list record) columns a b :
    (forall c, In c columns -> one_kind c rows) ->
    In a rows -> In b rows -> agree_on columns a b -> column_text columns a = column_text columns b.
  Proof.
    intros Ht Ha Hb Hag. unfold column_text. f_equal. apply map_ext_in. intros c Hc.
    destruct (one_kind_has _ _ _ (Ht c Hc) Ha) as [s Hs], (one_kind_has _ _ _ (Ht c Hc) Hb) as [s' Hs'].
    specialize (Hag c Hc). unfold rget in Hag. rewrite Hs, Hs' in *. congruence.
  Qed.

  Lemma distinct_columns_spec columns rows : columns <> [] ->
    (forall c, In c columns -> one_kind c rows) ->
    (forall front last, columns = front ++ [last] -> forall c, In c front -> same_width c rows) ->
    (forall a b, In a rows -> In b rows ->
       hash (column_text columns a) = hash (column_text columns b) -> column_text columns a = column_text columns b) ->
    first_occurrences (agree_on columns) [] rows (distinct hash columns rows).
  Proof.
    intros Hne Ht Hw Hh. eapply fo_ext; [|apply distinct_by_fingerprint].
    intros a b Ha Hb. simpl in Ha. unfold fingerprint. destruct columns as [|c cs]; [congruence|].
    split.
    - intros E. apply Hh in E; auto. eapply column_text_agree; eauto.
    - intros E. f_equal. eapply agree_column_text; eauto.
  Qed.

  Lemma distinct_rows_spec rows names :
    (forall r, In r rows -> map fst r = names) ->
    (forall a b, In a rows -> In b rows -> fingerprint hash [] a = fingerprint hash [] b ->
                 map snd a = map snd b) ->
    first_occurrences eq [] rows (distinct hash [] rows).
  Proof.
    intros Hn Hh. eapply fo_ext; [|apply distinct_by_fingerprint].
    intros a b Ha Hb. simpl in Ha. split; [|congruence]. intros E. apply Hh in E; auto.
    apply Hn in Ha. apply Hn in Hb. rewrite <- Hb in Ha. clear - E Ha.
    revert b E Ha. induction a as [|[k v] a IH]; intros [|[k' v'] b] E Ha; try discriminate; auto.
    simpl in *. injection E as -> E. injection Ha as -> Ha. f_equal. auto.
  Qed.
  Lemma xor_numbered i vs : xor_values hash i vs = xor_all hash (numbered i vs).
  Proof. revert i. induction vs as [|v vs IH]; intros i; [reflexivity|]. cbn [xor_values numbered]. rewrite IH. reflexivity. Qed.
  Lemma numbered_inj vs : forall i ws, numbered i vs = numbered i ws ->
    (forall v w, In v vs -> In w ws -> py_str v = py_str w -> v = w) -> vs = ws.
  Proof.
    induction vs as [|v vs IH]; intros i [|w ws] E H; try discriminate; auto. cbn [numbered] in E.
    injection E as E1 E2. apply app_inv_head in E1. injection E1 as E1. f_equal.
    - apply H; auto; left; auto.
    - eapply IH; eauto. intros x y Hx Hy. apply H; right; auto.
  Qed.
  Lemma distinct_rows_texts rows names :
    (forall r, In r rows -> map fst r = names) ->
    (forall a b v w, In a rows -> In b rows -> In v (map snd a) -> In w (map snd b) -> py_str v = py_str w -> v = w) ->
    (forall a b, In a rows -> In b rows ->
       xor_all hash (numbered 0 (map snd a)) = xor_all hash (numbered 0 (map snd b)) ->
       numbered 0 (map snd a) = numbered 0 (map snd b)) ->
    first_occurrences eq [] rows (distinct hash [] rows).
  Proof.
    intros Hn Hs Hh. apply (distinct_rows_spec rows names); auto. intros a b Ha Hb E. unfold fingerprint in E.
    rewrite !xor_numbered in E. apply (numbered_inj _ 0); [apply Hh; auto|]. intros v w Hv Hw. exact (Hs a b v w Ha Hb Hv Hw).
  Qed.
End Distinct.

(** ** hash *)
Section Hash.
  Context (dumps : record -> str) (cityhash : str -> N).

  Lemma ds_hash_perm seed a b : Permutation a b ->
    ds_hash dumps cityhash seed a = ds_hash dumps cityhash seed b.
  Proof.
    intros P. unfold ds_hash. revert seed. induction P as [|x a b P IH|x y a|a b c P1 IH1 P2 IH2]; intros seed; simpl; auto.
    - f_equal. rewrite !N.lxor_assoc. f_equal. apply N.lxor_comm.
    - rewrite IH1. apply IH2.
  Qed.

  Lemma ds_hash_columns seed a b : Forall well_formed a -> Forall2 same_columns a b ->
    ds_hash dumps cityhash seed a = ds_hash dumps cityhash seed b.
  Proof.
    intros W F. unfold ds_hash. revert seed. induction F as [|x y a b P F IH]; intros seed; simpl; auto.
    inversion W; subst. rewrite (order_same x y) by auto. apply IH. auto.
  Qed.

  Lemma ds_hash_spec seed a mid b : Forall well_formed a -> Forall2 same_columns a mid -> Permutation mid b ->
    ds_hash dumps cityhash seed a = ds_hash dumps cityhash seed b.
  Proof. intros W F P. rewrite (ds_hash_columns seed a mid); auto. apply ds_hash_perm. auto. Qed.

  Lemma ds_hash_twice seed r rows :
    ds_hash dumps cityhash seed (r :: r :: rows) = ds_hash dumps cityhash seed rows.
  Proof. unfold ds_hash. simpl. rewrite N.lxor_assoc, N.lxor_nilpotent, N.lxor_0_r. reflexivity. Qed.
End Hash.

(** ** flatten *)
Lemma entries_dict sep nk d :
  entries sep nk (VDict d) = mkdict (flat_map (fun kv => entries sep (join_key sep nk (fst kv)) (snd kv)) d).
Proof.
  cbn [entries]. f_equal. induction d as [|[k w] d IH]; simpl; auto. rewrite IH. reflexivity.
Qed.

Lemma split_join_plain l : l <> [] -> Forall plain_key l -> split "."%char (join $"." l) = l.
Proof.
  intros Hn H. apply split_join; auto. intros w Hw. rewrite Forall_forall in H. apply H. auto.
Qed.

Lemma join_plain_inj a b : a <> [] -> b <> [] -> Forall plain_key a -> Forall plain_key b ->
  join $"." a = join $"." b -> a = b.
Proof. intros Ha Hb Pa Pb E. rewrite <- (split_join_plain a), <- (split_join_plain b), E; auto. Qed.

Lemma leaf_plain p x v : nested v -> leaf_at p x v -> Forall plain_key p.
Proof.
  intros N L. induction L as [x S|p x k w d Hin L IH]; auto.
  inversion N as [? S|? ND PK NS]; subst; [contradiction|]. constructor.
  - rewrite Forall_forall in PK. apply PK. apply (in_map fst) in Hin. exact Hin.
  - apply IH. rewrite Forall_forall in NS. apply NS. apply (in_map snd) in Hin. exact Hin.
Qed.

Lemma NoDup_flat_map {A B} (f : A -> list B) l :
  (forall a, In a l -> NoDup (f a)) ->
  (forall i j a b x, nth_error l i = Some a -> nth_error l j = Some b -> In x (f a) -> In x (f b) -> i = j) ->
  NoDup (flat_map f l).
Proof.
  induction l as [|a l IH]; intros H1 H2; simpl; [constructor|].
  assert (NoDup (flat_map f l)) as N.
  { apply IH; [intros; apply H1; right; auto|]. intros i j b c x Hi Hj Hb Hc.
    specialize (H2 (S i) (S j) b c x Hi Hj Hb Hc). lia. }
  assert (forall x, In x (f a) -> ~ In x (flat_map f l)) as D.
  { intros x Hx Hin. apply in_flat_map in Hin as (b & Hb & Hxb). apply In_nth_error in Hb as [j Hj].
    specialize (H2 0 (S j) a b x eq_refl Hj Hx Hxb). discriminate. }
  specialize (H1 a (or_introl eq_refl)). revert H1 D. generalize (f a). intros fa.
  induction fa as [|y fa IHf]; simpl; intros H1 D; auto. inversion H1; subst. constructor.
  - rewrite in_app_iff. intros [?|?]; [contradiction|]. eapply D; eauto.
  - apply IHf; auto.
Qed.

(** the items of a list of named values *)
Lemma entries_items path d :
  Forall plain_key path ->
  NoDup (map fst d) -> Forall plain_key (map fst d) ->
  (forall k w, In (k, w) d -> Forall plain_key (path ++ [k]) ->
     NoDup (map fst (entries $"." (join $"." (path ++ [k])) w)) /\
     forall key x, In (key, x) (entries $"." (join $"." (path ++ [k])) w) <->
                   exists p, leaf_at p x w /\ Forall plain_key p /\ key = join $"." (path ++ k :: p)) ->
  let items := flat_map (fun kv => entries $"." (join $"." (path ++ [fst kv])) (snd kv)) d in
  NoDup (map fst items) /\
  forall key x, In (key, x) items <->
                exists p, leaf_at p x (VDict d) /\ Forall plain_key p /\ key = join $"." (path ++ p).
Proof.
  intros Hpath ND PK H items.
  assert (forall k w, In (k, w) d -> Forall plain_key (path ++ [k])) as HP.
  { intros k w Hin. apply Forall_app. split; auto. constructor; auto. rewrite Forall_forall in PK. apply PK.
    apply (in_map fst) in Hin. exact Hin. }
  assert (forall key x, In (key, x) items <->
            exists p, leaf_at p x (VDict d) /\ Forall plain_key p /\ key = join $"." (path ++ p)) as I.
  { intros key x. unfold items. rewrite in_flat_map. split.
    - intros ((k & w) & Hin & Hx). simpl in Hx. destruct (H k w Hin (HP k w Hin)) as [_ E].
      apply E in Hx as (p & L & Pp & ->). exists (k :: p). split; [econstructor; eauto|]. split; auto.
      constructor; auto. rewrite Forall_forall in PK. apply PK. apply (in_map fst) in Hin. exact Hin.
    - intros (p & L & Pp & ->). inversion L as [? S|p' x' k w d' Hin L']; subst; [contradiction|].
      exists (k, w). split; auto. simpl. destruct (H k w Hin (HP k w Hin)) as [_ E]. apply E.
      exists p'. split; auto. inversion Pp; subst. auto. }
  split; auto.
  unfold items. rewrite flat_map_concat_map, concat_map, map_map, <- flat_map_concat_map.
  apply NoDup_flat_map.
  - intros [k w] Hin. simpl. apply (H k w Hin (HP k w Hin)).
  - intros i j [k w] [k' w'] key Hi Hj Ha Hb. simpl in Ha, Hb.
    pose proof (nth_error_In _ _ Hi) as Ia. pose proof (nth_error_In _ _ Hj) as Ib.
    apply in_map_iff in Ha as ((ka & x) & <- & Ha). apply in_map_iff in Hb as ((kb & y) & Eb & Hb).
    simpl in Eb. subst kb.
    apply (H k w Ia (HP k w Ia)) in Ha as (p & _ & Pp & E1).
    apply (H k' w' Ib (HP k' w' Ib)) in Hb as (q & _ & Pq & E2).
    assert (path ++ k :: p = path ++ k' :: q) as E.
    { apply join_plain_inj; try congruence.
      - destruct path; discriminate.
      - destruct path; discriminate.
      - specialize (HP k w Ia). apply Forall_app in HP as [? Hk]. inversion Hk; subst.
        apply Forall_app. split; auto.
      - specialize (HP k' w' Ib). apply Forall_app in HP as [? Hk]. inversion Hk; subst.
        apply Forall_app. split; auto. }
    apply app_inv_head in E. injection E as -> _.
    assert (nth_error (map fst d) i = Some k') by (rewrite nth_error_map, Hi; reflexivity).
    assert (nth_error (map fst d) j = Some k') by (rewrite nth_error_map, Hj; reflexivity).
    eapply NoDup_nth_error; eauto; [|congruence]. apply nth_error_Some. congruence.
Qed.

Lemma join_snoc path k : path <> [] -> join $"." (path ++ [k]) = join $"." path ++ $"." ++ k.
Proof. intros H. rewrite join_app by (auto; discriminate). reflexivity. Qed.

Lemma join_plain_ne path : path <> [] -> Forall plain_key path -> join $"." path <> [].
Proof.
  intros H P. destruct path as [|k path]; [congruence|]. inversion P as [|? ? [Hk _] _]; subst.
  destruct k; [congruence|]. destruct path; discriminate.
Qed.

Lemma entries_spec v : nested v -> forall path, path <> [] -> Forall plain_key path ->
  NoDup (map fst (entries $"." (join $"." path) v)) /\
  forall key x, In (key, x) (entries $"." (join $"." path) v) <->
                exists p, leaf_at p x v /\ Forall plain_key p /\ key = join $"." (path ++ p).
Proof.
  induction v as [|b|z|s|l IH|d IH] using value_ind'; intros N path Hne Hp.
  1-4: simpl; split; [repeat constructor; auto|]; intros key x; split;
    [intros [E|[]]; injection E as <- <-; exists []; rewrite app_nil_r; repeat split; auto; constructor; exact I
    |intros (p & L & _ & ->); inversion L; subst; rewrite app_nil_r; left; reflexivity].
  - inversion N as [? S|]; subst. contradiction.
  - inversion N as [? S|? ND PK NS]; subst; [contradiction|]. rewrite Forall_forall in IH, NS.
    rewrite entries_dict.
    assert (flat_map (fun kv => entries $"." (join_key $"." (join $"." path) (fst kv)) (snd kv)) d =
            flat_map (fun kv => entries $"." (join $"." (path ++ [fst kv])) (snd kv)) d) as ->.
    { rewrite !flat_map_concat_map. f_equal. apply map_ext. intros [k w]. cbn [fst snd]. f_equal.
      rewrite join_snoc by auto. unfold join_key. pose proof (join_plain_ne path Hne Hp).
      destruct (join $"." path); [congruence|reflexivity]. }
    destruct (entries_items path d) as [A B]; auto.
    { intros k w Hin Hpk. specialize (IH (k, w) Hin). simpl in IH.
      assert (nested w) as Nw by (apply NS; apply (in_map snd) in Hin; exact Hin).
      destruct (IH Nw (path ++ [k])) as [C D]; auto; [destruct path; discriminate|].
      split; auto. intros key x. rewrite D. split; intros (p & L & Pp & ->); exists p; repeat split; auto;
        rewrite <- app_assoc; reflexivity. }
    rewrite mkdict_id by exact A. split; auto.
Qed.

Lemma flatten_spec r : nested (VDict r) ->
  forall key x, dget str_eqb key (flatten r) = Some x <->
                exists p, leaf_at p x (VDict r) /\ key = join $"." p.
Proof.
  intros N. inversion N as [? S|? ND PK NS]; subst; [contradiction|]. rewrite Forall_forall in NS.
  destruct (entries_items [] r) as [A B]; auto.
  { intros k w Hin Hpk. assert (nested w) as Nw by (apply NS; apply (in_map snd) in Hin; exact Hin).
    apply (entries_spec w Nw [k]); auto. discriminate. }
  assert (flatten r = flat_map (fun kv => entries $"." (fst kv) (snd kv)) r) as E.
  { unfold flatten. apply mkdict_id. exact A. }
  intros key x. rewrite E. split.
  - intros H. apply dget_Some_In in H; auto using str_keqb. apply B in H as (p & L & _ & ->). eauto.
  - intros (p & L & ->). apply In_dget; auto using str_keqb. apply B. exists p. split; auto. split; auto.
    eapply leaf_plain; eauto.
Qed.
