(** GROUP BY: the collector holds, per group and aggregate, the fold over the group's values. *)
From Verif.Base Require Import Py PyFacts Value ValueFacts.
From Verif.Model Require Import DictSet GroupBy.
From Verif.Spec Require Import GroupBy.
From Verif.Proofs Require Import DictSet.

Definition fc_eqb (a b : func * str) : bool := func_eqb (fst a) (fst b) && str_eqb (snd a) (snd b).
Lemma func_eqb_eq a b : func_eqb a b = true <-> a = b.
Proof. destruct a, b; simpl; split; intros; congruence. Qed.
Lemma fc_eqb_eq a b : fc_eqb a b = true <-> a = b.
Proof.
  destruct a as [f c], b as [f' c']. unfold fc_eqb. simpl. rewrite andb_true_iff, func_eqb_eq, str_eqb_eq.
  split; [intros [-> ->]; auto|intros E; injection E as -> ->; auto].
Qed.

Lemma agg_name_inj f c f' c' : agg_name f c = agg_name f' c' -> f = f' /\ c = c'.
Proof.
  unfold agg_name. destruct f, f'; simpl; intros E; try discriminate; split; auto;
    repeat (injection E as E); apply app_inv_tail in E; auto.
Qed.

Lemma N_keqb : forall x y : N, N.eqb x y = true <-> x = y.
Proof. apply N.eqb_eq. Qed.

Definition ok_collect (f : func) (e : option value) (v : value) : option value :=
  match collect f e v with Ok n => Some n | Raise _ => e end.

Notation table := (list (N * list (str * value))).
Definition abs (c : table) (g : N) (fc : func * str) : option value :=
  dget str_eqb (agg_name (fst fc) (snd fc)) (dget_entry g c).

Lemma entry_dset_same g d (c : table) : dget_entry g (dset N.eqb g d c) = d.
Proof. unfold dget_entry. rewrite dget_dset_same; auto using N_keqb. Qed.
Lemma entry_dset_other g g' d (c : table) : g' <> g -> dget_entry g' (dset N.eqb g d c) = dget_entry g' c.
Proof. intros H. unfold dget_entry. rewrite dget_dset_other; auto using N_keqb. Qed.

Lemma NoDup_app_snoc {A} (l : list A) x : NoDup l -> ~ In x l -> NoDup (l ++ [x]).
Proof.
  intros Hl Hx. apply (Permutation.Permutation_NoDup (l := x :: l)); [|constructor; auto].
  apply Permutation.Permutation_cons_append.
Qed.

(** ** one tuple *)
Lemma reduce_tuple_spec g col v aggs : forall c, NoDup aggs ->
  (forall f, In (f, col) aggs -> exists n, collect f (abs c g (f, col)) v = Ok n) ->
  NoDup (dkeys c) ->
  exists c', reduce_tuple aggs g col v c = Ok c' /\
    (forall g' fc, abs c' g' fc =
       if (g' =? g)%N && str_eqb (snd fc) col && mem fc_eqb fc aggs
       then ok_collect (fst fc) (abs c g' fc) v else abs c g' fc) /\
    (forall g', In g' (dkeys c') <-> In g' (dkeys c) \/ (g' = g /\ exists f, In (f, col) aggs)) /\
    NoDup (dkeys c').
Proof.
  induction aggs as [|[f a] aggs IH]; intros c Hn Hok Hk; simpl.
  - exists c. split; auto. split; [|split; auto].
    + intros g' fc. rewrite andb_false_r. reflexivity.
    + intros g'. split; auto. intros [H|[_ [f []]]]; auto.
  - inversion Hn as [|? ? Hnin Hn']; subst. destruct (str_eqb a col) eqn:E.
    + apply str_eqb_eq in E. subst a.
      destruct (Hok f (or_introl eq_refl)) as [n Hc]. unfold abs in Hc. simpl in Hc. rewrite Hc. cbn [bind].
      set (c1 := dset N.eqb g (dset str_eqb (agg_name f col) n (dget_entry g c)) c).
      assert (forall g' fc, abs c1 g' fc =
                if (g' =? g)%N && fc_eqb fc (f, col) then Some n else abs c g' fc) as A1.
      { intros g' [f' a']. unfold abs, c1. simpl. destruct (N.eqb_spec g' g) as [->|Ng]; simpl.
        - rewrite entry_dset_same. destruct (fc_eqb (f', a') (f, col)) eqn:F.
          + apply fc_eqb_eq in F. injection F as -> ->. apply dget_dset_same, str_keqb.
          + apply dget_dset_other; auto using str_keqb. intros Ea. apply agg_name_inj in Ea as [-> ->].
            rewrite (proj2 (fc_eqb_eq _ _) eq_refl) in F. discriminate.
        - rewrite entry_dset_other; auto. }
      destruct (IH c1) as (c' & R & A & K & ND); auto.
      { intros f' Hf'. rewrite A1. rewrite N.eqb_refl. simpl. destruct (fc_eqb (f', col) (f, col)) eqn:F.
        - apply fc_eqb_eq in F. injection F as ->. contradiction.
        - apply Hok. right. auto. }
      { apply dset_NoDup; auto using N_keqb. }
      exists c'. split; auto. split; [|split; auto].
      * intros g' [f' a']. rewrite A, A1. simpl. destruct (N.eqb_spec g' g) as [->|Ng]; simpl; auto.
        unfold mem. simpl. fold (mem fc_eqb (f', a') aggs).
        destruct (fc_eqb (f', a') (f, col)) eqn:F; simpl.
        -- apply fc_eqb_eq in F. injection F as -> ->. rewrite str_eqb_refl. simpl.
           assert (mem fc_eqb (f, col) aggs = false) as ->.
           { destruct (mem fc_eqb (f, col) aggs) eqn:M; auto. apply existsb_exists in M as (x & Hx & Ex).
             apply fc_eqb_eq in Ex. subst. contradiction. }
           unfold ok_collect, abs. simpl. rewrite Hc. reflexivity.
        -- reflexivity.
      * intros g'. rewrite K. unfold c1. rewrite dkeys_dset_In; auto using N_keqb. split.
        -- intros [[->|H]|[-> [f' H]]]; auto; right; split; auto; [exists f; left|exists f'; right]; auto.
        -- intros [H|[-> _]]; auto.
    + destruct (IH c) as (c' & R & A & K & ND); auto.
      { intros f' Hf'. apply Hok. right. auto. }
      exists c'. split; auto. split; [|split; auto].
      * intros g' [f' a']. rewrite A. simpl. unfold mem. simpl. fold (mem fc_eqb (f', a') aggs).
        destruct (fc_eqb (f', a') (f, a)) eqn:F; simpl; auto.
        apply fc_eqb_eq in F. injection F as -> ->. rewrite E. rewrite !andb_false_r. reflexivity.
      * intros g'. rewrite K. split.
        -- intros [H|[-> [f' H]]]; auto. right. split; auto. exists f'. right. auto.
        -- intros [H|[-> [f' [H|H]]]]; auto.
           ++ injection H as -> ->. rewrite str_eqb_refl in E. discriminate.
           ++ right. split; auto. eauto.
Qed.

(** ** one record *)
Lemma reduce_columns_spec g r aggs cols : forall c, NoDup aggs -> NoDup cols ->
  (forall f col v, In (f, col) aggs -> In col cols -> contribution col r = Some v ->
     exists n, collect f (abs c g (f, col)) v = Ok n) ->
  NoDup (dkeys c) ->
  exists c', reduce_columns aggs cols g r c = Ok c' /\
    (forall g' fc, abs c' g' fc =
       if (g' =? g)%N && str_mem (snd fc) cols && mem fc_eqb fc aggs
       then match contribution (snd fc) r with
            | Some v => ok_collect (fst fc) (abs c g' fc) v
            | None => abs c g' fc
            end
       else abs c g' fc) /\
    (forall g', In g' (dkeys c') <-> In g' (dkeys c) \/
       (g' = g /\ exists f col, In (f, col) aggs /\ In col cols /\ contribution col r <> None)) /\
    NoDup (dkeys c').
Proof.
  induction cols as [|col cols IH]; intros c Hn Hc Hok Hk; simpl.
  - exists c. split; auto. split; [|split; auto].
    + intros g' fc. unfold str_mem, mem at 1. simpl. rewrite andb_false_r. reflexivity.
    + intros g'. split; auto. intros [H|(_ & f & col & _ & [] & _)]; auto.
  - inversion Hc as [|? ? Hnin Hc']; subst.
    assert (exists c1, match contribution col r with Some v => reduce_tuple aggs g col v c | None => Ok c end = Ok c1 /\
      (forall g' fc, abs c1 g' fc =
         if (g' =? g)%N && str_eqb (snd fc) col && mem fc_eqb fc aggs
         then match contribution (snd fc) r with
              | Some v => ok_collect (fst fc) (abs c g' fc) v
              | None => abs c g' fc
              end
         else abs c g' fc) /\
      (forall g', In g' (dkeys c1) <-> In g' (dkeys c) \/
         (g' = g /\ exists f, In (f, col) aggs /\ contribution col r <> None)) /\
      NoDup (dkeys c1)) as (c1 & R1 & A1 & K1 & N1).
    { destruct (contribution col r) as [v|] eqn:E.
      - destruct (reduce_tuple_spec g col v aggs c) as (c1 & R1 & A1 & K1 & N1); auto.
        { intros f Hf. eapply Hok; eauto. left. auto. }
        exists c1. split; auto. split; [|split; auto].
        + intros g' fc. rewrite A1. destruct (str_eqb (snd fc) col) eqn:F; [|rewrite !andb_false_r; simpl; reflexivity].
          apply str_eqb_eq in F. rewrite F, E. reflexivity.
        + intros g'. rewrite K1. split; (intros [H|[-> [f H]]]; [auto|right; split; auto; exists f]).
          * split; auto. discriminate.
          * tauto.
      - exists c. split; auto. split; [|split; auto].
        + intros g' fc. destruct (str_eqb (snd fc) col) eqn:F; [|rewrite !andb_false_r; simpl; reflexivity].
          apply str_eqb_eq in F. rewrite F, E. destruct (_ && _ && _); reflexivity.
        + intros g'. split; auto. intros [H|(_ & f & _ & H)]; congruence. }
    rewrite R1. cbn [bind].
    destruct (IH c1) as (c' & R & A & K & ND); auto.
    { intros f a v Hf Ha Hv. rewrite A1. simpl.
      destruct (str_eqb a col) eqn:F.
      - apply str_eqb_eq in F. subst. contradiction.
      - rewrite andb_false_r. simpl. eapply Hok; eauto. right. auto. }
    exists c'. split; auto. split; [|split; auto].
    + intros g' fc. rewrite A, A1. unfold str_mem, mem at 3. simpl. fold (mem str_eqb (snd fc) cols). fold (str_mem (snd fc) cols).
      destruct (str_eqb (snd fc) col) eqn:F; simpl.
      * apply str_eqb_eq in F. rewrite F.
        assert (str_mem col cols = false) as ->.
        { destruct (str_mem col cols) eqn:M; auto. apply str_mem_In in M. contradiction. }
        rewrite andb_false_r. simpl. reflexivity.
      * rewrite andb_false_r. simpl. reflexivity.
    + intros g'. rewrite K, K1. split.
      * intros [[H|(-> & f & H & H2)]|(-> & f & a & H & H2 & H3)]; auto; right; split; auto;
          [exists f, col|exists f, a]; repeat split; auto; simpl; auto.
      * intros [H|(-> & f & a & H & [<-|H2] & H3)]; auto.
        -- left. right. split; auto. eauto.
        -- right. split; auto. exists f, a. auto.
Qed.

(** ** all records *)
Section Run.
  Context (xxh : str -> N) (columns : list str) (aggs : list (func * str)).
  Notation key := (group_key xxh columns).
  Let cols := dedup str_eqb (map snd aggs).

  Definition contrib (col : str) (r : record) : list value :=
    match contribution col r with Some v => [v] | None => [] end.
  Definition members (g : N) (rows : list record) := filter (fun r => (key r =? g)%N) rows.
  Definition vals (g : N) (col : str) (rows : list record) := flat_map (contrib col) (members g rows).
  Definition agg_run (f : func) (vs : list value) : option value := fold_left (ok_collect f) vs None.
  Definition agg_safe (f : func) (vs : list value) : Prop :=
    forall pre v post, vs = pre ++ v :: post -> exists n, collect f (agg_run f pre) v = Ok n.

  Lemma members_app g a b : members g (a ++ b) = members g a ++ members g b.
  Proof. apply filter_app. Qed.
  Lemma vals_app g c a b : vals g c (a ++ b) = vals g c a ++ vals g c b.
  Proof. unfold vals. rewrite members_app. apply flat_map_app. Qed.
  Lemma vals_one g c r : vals g c [r] = if (key r =? g)%N then contrib c r else [].
  Proof. unfold vals, members. simpl. destruct (key r =? g)%N; simpl; rewrite ?app_nil_r; auto. Qed.
  Lemma agg_run_snoc f vs v : agg_run f (vs ++ [v]) = ok_collect f (agg_run f vs) v.
  Proof. unfold agg_run. rewrite fold_left_app. reflexivity. Qed.

  Lemma in_cols f c : In (f, c) aggs -> In c cols.
  Proof. intros H. apply dedup_In; auto using str_keqb. apply (in_map snd) in H. exact H. Qed.

  Definition first_of (g : N) (rows : list record) : option record := hd_error (members g rows).

  Record Inv (rows : list record) (st : state) : Prop := {
    inv_abs : forall g fc, In fc aggs -> abs (collector st) g fc = agg_run (fst fc) (vals g (snd fc) rows);
    inv_keys : forall g, In g (dkeys (collector st)) <->
                         exists r, In r rows /\ key r = g /\ exists f c, In (f, c) aggs /\ contribution c r <> None;
    inv_nodup : NoDup (dkeys (collector st));
    inv_groups : forall g, dget N.eqb g (group_keys st) =
                           option_map (fun r => map (fun c => (c, rget c r)) columns) (first_of g rows);
    inv_gnodup : NoDup (dkeys (group_keys st)) }.

  Lemma first_of_snoc g rows r : first_of g (rows ++ [r]) =
    match first_of g rows with Some x => Some x | None => if (key r =? g)%N then Some r else None end.
  Proof.
    unfold first_of. rewrite members_app. destruct (members g rows); simpl; auto.
    unfold members. simpl. destruct (key r =? g)%N; reflexivity.
  Qed.

  Context (all : list record).
  Context (Hn : NoDup aggs).
  Context (Hsafe : forall g f c, In (f, c) aggs -> agg_safe f (vals g c all)).
  (** fewer groups than the limit *)
  Context (Hfew : (Z.of_nat (length (dedup str_eqb (map (group_text columns) all))) < group_limit)%Z).

  Lemma groups_few st rows : Inv rows st -> (exists rest, all = rows ++ rest) ->
    (length (dkeys (group_keys st)) <= length (dedup str_eqb (map (group_text columns) all)))%nat.
  Proof.
    intros [_ _ _ Hg Hnd] [rest E].
    assert (incl (dkeys (group_keys st)) (map xxh (dedup str_eqb (map (group_text columns) all)))) as I.
    { intros g Hin. destruct (dget N.eqb g (group_keys st)) as [x|] eqn:D.
      - rewrite Hg in D. unfold first_of in D. destruct (members g rows) as [|r l] eqn:M; [discriminate|].
        assert (In r (members g rows)) as Hr by (rewrite M; left; auto).
        apply filter_In in Hr as [Hr Ek]. apply N.eqb_eq in Ek. subst g. unfold group_key. apply in_map.
        apply dedup_In; auto using str_keqb. apply in_map. rewrite E. apply in_or_app. auto.
      - apply dget_None in D; auto using N_keqb. contradiction. }
    apply NoDup_incl_length in I; auto. rewrite map_length in I. exact I.
  Qed.

  Lemma reduce_record_spec rows r rest st : all = rows ++ r :: rest -> Inv rows st ->
    exists st', reduce_record xxh columns aggs cols st r = Ok st' /\ Inv (rows ++ [r]) st'.
  Proof.
    intros E I. unfold reduce_record. set (g := key r).
    set (keys1 := if dhas N.eqb g (group_keys st) then group_keys st
                  else group_keys st ++ [(g, map (fun c => (c, rget c r)) columns)]).
    assert (forall g', dget N.eqb g' keys1 =
              option_map (fun r => map (fun c => (c, rget c r)) columns) (first_of g' (rows ++ [r]))) as G1.
    { intros g'. rewrite first_of_snoc. fold g. unfold keys1, dhas.
      pose proof (inv_groups _ _ I) as Hg. destruct (dget N.eqb g (group_keys st)) eqn:D.
      - rewrite Hg. rewrite Hg in D. destruct (N.eqb_spec g g') as [<-|Ng].
        + destruct (first_of g rows); simpl in *; [reflexivity|discriminate].
        + destruct (first_of g' rows); reflexivity.
      - rewrite dget_app, Hg. rewrite Hg in D. simpl. rewrite (N.eqb_sym g' g). destruct (N.eqb_spec g g') as [<-|Ng].
        + destruct (first_of g rows); [discriminate|]. reflexivity.
        + destruct (first_of g' rows); reflexivity. }
    assert (NoDup (dkeys keys1)) as G2.
    { unfold keys1, dhas. destruct (dget N.eqb g (group_keys st)) eqn:D; [apply I|].
      unfold dkeys. rewrite map_app. simpl. apply NoDup_app_snoc; [apply I|].
      apply dget_None in D; auto using N_keqb. }
    assert (exists c', reduce_columns aggs cols g r (collector st) = Ok c' /\
              Inv (rows ++ [r]) (mkState keys1 c')) as (c' & R & I').
    { destruct (reduce_columns_spec g r aggs cols (collector st)) as (c' & R & A & K & ND); auto.
      - apply dedup_NoDup, str_keqb.
      - intros f c v Hf Hc Hv. rewrite (inv_abs _ _ I) by auto. simpl.
        assert (vals g c all = vals g c rows ++ v :: vals g c rest) as Ev.
        { rewrite E. change (r :: rest) with ([r] ++ rest). rewrite !vals_app, vals_one. unfold g. rewrite N.eqb_refl.
          unfold contrib at 1. rewrite Hv. reflexivity. }
        apply (Hsafe g f c Hf _ _ _ Ev).
      - apply I.
      - exists c'. split; auto. constructor; simpl; auto.
        + intros g' fc Hfc. rewrite A. rewrite (inv_abs _ _ I) by auto.
          assert (str_mem (snd fc) cols = true) as ->.
          { apply str_mem_In. destruct fc. eapply in_cols; eauto. }
          assert (mem fc_eqb fc aggs = true) as ->.
          { apply existsb_exists. exists fc. split; auto. apply fc_eqb_eq. auto. }
          rewrite vals_app, vals_one. fold g. rewrite !andb_true_r, N.eqb_sym. destruct (g =? g')%N; [|rewrite app_nil_r; auto].
          unfold contrib. destruct (contribution (snd fc) r); [rewrite agg_run_snoc; auto|rewrite app_nil_r; auto].
        + intros g'. rewrite K, (inv_keys _ _ I). split.
          * intros [(x & Hx & Ex & H)|(-> & f & c & H1 & H2 & H3)].
            -- exists x. split; [apply in_or_app|]; auto.
            -- exists r. split; [apply in_or_app; simpl; auto|]. split; auto. eauto.
          * intros (x & Hx & Ex & f & c & H1 & H2). apply in_app_or in Hx as [Hx|[<-|[]]].
            -- left. exists x. eauto 6.
            -- right. split; [auto|]. exists f, c. split; auto. split; auto. eapply in_cols; eauto. }
    assert ((group_limit <=? Z.of_nat (length keys1))%Z = false) as L.
    { pose proof (groups_few _ _ I') as F. simpl in F. unfold dkeys in F. rewrite map_length in F.
      assert (exists rest0, all = (rows ++ [r]) ++ rest0) as X by (exists rest; rewrite <- app_assoc; auto).
      specialize (F X). lia. }
    exists (mkState keys1 c'). split; auto.
    unfold keys1 in *. fold g. destruct (dhas N.eqb g (group_keys st)) eqn:D.
    - cbn [bind]. rewrite R. reflexivity.
    - rewrite L. cbn [bind]. rewrite R. reflexivity.
  Qed.

  Lemma reduce_all_spec : forall rest rows st, all = rows ++ rest -> Inv rows st ->
    exists st', reduce_all xxh columns aggs cols st rest = Ok st' /\ Inv all st'.
  Proof.
    induction rest as [|r rest IH]; intros rows st E I; simpl.
    - rewrite app_nil_r in E. subst. eauto.
    - destruct (reduce_record_spec rows r rest st E I) as (st1 & R & I1). rewrite R. cbn [bind].
      apply (IH (rows ++ [r])); auto. rewrite <- app_assoc. auto.
  Qed.

  Lemma Inv_init : Inv [] (mkState [] []).
  Proof.
    constructor; simpl; auto; try constructor; try tauto.
    intros (r & [] & _).
  Qed.
End Run.

(** ** what the folds compute *)
Lemma safe_from f (C : list value -> Prop) :
  (forall a b, C (a ++ b) -> C a) ->
  (forall vs v, C (vs ++ [v]) -> exists n, collect f (agg_run f vs) v = Ok n) ->
  forall vs, C vs -> agg_safe f vs.
Proof.
  intros Hp Hs vs Hv pre v post E. apply Hs. subst. apply (Hp _ post). rewrite <- app_assoc. exact Hv.
Qed.

Lemma total_app a b : total (a ++ b) = (total a + total b)%Z.
Proof. induction a as [|x a IH]; simpl; lia. Qed.
Lemma abs_total_app a b : abs_total (a ++ b) = (abs_total a + abs_total b)%Z.
Proof. induction a as [|x a IH]; simpl; lia. Qed.
Lemma abs_total_nonneg a : (0 <= abs_total a)%Z.
Proof. induction a as [|x a IH]; simpl; lia. Qed.
Lemma abs_total_bound a : (Z.abs (total a) <= abs_total a)%Z.
Proof. induction a as [|x a IH]; simpl; lia. Qed.

Lemma truthy_num v z : num_of v = Some z -> truthy v = negb (z =? 0)%Z.
Proof. destruct v as [|[]| | | |]; simpl; intros E; inversion E; reflexivity. Qed.

Lemma num_number v z : num_of v = Some z -> number v = z.
Proof. intros H. unfold number. rewrite H. reflexivity. Qed.

Lemma count_run vs : agg_run COUNT vs = match vs with [] => None | _ => Some (VInt (Z.of_nat (length vs))) end.
Proof.
  induction vs as [|v vs IH] using rev_ind; auto. rewrite agg_run_snoc, IH.
  destruct vs as [|x vs]; auto.
  assert (exists y ys, (x :: vs) ++ [v] = y :: ys) as (y & ys & E) by (simpl; eauto). rewrite E, <- E, app_length.
  unfold ok_collect, collect. rewrite (truthy_num _ (Z.of_nat (length (x :: vs)))) by reflexivity.
  replace (_ =? 0)%Z with false by (symmetry; apply Z.eqb_neq; simpl; lia).
  simpl negb. cbv iota. rewrite orb_true_r. unfold aggregator, py_add. simpl num_of. cbv iota.
  f_equal. f_equal. cbn [length]. lia.
Qed.

Lemma count_safe vs : agg_safe COUNT vs.
Proof.
  apply (safe_from COUNT (fun _ => True)); auto. clear. intros vs v _. rewrite count_run.
  destruct vs as [|x vs]; [simpl; eauto|]. unfold collect.
  destruct (truthy _); [|simpl; eauto]. rewrite orb_true_r. simpl. eauto.
Qed.

Lemma avg_safe vs : agg_safe AVG vs.
Proof.
  intros pre v post _. unfold collect. destruct (agg_run AVG pre) as [e|]; [|eauto].
  destruct (truthy e); [|eauto]. destruct (truthy v || func_eqb AVG COUNT); simpl; eauto.
Qed.

Lemma decimal_round_small z : (Z.abs z < 10 ^ 28)%Z -> decimal_round z = z.
Proof.
  intros H. unfold decimal_round.
  assert (length (dec (Z.abs_N z)) <= 28)%nat as L.
  { apply dec_length_bound; [lia|]. change (10 ^ N.of_nat 28)%N with (Z.to_N (10 ^ 28)). lia. }
  replace (_ <=? 28)%Z with true by (symmetry; apply Z.leb_le; lia). reflexivity.
Qed.

Definition sum_ok (vs : list value) : Prop := all_numbers vs /\ (abs_total vs < 10 ^ 28)%Z.

Lemma sum_ok_app a b : sum_ok (a ++ b) -> sum_ok a.
Proof.
  intros [H1 H2]. split; [apply Forall_app in H1; tauto|]. rewrite abs_total_app in H2.
  pose proof (abs_total_nonneg b). lia.
Qed.

Lemma sum_step vs v : sum_ok (vs ++ [v]) ->
  (vs = [] /\ agg_run SUM vs = None \/ exists w, agg_run SUM vs = Some w /\ num_of w = Some (total vs)) ->
  exists n, collect SUM (agg_run SUM vs) v = Ok n /\ num_of n = Some (total (vs ++ [v])).
Proof.
  intros [Hn Hb] Hr. apply Forall_app in Hn as [Hn Hv]. inversion Hv as [|? ? [z Hz] _]; subst.
  rewrite total_app. cbn [total]. rewrite (num_number _ _ Hz), Z.add_0_r.
  rewrite abs_total_app in Hb. cbn [abs_total] in Hb. rewrite (num_number _ _ Hz) in Hb.
  pose proof (abs_total_bound vs).
  destruct Hr as [[-> E]|(w & E & Hw)]; rewrite E; cbn [collect].
  - exists v. split; [reflexivity|exact Hz].
  - rewrite (truthy_num _ _ Hw), (truthy_num _ _ Hz). destruct (Z.eqb_spec (total vs) 0) as [E0|E0]; cbn [negb].
    + exists v. rewrite E0, Z.add_0_l. split; [reflexivity|exact Hz].
    + destruct (Z.eqb_spec z 0) as [Ez|Ez]; cbn [negb orb func_eqb].
      * exists w. rewrite Ez, Z.add_0_r. auto.
      * exists (VInt (total vs + z)). cbn [aggregator summer]. unfold summer. rewrite Hw, Hz.
        rewrite decimal_round_small by lia. auto.
Qed.

Lemma sum_run vs : sum_ok vs ->
  vs = [] /\ agg_run SUM vs = None \/ exists w, agg_run SUM vs = Some w /\ num_of w = Some (total vs).
Proof.
  induction vs as [|v vs IH] using rev_ind; intros H; auto. right.
  destruct (sum_step vs v H) as (n & Hc & Hn). { apply IH. eapply sum_ok_app; eauto. }
  exists n. rewrite agg_run_snoc. unfold ok_collect. rewrite Hc. auto.
Qed.

Lemma sum_safe vs : sum_ok vs -> agg_safe SUM vs.
Proof.
  apply safe_from; [apply sum_ok_app|]. intros a v H.
  destruct (sum_step a v H) as (n & Hc & _); eauto. apply sum_run. eapply sum_ok_app; eauto.
Qed.

Definition ext_ok (vs : list value) : Prop := all_numbers vs /\ Forall (fun v => number v <> 0%Z) vs.
Lemma ext_ok_app a b : ext_ok (a ++ b) -> ext_ok a.
Proof. intros [H1 H2]. apply Forall_app in H1, H2. split; tauto. Qed.

Lemma ext_ok_In vs v : ext_ok vs -> In v vs -> exists z, num_of v = Some z /\ z <> 0%Z.
Proof.
  intros [H1 H2] Hv. unfold all_numbers in H1. rewrite Forall_forall in H1, H2. destruct (H1 v Hv) as [z Hz]. exists z. split; auto.
  rewrite <- (num_number _ _ Hz). auto.
Qed.

Section Extreme.
  Context (f : func) (up : bool) (Hf : f = if up then MAX else MIN).
  Definition extreme (vs : list value) (m : value) := if up then greatest vs m else least vs m.

  Lemma ext_step vs v : ext_ok (vs ++ [v]) ->
    (vs = [] /\ agg_run f vs = None \/ exists w, agg_run f vs = Some w /\ extreme vs w) ->
    exists n, collect f (agg_run f vs) v = Ok n /\ extreme (vs ++ [v]) n.
  Proof.
    intros Ho Hr. destruct (ext_ok_In _ v Ho) as (z & Hz & Nz). { apply in_or_app. simpl. auto. }
    destruct Hr as [[-> E]|(w & E & Hw)]; rewrite E; cbn [collect].
    - exists v. split; [subst f; destruct up; reflexivity|].
      unfold extreme. destruct up; (split; [left; auto|]); intros x [->|[]]; lia.
    - assert (In w vs) as Iw by (unfold extreme in Hw; destruct up; apply Hw).
      destruct (ext_ok_In _ w Ho) as (y & Hy & Ny). { apply in_or_app. auto. }
      rewrite (truthy_num _ _ Hy), (truthy_num _ _ Hz).
      apply Z.eqb_neq in Ny, Nz. rewrite Ny, Nz. cbn [negb orb].
      subst f. unfold extreme in *. destruct up; cbn [aggregator]; unfold py_max, py_min.
      + rewrite (py_lt_num w v y z) by auto. cbn [bind]. eexists. split; [reflexivity|].
        destruct Hw as [_ Hmax]. destruct (Z.ltb_spec y z).
        * split; [apply in_or_app; simpl; auto|]. intros x Hx. apply in_app_or in Hx as [Hx|[->|[]]]; [|lia].
          specialize (Hmax x Hx). rewrite (num_number _ _ Hy) in Hmax. rewrite (num_number _ _ Hz). lia.
        * split; [apply in_or_app; simpl; auto|]. intros x Hx. apply in_app_or in Hx as [Hx|[<-|[]]]; [auto|].
          rewrite (num_number _ _ Hy), (num_number _ _ Hz). lia.
      + rewrite (py_lt_num v w z y) by auto. cbn [bind]. eexists. split; [reflexivity|].
        destruct Hw as [_ Hmin]. destruct (Z.ltb_spec z y).
        * split; [apply in_or_app; simpl; auto|]. intros x Hx. apply in_app_or in Hx as [Hx|[->|[]]]; [|lia].
          specialize (Hmin x Hx). rewrite (num_number _ _ Hy) in Hmin. rewrite (num_number _ _ Hz). lia.
        * split; [apply in_or_app; simpl; auto|]. intros x Hx. apply in_app_or in Hx as [Hx|[<-|[]]]; [auto|].
          rewrite (num_number _ _ Hy), (num_number _ _ Hz). lia.
  Qed.

  Lemma ext_run vs : ext_ok vs ->
    vs = [] /\ agg_run f vs = None \/ exists w, agg_run f vs = Some w /\ extreme vs w.
  Proof.
    induction vs as [|v vs IH] using rev_ind; intros H; auto. right.
    destruct (ext_step vs v H) as (n & Hc & Hn). { apply IH. eapply ext_ok_app; eauto. }
    exists n. rewrite agg_run_snoc. unfold ok_collect. rewrite Hc. auto.
  Qed.

  Lemma ext_safe vs : ext_ok vs -> agg_safe f vs.
  Proof.
    apply safe_from; [apply ext_ok_app|]. intros a v H.
    destruct (ext_step a v H) as (n & Hc & _); eauto. apply ext_run. eapply ext_ok_app; eauto.
  Qed.
End Extreme.

(** ** the values of a group *)
Lemma contrib_non_null c l : c <> $"*" -> flat_map (contrib c) l = non_null c l.
Proof.
  intros H. induction l as [|r l IH]; simpl; auto. unfold contrib at 1, contribution.
  apply str_eqb_neq in H. rewrite H, IH. destruct (rget c r); reflexivity.
Qed.
Lemma contrib_counted c l : length (flat_map (contrib c) l) = counted c l.
Proof.
  unfold counted. destruct (str_eqb c $"*") eqn:E.
  - induction l as [|r l IH]; simpl; auto. unfold contrib at 1, contribution. rewrite E. simpl. f_equal. exact IH.
  - rewrite contrib_non_null; auto. intros ->. discriminate.
Qed.

Lemma non_null_In c v l : In v (non_null c l) <-> v <> VNull /\ exists r, In r l /\ rget c r = v.
Proof.
  induction l as [|r l IH]; simpl.
  - split; [tauto|]. intros (_ & r & [] & _).
  - destruct (rget c r) eqn:E; simpl; rewrite IH; split;
      try (intros [<-|(Hv & x & Hx & Ex)]); try (intros (Hv & x & Hx & Ex));
      try (split; [congruence|]); try (exists r; split; auto; congruence);
      try (exists x; split; auto; congruence);
      try (destruct Hx as [<-|Hx]; [rewrite E in Ex; try congruence; auto|]); eauto 6.
Qed.

Lemma non_null_filter_abs c p l : (abs_total (non_null c (filter p l)) <= abs_total (non_null c l))%Z.
Proof.
  induction l as [|r l IH]; simpl; [lia|]. destruct (p r); simpl; destruct (rget c r); simpl; lia.
Qed.
Lemma non_null_filter_incl c p l : incl (non_null c (filter p l)) (non_null c l).
Proof.
  intros v Hv. apply non_null_In in Hv as (H & r & Hr & E). apply filter_In in Hr as [Hr _].
  apply non_null_In. eauto.
Qed.

Lemma column_numbers c l : number_column c l -> all_numbers (non_null c l).
Proof.
  intros H. apply Forall_forall. intros v Hv. apply non_null_In in Hv as (Hn & r & Hr & <-).
  destruct (H r Hr) as [E|E]; auto; contradiction.
Qed.

Lemma picks_filter {A} (P : A -> Prop) p l sub : (forall x, In x l -> (P x <-> p x = true)) ->
  (picks P l sub <-> sub = filter p l).
Proof.
  revert sub. induction l as [|x l IH]; intros sub H; simpl.
  - split; [inversion 1; auto|intros ->; constructor].
  - assert (forall y, In y l -> P y <-> p y = true) as H' by (intros; apply H; right; auto).
    pose proof (H x (or_introl eq_refl)) as Hx. split.
    + inversion 1; subst.
      * rewrite (proj1 Hx) by auto. f_equal. apply IH; auto.
      * destruct (p x); [tauto|]. apply IH; auto.
    + intros ->. destruct (p x) eqn:E.
      * apply picks_in; [tauto|apply IH; auto].
      * apply picks_out; [intros HP; apply Hx in HP; congruence|apply IH; auto].
Qed.

Lemma mapM_Forall2 {A B} (f : A -> result B) (P : A -> B -> Prop) l :
  (forall x, In x l -> exists y, f x = Ok y /\ P x y) -> exists out, mapM f l = Ok out /\ Forall2 P l out.
Proof.
  induction l as [|x l IH]; intros H; simpl.
  - eauto.
  - destruct (H x (or_introl eq_refl)) as (y & -> & Py). destruct IH as (out & -> & Po); [intros; apply H; right; auto|].
    simpl. eauto.
Qed.

Lemma Forall2_In_l {A B} (P : A -> B -> Prop) l m x : Forall2 P l m -> In x l -> exists y, In y m /\ P x y.
Proof. induction 1; intros []; subst; simpl; eauto. destruct IHForall2 as (z & ? & ?); eauto. Qed.
Lemma Forall2_In_r {A B} (P : A -> B -> Prop) l m y : Forall2 P l m -> In y m -> exists x, In x l /\ P x y.
Proof. induction 1; intros []; subst; simpl; eauto. destruct IHForall2 as (z & ? & ?); eauto. Qed.
Lemma Forall2_nth {A B} (P : A -> B -> Prop) l m i y : Forall2 P l m -> nth_error m i = Some y ->
  exists x, nth_error l i = Some x /\ P x y.
Proof.
  intros H. revert i. induction H; intros [|i] E; try discriminate; simpl in *.
  - injection E as <-. eauto.
  - eauto.
Qed.

Lemma dset_fold_get {A} (items : list (str * A)) d k :
  dget str_eqb k (fold_left (fun d kv => dset str_eqb (fst kv) (snd kv) d) items d) =
  match dget str_eqb k (rev items) with Some v => Some v | None => dget str_eqb k d end.
Proof.
  induction items as [|[k' v] items IH] using rev_ind; auto.
  rewrite fold_left_app, rev_app_distr. simpl. destruct (str_eqb k k') eqn:E.
  - apply str_eqb_eq in E. subst. apply dget_dset_same, str_keqb.
  - rewrite dget_dset_other; auto using str_keqb. intros ->. rewrite str_eqb_refl in E. discriminate.
Qed.

Lemma dset_fold_cells (items : list (str * value)) (d : row) k :
  dget str_eqb k (fold_left (fun d kv => dset str_eqb (fst kv) (Cell (snd kv)) d) items d) =
  match dget str_eqb k (rev items) with Some v => Some (Cell v) | None => dget str_eqb k d end.
Proof.
  induction items as [|[k' v] items IH] using rev_ind; auto.
  rewrite fold_left_app, rev_app_distr. simpl. destruct (str_eqb k k') eqn:E.
  - apply str_eqb_eq in E. subst. apply dget_dset_same, str_keqb.
  - rewrite dget_dset_other; auto using str_keqb. intros ->. rewrite str_eqb_refl in E. discriminate.
Qed.

Lemma dset_fold_keys {A} (items : list (str * A)) d k :
  In k (map fst (fold_left (fun d kv => dset str_eqb (fst kv) (snd kv) d) items d)) ->
  In k (map fst items) \/ In k (map fst d).
Proof.
  induction items as [|[k' v] items IH] using rev_ind; auto.
  rewrite fold_left_app, map_app. simpl. intros H. apply (dkeys_dset_In str_eqb str_keqb) in H as [->|H].
  - left. apply in_or_app. simpl. auto.
  - rewrite in_app_iff. apply IH in H. tauto.
Qed.
Lemma dset_fold_cell_keys (items : list (str * value)) (d : row) k :
  In k (map fst (fold_left (fun d kv => dset str_eqb (fst kv) (Cell (snd kv)) d) items d)) ->
  In k (map fst items) \/ In k (map fst d).
Proof.
  induction items as [|[k' v] items IH] using rev_ind; auto.
  rewrite fold_left_app, map_app. simpl. intros H. apply (dkeys_dset_In str_eqb str_keqb) in H as [->|H].
  - left. apply in_or_app. simpl. auto.
  - rewrite in_app_iff. apply IH in H. tauto.
Qed.

Lemma dget_map_in {A} (f : str -> A) k l :
  dget str_eqb k (map (fun c => (c, f c)) l) = if str_mem k l then Some (f k) else None.
Proof.
  unfold str_mem, mem. induction l as [|c l IH]; simpl; auto. destruct (str_eqb k c) eqn:E; simpl; auto.
  apply str_eqb_eq in E. subst. auto.
Qed.

Definition cell_of (entry : list (str * value)) (fc : func * str) : result cell :=
  match fst fc with AVG => average entry (snd fc) | _ => Ok (Cell (rget (agg_name (fst fc) (snd fc)) entry)) end.

Lemma result_row_spec requested columns r entry (P : func * str -> cell -> Prop) :
  NoDup requested ->
  (forall f c, In (f, c) requested -> ~ In (agg_name f c) columns) ->
  (forall fc, In fc requested -> exists x, cell_of entry fc = Ok x /\ P fc x) ->
  exists out, result_row requested (map (fun c => (c, rget c r)) columns) entry = Ok out /\
    (forall c, In c columns -> dget str_eqb c out = Some (Cell (rget c r))) /\
    (forall f c, In (f, c) requested -> exists x, dget str_eqb (agg_name f c) out = Some x /\ P (f, c) x) /\
    (forall k, In k (map fst out) -> In k columns \/ exists f c, In (f, c) requested /\ k = agg_name f c).
Proof.
  intros Hn Hx Hc. unfold result_row.
  destruct (mapM_Forall2
    (fun fc : func * str => let (f, col) := fc in
       let* x := match f with AVG => average entry col | _ => Ok (Cell (rget (agg_name f col) entry)) end in
       Ok (agg_name f col, x))
    (fun fc kv => fst kv = agg_name (fst fc) (snd fc) /\ P fc (snd kv)) requested) as (cells & -> & F).
  { intros [f c] Hin. destruct (Hc _ Hin) as (x & E & Px). unfold cell_of in E. cbn [fst snd] in E. rewrite E.
    cbn [bind]. eexists. split; [reflexivity|]. auto. }
  cbn [bind]. eexists. split; [reflexivity|]. split; [|split].
  - intros c Hin. rewrite dset_fold_cells, <- map_rev, dget_map_in.
    rewrite (proj2 (str_mem_In c (rev columns))); auto. rewrite <- in_rev. auto.
  - intros f c Hin. rewrite dset_fold_cells, <- map_rev, dget_map_in.
    destruct (str_mem (agg_name f c) (rev columns)) eqn:M.
    { apply str_mem_In, in_rev in M. exfalso. eapply Hx; eauto. }
    rewrite dset_fold_get. simpl.
    destruct (Forall2_In_l _ _ _ _ F Hin) as ([k x] & Hk & Ek & Px). simpl in *. subst k.
    assert (NoDup (map fst cells)) as Nd.
    { replace (map fst cells) with (map (fun fc => agg_name (fst fc) (snd fc)) requested).
      - apply NoDup_map_inj; auto. intros [a b] [a' b'] _ _ E. cbn [fst snd] in E. apply agg_name_inj in E as [-> ->]. reflexivity.
      - clear - F. induction F as [|? ? ? ? [E _] F IH]; simpl; congruence. }
    rewrite (In_dget str_eqb str_keqb (agg_name f c) x (rev cells)).
    + eauto.
    + unfold dkeys. rewrite map_rev. apply NoDup_rev. auto.
    + rewrite <- in_rev. auto.
  - intros k Hk. apply dset_fold_cell_keys in Hk as [Hk|Hk].
    + left. rewrite map_map in Hk. cbn [fst] in Hk. rewrite map_id in Hk. exact Hk.
    + right. apply dset_fold_keys in Hk as [Hk|[]]. apply in_map_iff in Hk as ([k' x] & <- & Hk).
      destruct (Forall2_In_r _ _ _ _ F Hk) as ([f c] & Hf & E & _). cbn [fst snd] in *. subst. eauto.
Qed.

Section Result.
  Context (xxh : str -> N) (columns : list str) (requested : list (func * str)) (rows : list record).
  Notation key := (group_key xxh columns).
  Context (faithful : forall a b, In a rows -> In b rows -> (key a = key b <-> agree_on columns a b)).

  Lemma expand_In f c : In (f, c) (expand requested) <->
    In (f, c) requested \/ ((f = SUM \/ f = COUNT) /\ In (AVG, c) requested).
  Proof.
    unfold expand. rewrite in_app_iff, in_flat_map. split.
    - intros [H|([f' c'] & H & Hin)]; auto. right. destruct f'; simpl in Hin; try contradiction.
      destruct Hin as [E|[E|[]]]; injection E as <- <-; auto.
    - intros [H|[[->| ->] H]]; auto; right; exists (AVG, c); simpl; auto.
  Qed.

  Lemma expand_NoDup : separate requested -> NoDup (expand requested).
  Proof.
    intros [Hn Hs]. unfold expand.
    assert (forall a b : list (func * str), NoDup a -> NoDup b -> (forall x, In x a -> ~ In x b) -> NoDup (a ++ b)) as App.
    { induction a as [|x a IH]; simpl; auto. intros b Ha Hb Hd. inversion Ha; subst. constructor.
      - rewrite in_app_iff. intros [|Hx]; [auto|]. eapply Hd; eauto.
      - apply IH; auto. }
    apply App; auto.
    - apply NoDup_flat_map.
      + intros [f c] _. destruct f; simpl; repeat constructor; simpl; intuition congruence.
      + intros i j [f c] [f' c'] x Hi Hj Hx Hy.
        destruct f; simpl in Hx; try contradiction. destruct f'; simpl in Hy; try contradiction.
        assert (c = c') as <- by (destruct Hx as [<-|[<-|[]]], Hy as [E|[E|[]]]; congruence).
        eapply NoDup_nth_error; [exact Hn| |congruence]. apply nth_error_Some. congruence.
    - intros [f c] Hx Hy. apply in_flat_map in Hy as ([f' c'] & Hin & Hy).
      destruct f'; simpl in Hy; try contradiction.
      destruct Hy as [E|[E|[]]]; injection E as <- <-; apply Hs in Hin; tauto.
  Qed.

  Lemma group_members r group : In r rows -> (group_of columns r rows group <-> group = members xxh columns (key r) rows).
  Proof.
    intros Hr. apply picks_filter. intros x Hx. rewrite N.eqb_eq. rewrite <- faithful by auto. split; congruence.
  Qed.

  Lemma has_values_iff g : has_values requested (members xxh columns g rows) <->
    exists r, In r rows /\ key r = g /\ exists f c, In (f, c) (expand requested) /\ contribution c r <> None.
  Proof.
    unfold has_values. split.
    - intros (f & c & Hf & Hc). rewrite <- contrib_counted in Hc.
      destruct (flat_map (contrib c) (members xxh columns g rows)) as [|v l] eqn:E; [simpl in Hc; lia|].
      assert (In v (flat_map (contrib c) (members xxh columns g rows))) as Hv by (rewrite E; left; auto).
      apply in_flat_map in Hv as (r & Hr & Hv). apply filter_In in Hr as [Hr Ek]. apply N.eqb_eq in Ek.
      exists r. split; auto. split; auto. exists f, c. split; [apply expand_In; auto|].
      unfold contrib in Hv. destruct (contribution c r); [discriminate|contradiction].
    - intros (r & Hr & Ek & f & c & Hf & Hc).
      assert (0 < counted c (members xxh columns g rows)) as L.
      { rewrite <- contrib_counted. destruct (contribution c r) as [v|] eqn:E; [|congruence].
        assert (In v (flat_map (contrib c) (members xxh columns g rows))) as Hv.
        { apply in_flat_map. exists r. split.
          - apply filter_In. split; auto. apply N.eqb_eq. auto.
          - unfold contrib. rewrite E. left. auto. }
        destruct (flat_map _ _); [contradiction|simpl; lia]. }
      apply expand_In in Hf as [Hf|[_ Hf]]; eauto.
  Qed.

  Context (few : (Z.of_nat (length (dedup str_eqb (map (group_text columns) rows))) < group_limit)%Z).
  Context (Hsep : separate requested).
  Context (Hsuit : forall f c, In (f, c) requested -> suitable rows f c).
  Context (Hnames : forall f c, In (f, c) requested -> ~ In (agg_name f c) columns).
  Context (Havg : forall c r group, In (AVG, c) requested -> In r rows -> group_of columns r rows group ->
                                    has_values requested group -> 0 < counted c group).

  Lemma suit_sum g c : In (SUM, c) (expand requested) ->
    vals xxh columns g c rows = non_null c (members xxh columns g rows) /\ sum_ok (vals xxh columns g c rows).
  Proof.
    intros H. assert (c <> $"*" /\ number_column c rows /\ (abs_total (non_null c rows) < 10 ^ 28)%Z) as (H1 & H2 & H3).
    { apply expand_In in H as [H|[_ H]]; apply Hsuit in H; exact H. }
    assert (vals xxh columns g c rows = non_null c (members xxh columns g rows)) as E by (apply contrib_non_null; auto).
    split; auto. rewrite E. split.
    - apply column_numbers. intros r Hr. apply filter_In in Hr as [Hr _]. auto.
    - eapply Z.le_lt_trans; [apply non_null_filter_abs|exact H3].
  Qed.

  Lemma suit_ext g f c : In (f, c) requested -> f = MIN \/ f = MAX ->
    vals xxh columns g c rows = non_null c (members xxh columns g rows) /\ ext_ok (vals xxh columns g c rows).
  Proof.
    intros H Hf. assert (c <> $"*" /\ number_column c rows /\ Forall (fun v => number v <> 0%Z) (non_null c rows)) as (H1 & H2 & H3).
    { apply Hsuit in H. destruct Hf as [->| ->]; exact H. }
    assert (vals xxh columns g c rows = non_null c (members xxh columns g rows)) as E by (apply contrib_non_null; auto).
    split; auto. rewrite E. split.
    - apply column_numbers. intros r Hr. apply filter_In in Hr as [Hr _]. auto.
    - rewrite Forall_forall in *. intros v Hv. apply H3. eapply non_null_filter_incl; eauto.
  Qed.

  Lemma all_safe g f c : In (f, c) (expand requested) -> agg_safe f (vals xxh columns g c rows).
  Proof.
    intros H. destruct f.
    - apply sum_safe, suit_sum, H.
    - apply (ext_safe MAX true eq_refl). apply expand_In in H as [H|[[|] _]]; try discriminate. eapply suit_ext; eauto.
    - apply (ext_safe MIN false eq_refl). apply expand_In in H as [H|[[|] _]]; try discriminate. eapply suit_ext; eauto.
    - apply count_safe.
    - apply avg_safe.
  Qed.

  Lemma average_spec st g c : Inv xxh columns (expand requested) rows st -> In (AVG, c) requested ->
    0 < counted c (members xxh columns g rows) ->
    average (dget_entry g (collector st)) c =
    Ok (Quotient (total (non_null c (members xxh columns g rows)))
                 (Z.of_nat (length (non_null c (members xxh columns g rows))))).
  Proof.
    intros I H L. unfold average.
    assert (In (SUM, c) (expand requested)) as HS by (apply expand_In; auto).
    assert (In (COUNT, c) (expand requested)) as HC by (apply expand_In; auto).
    pose proof (inv_abs _ _ _ _ _ I g (SUM, c) HS) as ES. unfold abs in ES. cbn [fst snd] in ES.
    pose proof (inv_abs _ _ _ _ _ I g (COUNT, c) HC) as EC. unfold abs in EC. cbn [fst snd] in EC.
    destruct (suit_sum g c HS) as [Ev Ho].
    assert (length (vals xxh columns g c rows) = counted c (members xxh columns g rows)) as Lv by apply contrib_counted.
    rewrite ES, EC. destruct (sum_run _ Ho) as [[E _]|(w & E & Hw)].
    { rewrite E in Lv. simpl in Lv. lia. }
    rewrite E, count_run, Ev in *. destruct (non_null c (members xxh columns g rows)) as [|x l] eqn:En; [simpl in Lv; lia|].
    rewrite Hw. cbn [num_of]. replace (_ =? 0)%Z with false by (symmetry; apply Z.eqb_neq; simpl; lia). reflexivity.
  Qed.

  Lemma cell_spec st g : Inv xxh columns (expand requested) rows st -> forall fc, In fc requested ->
    (fst fc = AVG -> 0 < counted (snd fc) (members xxh columns g rows)) ->
    exists x, cell_of (dget_entry g (collector st)) fc = Ok x /\
              aggregate_is (fst fc) (snd fc) (members xxh columns g rows) x.
  Proof.
    intros I [f c] Hf L. unfold cell_of. cbn [fst snd] in *.
    assert (In (f, c) (expand requested)) as He by (apply expand_In; auto).
    pose proof (inv_abs _ _ _ _ _ I g (f, c) He) as E. unfold abs in E. cbn [fst snd] in E.
    destruct f; unfold rget; rewrite ?E; cbn [aggregate_is].
    - destruct (suit_sum g c He) as [Ev Ho]. eexists. split; [reflexivity|]. eexists. split; [reflexivity|].
      rewrite <- Ev. destruct (sum_run _ Ho) as [[En Er]|(w & Er & Hw)]; rewrite Er.
      + rewrite En. split; auto. congruence.
      + split; auto. intros X. rewrite X in Er. discriminate.
    - destruct (suit_ext g MAX c Hf (or_intror eq_refl)) as [Ev Ho]. eexists. split; [reflexivity|]. eexists. split; [reflexivity|].
      rewrite <- Ev. destruct (ext_run MAX true eq_refl _ Ho) as [[En Er]|(w & Er & Hw)]; rewrite Er.
      + rewrite En. split; auto. congruence.
      + split; auto. intros X. rewrite X in Er. discriminate.
    - destruct (suit_ext g MIN c Hf (or_introl eq_refl)) as [Ev Ho]. eexists. split; [reflexivity|]. eexists. split; [reflexivity|].
      rewrite <- Ev. destruct (ext_run MIN false eq_refl _ Ho) as [[En Er]|(w & Er & Hw)]; rewrite Er.
      + rewrite En. split; auto. congruence.
      + split; auto. intros X. rewrite X in Er. discriminate.
    - eexists. split; [reflexivity|]. rewrite count_run. rewrite <- contrib_counted. fold (vals xxh columns g c rows).
      destruct (vals xxh columns g c rows); reflexivity.
    - eexists. split; [apply average_spec; auto|reflexivity].
  Qed.

  Lemma aggregate_spec : exists out, aggregate xxh columns requested rows = Ok out /\ group_by_is columns requested rows out.
  Proof.
    destruct (reduce_all_spec xxh columns (expand requested) rows (expand_NoDup Hsep) all_safe few rows [] (mkState [] [])
                eq_refl (Inv_init xxh columns (expand requested))) as (st & R & I).
    unfold aggregate. rewrite R. cbn [bind].
    set (sorted := isort (fun a b => (fst a <=? fst b)%N) (collector st)).
    assert (forall ge, In ge sorted -> In ge (collector st)) as Hin by (intros ge H; apply isort_In in H; auto).
    assert (NoDup (map fst sorted)) as Hnd.
    { apply (Permutation_NoDup (l := map fst (collector st))); [|apply (inv_nodup _ _ _ _ _ I)].
      apply Permutation_map, Permutation_sym, isort_perm. }
    (* every entry belongs to the group of a record *)
    assert (forall g, In g (dkeys (collector st)) -> exists r, In r rows /\ key r = g /\
              dget N.eqb g (group_keys st) = Some (map (fun c => (c, rget c r)) columns) /\
              has_values requested (members xxh columns g rows)) as Hentry.
    { intros g Hg. pose proof Hg as Hg'. apply (inv_keys _ _ _ _ _ I) in Hg as (x & Hx & Ek & Hc).
      rewrite (inv_groups _ _ _ _ _ I). unfold first_of. destruct (members xxh columns g rows) as [|r l] eqn:M.
      - exfalso. assert (In x (members xxh columns g rows)) as H by (apply filter_In; split; auto; apply N.eqb_eq; auto).
        rewrite M in H. destruct H.
      - assert (In r (members xxh columns g rows)) as H by (rewrite M; left; auto).
        apply filter_In in H as [H E]. apply N.eqb_eq in E. exists r. repeat split; auto.
        rewrite <- M. apply has_values_iff. eauto. }
    destruct (mapM_Forall2
      (fun ge : N * list (str * value) =>
            match dget N.eqb (fst ge) (group_keys st) with
            | Some keys => result_row requested keys (snd ge)
            | None => Raise KeyError
            end)
      (fun ge out => exists r, In r rows /\ key r = fst ge /\ has_values requested (members xxh columns (fst ge) rows) /\
                               row_is columns requested r (members xxh columns (fst ge) rows) out) sorted)
      as (out & E & F).
    { intros [g e] Hg. apply Hin in Hg. cbn [fst snd].
      assert (dget_entry g (collector st) = e) as Ee.
      { unfold dget_entry. rewrite (In_dget N.eqb N_keqb g e); auto. apply I. }
      assert (In g (dkeys (collector st))) as Hk by (apply (in_map fst) in Hg; exact Hg).
      destruct (Hentry g Hk) as (r & Hr & Ek & D & Hv). rewrite D.
      destruct (result_row_spec requested columns r e
                  (fun fc x => aggregate_is (fst fc) (snd fc) (members xxh columns g rows) x)) as (o & Ro & O1 & O2 & O3).
      - apply Hsep.
      - exact Hnames.
      - intros [f c] Hf. rewrite <- Ee. apply cell_spec; auto. cbn [fst snd]. intros ->.
        eapply Havg; eauto. rewrite <- Ek. apply group_members; auto.
      - exists o. split; auto. exists r. split; auto. split; auto. split; auto. split; auto. }
    exists out. split; auto. split; [|split].
    - intros o Ho. destruct (Forall2_In_r _ _ _ _ F Ho) as ([g e] & Hg & r & Hr & Ek & Hv & Hrow). cbn [fst] in *.
      exists r, (members xxh columns g rows). subst g. split; auto. split; [apply group_members; auto|]. auto.
    - intros r group Hr Hg Hv. apply group_members in Hg; auto. subst group.
      assert (In (key r) (dkeys (collector st))) as Hk.
      { apply (inv_keys _ _ _ _ _ I). apply has_values_iff. auto. }
      apply in_map_iff in Hk as ([g e] & Eg & Hg). cbn [fst] in Eg.
      assert (In (g, e) sorted) as Hs by (apply isort_In; auto).
      destruct (Forall2_In_l _ _ _ _ F Hs) as (o & Ho & r' & Hr' & Ek & _ & H1 & H2 & H3). cbn [fst] in *. subst g.
      exists o. split; auto. split; [|auto]. intros c Hc. rewrite H1 by auto.
      f_equal. f_equal. apply faithful in Ek; auto.
    - intros i j a b Ha Hb Hc.
      destruct (Forall2_nth _ _ _ _ _ F Ha) as ([g e] & Hi & r & Hr & Ek & _ & H1 & _).
      destruct (Forall2_nth _ _ _ _ _ F Hb) as ([g' e'] & Hj & r' & Hr' & Ek' & _ & H1' & _). cbn [fst] in *.
      assert (agree_on columns r r') as Ag.
      { intros c Hin'. specialize (Hc c Hin'). rewrite H1, H1' in Hc by auto. congruence. }
      apply faithful in Ag; auto.
      apply (map_nth_error fst) in Hi, Hj. cbn [fst] in *.
      eapply NoDup_nth_error; [exact Hnd| |congruence]. apply nth_error_Some. congruence.
  Qed.
End Result.

(** ** the order of the records does not matter *)
Lemma picks_ex {A} (P : A -> Prop) l : (forall x, In x l -> P x \/ ~ P x) -> exists sub, picks P l sub.
Proof.
  induction l as [|x l IH]; intros H; [eexists; constructor|].
  destruct IH as [sub S]; [intros; apply H; right; auto|].
  destruct (H x (or_introl eq_refl)); eexists; [apply picks_in|apply picks_out]; eauto.
Qed.

Lemma picks_perm {A} (P : A -> Prop) l l' : Permutation l l' -> forall sub, picks P l sub ->
  exists sub', picks P l' sub' /\ Permutation sub sub'.
Proof.
  induction 1 as [|x l l' H IH|x y l|l l' l'' H1 IH1 H2 IH2]; intros sub S.
  - inversion S; subst. exists []. split; constructor.
  - inversion S; subst; destruct (IH _ ltac:(eassumption)) as (sub' & S' & E).
    + exists (x :: sub'). split; [apply picks_in|]; auto.
    + exists sub'. split; [apply picks_out|]; auto.
  - inversion S as [|? ? ? Px Sx|? ? ? Px Sx]; subst; inversion Sx; subst;
      eexists; (split; [first [apply picks_in; [eassumption|first [apply picks_in; eassumption|apply picks_out; eassumption]]
                              |apply picks_out; [eassumption|first [apply picks_in; eassumption|apply picks_out; eassumption]]]|]); auto.
    apply perm_swap.
  - destruct (IH1 _ S) as (s1 & S1 & E1). destruct (IH2 _ S1) as (s2 & S2 & E2).
    exists s2. split; auto. eapply perm_trans; eauto.
Qed.

Lemma non_null_perm c l l' : Permutation l l' -> Permutation (non_null c l) (non_null c l').
Proof.
  induction 1 as [|x l l' H IH|x y l|l l' l'' H1 IH1 H2 IH2]; simpl; auto.
  - destruct (rget c x); auto.
  - destruct (rget c x), (rget c y); auto; apply perm_swap.
  - eapply perm_trans; eauto.
Qed.
Lemma total_perm l l' : Permutation l l' -> total l = total l'.
Proof. induction 1; simpl; lia. Qed.
Lemma counted_perm c l l' : Permutation l l' -> counted c l = counted c l'.
Proof.
  intros H. unfold counted. destruct (str_eqb c $"*"); apply Permutation_length; auto. apply non_null_perm. auto.
Qed.
Lemma perm_nil_iff {A} (l l' : list A) : Permutation l l' -> (l = [] <-> l' = []).
Proof.
  intros H. split; intros ->; [apply Permutation_nil|apply Permutation_nil, Permutation_sym]; auto.
Qed.

Lemma aggregate_is_perm f c g g' x : Permutation g g' -> aggregate_is f c g x -> aggregate_is f c g' x.
Proof.
  intros H. pose proof (non_null_perm c _ _ H) as Hn. pose proof (perm_nil_iff _ _ Hn) as Hz.
  assert (forall v, In v (non_null c g') -> In v (non_null c g)) as Hi.
  { intros v. apply Permutation_in, Permutation_sym, Hn. }
  destruct f; simpl.
  - intros (v & -> & H1 & H2). exists v. split; auto. rewrite <- (total_perm _ _ Hn). tauto.
  - intros (v & -> & H1 & H2). exists v. split; auto. split; [tauto|]. intros N. destruct H2 as [Ha Hb]; [tauto|].
    split; [apply (Permutation_in _ Hn); auto|auto].
  - intros (v & -> & H1 & H2). exists v. split; auto. split; [tauto|]. intros N. destruct H2 as [Ha Hb]; [tauto|].
    split; [apply (Permutation_in _ Hn); auto|auto].
  - rewrite (counted_perm _ _ _ H). auto.
  - rewrite <- (total_perm _ _ Hn), (Permutation_length Hn). auto.
Qed.

Lemma row_is_perm columns requested r g g' out : Permutation g g' ->
  row_is columns requested r g out -> row_is columns requested r g' out.
Proof.
  intros H (A & B & C). split; auto. split; auto. intros f c Hf. destruct (B f c Hf) as (x & E & X).
  exists x. split; auto. eapply aggregate_is_perm; eauto.
Qed.
Lemma has_values_perm requested g g' : Permutation g g' -> has_values requested g -> has_values requested g'.
Proof. intros H (f & c & Hf & L). exists f, c. rewrite <- (counted_perm _ _ _ H). auto. Qed.

Lemma group_by_perm columns requested rows rows' out : Permutation rows rows' ->
  group_by_is columns requested rows out -> group_by_is columns requested rows' out.
Proof.
  intros H (A & B & C). split; [|split; auto].
  - intros o Ho. destruct (A o Ho) as (r & g & Hr & Hg & Hv & Hw).
    destruct (picks_perm _ _ _ H _ Hg) as (g' & Hg' & P). exists r, g'.
    split; [apply (Permutation_in _ H); auto|]. split; auto.
    split; [eapply has_values_perm|eapply row_is_perm]; eauto.
  - intros r g' Hr Hg' Hv. pose proof (Permutation_sym H) as H'.
    destruct (picks_perm _ _ _ H' _ Hg') as (g & Hg & P).
    destruct (B r g) as (o & Ho & Hw); auto.
    + apply (Permutation_in _ H'); auto.
    + eapply has_values_perm; eauto.
    + exists o. split; auto. eapply row_is_perm; [apply Permutation_sym; exact P|auto].
Qed.

(** ** keys of text columns *)
Lemma group_text_column_text columns r :
  (forall c, In c columns -> dget str_eqb c r <> None) -> group_text columns r = column_text columns r.
Proof.
  intros H. unfold group_text, column_text. f_equal. apply map_ext_in. intros c Hc.
  specialize (H c Hc). destruct (dget str_eqb c r); congruence.
Qed.

Lemma text_keys_faithful xxh columns rows :
  (forall c, In c columns -> one_kind c rows) ->
  (forall front last, columns = front ++ [last] -> forall c, In c front -> same_width c rows) ->
  (forall a b, In a rows -> In b rows -> xxh (group_text columns a) = xxh (group_text columns b) ->
               group_text columns a = group_text columns b) ->
  forall a b, In a rows -> In b rows -> (group_key xxh columns a = group_key xxh columns b <-> agree_on columns a b).
Proof.
  intros Ht Hw Hh a b Ha Hb.
  assert (forall r, In r rows -> group_text columns r = column_text columns r) as E.
  { intros r Hr. apply group_text_column_text. intros c Hc.
    destruct (one_kind_has _ _ _ (Ht c Hc) Hr) as [s ->]. discriminate. }
  unfold group_key. split.
  - intros Hk. apply Hh in Hk; auto. rewrite !E in Hk by auto. eapply column_text_agree; eauto.
  - intros Hg. f_equal. rewrite !E by auto. eapply agree_column_text; eauto.
Qed.

(** ** groups *)
Section Groups.
  Context (xxh : str -> N) (columns : list str).
  Notation key := (group_key xxh columns).
  Notation item r := (key r, map (fun c => (c, rget c r)) columns).

  Lemma reduce_columns_nil cols g r c : reduce_columns [] cols g r c = Ok c.
  Proof. induction cols as [|col cols IH]; simpl; auto. destruct (contribution col r); simpl; exact IH. Qed.

  Lemma reduce_all_nil cols cols' rows : forall st,
    reduce_all xxh columns [] cols st rows = reduce_all xxh columns [] cols' st rows.
  Proof.
    induction rows as [|r rows IH]; intros st; simpl; auto. unfold reduce_record. rewrite !reduce_columns_nil.
    destruct (if dhas _ _ _ then _ else _); simpl; auto.
  Qed.

  Lemma groups_order cols rows : forall before firsts st st',
    group_keys st = map (fun r => item r) firsts ->
    (forall g, In g (map (fun r => key r) firsts) <-> In g (map (fun r => key r) before)) ->
    reduce_all xxh columns [] cols st rows = Ok st' ->
    exists out, group_keys st' = map (fun r => item r) (firsts ++ out) /\
                first_occurrences (fun a b => key a = key b) before rows out.
  Proof.
    induction rows as [|r rows IH]; intros before firsts st st' Ek Hk R; simpl in R.
    - injection R as <-. exists []. rewrite app_nil_r. split; auto. constructor.
    - unfold reduce_record in R. rewrite reduce_columns_nil in R.
      assert (dhas N.eqb (key r) (group_keys st) = true <-> In (key r) (map (fun r => key r) before)) as D.
      { rewrite <- Hk. unfold dhas. rewrite Ek. destruct (dget N.eqb (key r) _) eqn:E.
        - split; auto. intros _. apply dget_Some_keys in E; auto using N_keqb.
          unfold dkeys in E. rewrite map_map in E. exact E.
        - split; [discriminate|]. intros Hin. apply dget_None in E; auto using N_keqb.
          unfold dkeys in E. rewrite map_map in E. contradiction. }
      destruct (dhas N.eqb (key r) (group_keys st)).
      + cbn [bind] in R. destruct (IH (before ++ [r]) firsts (mkState (group_keys st) (collector st)) st' Ek) with (2 := R) as (out & E & F).
        { intros g. rewrite Hk, !map_app, in_app_iff. simpl. split; auto. intros [H|[<-|[]]]; auto. apply D. auto. }
        exists out. split; auto. apply fo_drop; auto.
        apply proj1 in D. specialize (D eq_refl). apply in_map_iff in D as (y & E' & Hy). exists y. auto.
      + destruct (group_limit <=? _)%Z; [discriminate|]. cbn [bind] in R.
        destruct (IH (before ++ [r]) (firsts ++ [r]) (mkState (group_keys st ++ [item r]) (collector st)) st') with (3 := R) as (out & E & F).
        { simpl. rewrite Ek, map_app. reflexivity. }
        { intros g. rewrite !map_app, !in_app_iff, Hk. tauto. }
        exists (r :: out). rewrite <- app_assoc in E. split; auto. apply fo_keep; auto.
        intros y Hy Ey. apply proj2 in D. discriminate D. rewrite <- Ey. apply in_map. auto.
  Qed.

  Lemma groups_spec rows :
    (forall a b, In a rows -> In b rows -> (key a = key b <-> agree_on columns a b)) ->
    (Z.of_nat (length (dedup str_eqb (map (group_text columns) rows))) < group_limit)%Z ->
    exists firsts out, first_occurrences (agree_on columns) [] rows firsts /\
      groups xxh columns rows = Ok out /\
      Forall2 (fun r o => first_occurrences eq [] columns (map fst o) /\
                          forall c, In c columns -> dget str_eqb c o = Some (rget c r)) firsts out.
  Proof.
    intros Hf Hl. unfold groups. rewrite (reduce_all_nil _ (dedup str_eqb (map snd (@nil (func * str))))).
    destruct (reduce_all_spec xxh columns [] rows (NoDup_nil _) (fun _ _ _ H => match H with end) Hl rows []
                (mkState [] []) eq_refl (Inv_init xxh columns [])) as (st & R & _).
    rewrite R. cbn [bind].
    destruct (groups_order (dedup str_eqb (map snd (@nil (func * str)))) rows [] [] (mkState [] []) st eq_refl) with (2 := R) as (firsts & E & F); [simpl; tauto|].
    simpl in E. exists firsts, (map (select_one columns) firsts). split; [|split].
    - eapply fo_ext; [|exact F]. intros a b Ha Hb. apply Hf; auto.
    - rewrite E, map_map. reflexivity.
    - clear. induction firsts as [|r l IH]; simpl; constructor; auto.
      destruct (select_one_spec columns r) as [A B]. split; auto. rewrite A. apply dedup_first.
  Qed.
End Groups.
