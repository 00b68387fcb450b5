(** Proofs: collected sets and pages. *)
From Coq Require Import Arith.
From Verif.Base Require Import Py PyFacts Value ValueFacts.
From Verif.Model Require Import DictSet Collections.
From Verif.Spec Require Import Collections.

(** ** Equality of keys *)
Definition canon (v : value) : value := match v with VBool b => VInt (if b then 1 else 0) | _ => v end.

Lemma py_eq_canon v w : hashable v = true -> hashable w = true -> py_eq v w = true <-> canon v = canon w.
Proof.
  intros Hv Hw. destruct v as [|b|z|s|l|d], w as [|b'|z'|s'|l'|d']; try discriminate; cbn; try (split; discriminate).
  - tauto.
  - destruct b, b'; cbn; split; congruence.
  - rewrite Z.eqb_eq. split; congruence.
  - rewrite Z.eqb_eq. split; congruence.
  - rewrite Z.eqb_eq. split; congruence.
  - rewrite str_eqb_eq. split; congruence.
Qed.

Lemma py_eq_false v w : hashable v = true -> hashable w = true -> py_eq v w = false <-> canon v <> canon w.
Proof. intros Hv Hw. rewrite <- (py_eq_canon v w) by auto. now rewrite not_true_iff_false. Qed.

Lemma py_eq_congr u v w : hashable u = true -> hashable v = true -> hashable w = true ->
  py_eq u v = true -> py_eq w u = py_eq w v.
Proof.
  intros Hu Hv Hw E. apply py_eq_canon in E; auto. apply eq_true_iff_eq. rewrite !py_eq_canon by auto. now rewrite E.
Qed.
Lemma py_eq_sym u v : hashable u = true -> hashable v = true -> py_eq u v = py_eq v u.
Proof. intros Hu Hv. apply eq_true_iff_eq. rewrite !py_eq_canon by auto. split; congruence. Qed.
Lemma py_eq_refl u : hashable u = true -> py_eq u u = true.
Proof. intros Hu. now apply py_eq_canon. Qed.

(** ** Dictionaries whose keys are values *)
Lemma dget_split {V} k (c : list (value * V)) v : dget py_eq k c = Some v ->
  exists c1 k' c2, c = c1 ++ (k', v) :: c2 /\ py_eq k k' = true /\ forall w, dset py_eq k w c = c1 ++ (k', w) :: c2.
Proof.
  induction c as [|[k0 v0] c IH]; cbn [dget]; [discriminate|]. destruct (py_eq k k0) eqn:E.
  - intro H. injection H as ->. exists [], k0, c. repeat split; auto. intro w. cbn [dset]. now rewrite E.
  - intro H. destruct (IH H) as (c1 & k' & c2 & -> & E' & Hs). exists ((k0, v0) :: c1), k', c2. repeat split; auto.
    intro w. cbn [dset]. rewrite E. now rewrite Hs.
Qed.
Lemma dget_missing {V} k (c : list (value * V)) : dget py_eq k c = None ->
  (forall k' v, In (k', v) c -> py_eq k k' = false) /\ forall w, dset py_eq k w c = c ++ [(k, w)].
Proof.
  induction c as [|[k0 v0] c IH]; cbn [dget]; [intros _; split; [intros ? ? []|reflexivity]|].
  destruct (py_eq k k0) eqn:E; [discriminate|]. intro H. destruct (IH H) as [H1 H2]. split.
  - intros k' v [Heq|Hin]; [injection Heq as <- <-; auto|eauto].
  - intro w. cbn [dset]. rewrite E. now rewrite H2.
Qed.

Lemma ddel_without column (r : record) : NoDup (map fst r) -> ddel str_eqb column r = without column r.
Proof.
  induction r as [|[k v] r IH]; cbn [map]; intro H; [reflexivity|]. inversion H as [|? ? Hn Hd]; subst.
  unfold without. cbn [ddel filter fst]. destruct (str_eqb column k) eqn:E.
  - apply str_eqb_eq in E. subst. rewrite str_eqb_refl. cbn [negb]. symmetry. apply filter_all.
    intros [k' v'] Hin. cbn [fst]. apply negb_true_iff. destruct (str_eqb k' k) eqn:E; auto.
    apply str_eqb_eq in E. subst. destruct Hn. apply in_map_iff. exists (k, v'). auto.
  - replace (str_eqb k column) with false; [|symmetry; apply str_eqb_neq; intros ->; now rewrite str_eqb_refl in E].
    cbn [negb]. rewrite IH by auto. reflexivity.
Qed.

(** ** Pairs *)
Lemma pairs_app {A} (R : A -> A -> Prop) a b :
  ForallOrdPairs R (a ++ b) <-> ForallOrdPairs R a /\ ForallOrdPairs R b /\ (forall x y, In x a -> In y b -> R x y).
Proof.
  induction a as [|x a IH]; cbn [app].
  - split; [intro H; repeat split; auto; [constructor|intros ? ? []]|tauto].
  - split.
    + intro H. inversion H as [|? ? H1 H2]; subst. apply IH in H2 as (H2 & H3 & H4). apply Forall_app in H1 as [H1 H1'].
      repeat split; auto; [constructor; auto|]. intros u y [<-|Hu] Hy; auto. rewrite Forall_forall in H1'. auto.
    + intros (H & H3 & H4). inversion H as [|? ? H1 H2]; subst. constructor.
      * apply Forall_app. split; auto. apply Forall_forall. intros y Hy. apply H4; auto. now left.
      * apply IH. repeat split; auto. intros u y Hu Hy. apply H4; auto. now right.
Qed.

Lemma records_with_snoc column k done r :
  records_with column k (done ++ [r]) = records_with column k done ++ (if py_eq (rget column r) k then [without column r] else []).
Proof.
  unfold records_with. rewrite filter_app, map_app. cbn [filter]. now destruct (py_eq (rget column r) k).
Qed.

Definition sizes (c : collections) : nat := list_sum (map (fun kv => length (snd kv)) c).
Lemma sizes_app a b : sizes (a ++ b) = sizes a + sizes b.
Proof. unfold sizes. now rewrite map_app, list_sum_app. Qed.

Definition invariant (column : str) (done : list record) (c : collections) : Prop :=
  partitions column done c /\ sizes c = length done /\ (forall k g, In (k, g) c -> hashable k = true).

Lemma collect_one_step column done c r : NoDup (map fst r) -> hashable (rget column r) = true ->
  (forall x, In x done -> hashable (rget column x) = true) ->
  invariant column done c -> exists c', collect_one column c r = Ok c' /\ invariant column (done ++ [r]) c'.
Proof.
  intros Hnd Hh Hdone ([Hg He Ho] & Hs & Hk). unfold collect_one. rewrite Hh, ddel_without by auto.
  set (key := rget column r) in *. destruct (dget py_eq key c) as [g|] eqn:Eg.
  - destruct (dget_split _ _ _ Eg) as (c1 & k' & c2 & -> & Ek & Hset). rewrite Hset. eexists. split; [reflexivity|].
    assert (Hk' : hashable k' = true) by (apply (Hk k' g); apply in_or_app; right; now left).
    apply pairs_app in Ho as (Ho1 & Ho2 & Ho12). inversion Ho2 as [|? ? Ho3 Ho4]; subst.
    assert (Hother : forall k g', In (k, g') (c1 ++ c2) -> hashable k = true /\ py_eq key k = false /\ In (k, g') (c1 ++ (k', g) :: c2)).
    { intros k g' Hin. assert (Hin' : In (k, g') (c1 ++ (k', g) :: c2)).
      { apply in_app_or in Hin as [?|?]; apply in_or_app; [left|right; right]; auto. }
      assert (hashable k = true) by eauto. split; [auto|]. split; auto.
      rewrite (py_eq_sym key k), (py_eq_congr key k' k), (py_eq_sym k k') by auto.
      apply in_app_or in Hin as [Hin|Hin].
      - rewrite py_eq_sym by auto. apply (Ho12 (k, g') (k', g)); auto. now left.
      - rewrite Forall_forall in Ho3. apply (Ho3 (k, g')). auto. }
    split; [split|split].
    + intros k g' Hin.
      assert (C : (k, g') = (k', g ++ [without column r]) \/ In (k, g') (c1 ++ c2)).
      { apply in_app_or in Hin as [?|[?|?]]; [right; apply in_or_app; auto|left; auto|right; apply in_or_app; auto]. }
      destruct C as [C|C].
      * injection C as -> ->. rewrite records_with_snoc. fold key. rewrite Ek.
        destruct (Hg k' g) as [E _]; [apply in_or_app; right; now left|]. rewrite <- E. split; auto. now destruct g.
      * destruct (Hother _ _ C) as (_ & Hf & Hin'). rewrite records_with_snoc. fold key. rewrite Hf, app_nil_r. auto.
    + intros x Hx. apply in_app_or in Hx as [Hx|[<-|[]]].
      * destruct (He x Hx) as (k & g' & Hin & E). apply in_app_or in Hin as [Hin|[Hin|Hin]].
        -- exists k, g'. split; auto. apply in_or_app. now left.
        -- injection Hin as <- <-. exists k', (g ++ [without column r]). split; auto. apply in_or_app. right. now left.
        -- exists k, g'. split; auto. apply in_or_app. right. now right.
      * exists k', (g ++ [without column r]). split; auto. apply in_or_app. right. now left.
    + apply pairs_app. split; auto. split.
      * constructor; auto.
      * intros x y Hx [<-|Hy]; cbn [fst]; [apply (Ho12 x (k', g)); auto; now left|apply Ho12; auto; now right].
    + rewrite sizes_app in *. unfold sizes in *. cbn [map list_sum fst snd fold_right] in *. rewrite !app_length. cbn [length].
      change (fold_right plus 0) with list_sum in *. lia.
    + intros k g' Hin. apply in_app_or in Hin as [Hin|[Hin|Hin]]; [|injection Hin as <- <-; auto|].
      * apply (Hk k g'). apply in_or_app. now left.
      * apply (Hk k g'). apply in_or_app. right. now right.
  - destruct (dget_missing _ _ Eg) as [Hno Hset]. rewrite Hset. eexists. split; [reflexivity|].
    assert (Hnone : records_with column key done = []).
    { unfold records_with. replace (filter _ done) with (@nil record); auto. symmetry.
      assert (Hf : forall x, In x done -> py_eq (rget column x) key = false).
      { intros x Hx. destruct (He x Hx) as (k & g & Hin & E). specialize (Hno _ _ Hin). pose proof (Hdone x Hx) as Hx'.
        pose proof (Hk _ _ Hin) as Hkk.
        rewrite (py_eq_sym (rget column x) key), (py_eq_congr (rget column x) k key) by auto. exact Hno. }
      clear - Hf. induction done as [|x l IH]; auto. cbn [filter]. rewrite Hf by now left. apply IH. intros y Hy. apply Hf. now right. }
    split; [split|split].
    + intros k g Hin. apply in_app_or in Hin as [Hin|[Hin|[]]].
      * rewrite records_with_snoc. fold key. rewrite (Hno _ _ Hin), app_nil_r. auto.
      * injection Hin as <- <-. rewrite records_with_snoc. fold key. rewrite py_eq_refl, Hnone by auto. split; [reflexivity|discriminate].
    + intros x Hx. apply in_app_or in Hx as [Hx|[<-|[]]].
      * destruct (He x Hx) as (k & g & Hin & E). exists k, g. split; auto. apply in_or_app. now left.
      * exists key, [without column r]. split; [apply in_or_app; right; now left|]. now apply py_eq_refl.
    + apply pairs_app. split; auto. split; [repeat constructor|]. intros [k g] y Hx [<-|[]]. cbn [fst].
      rewrite py_eq_sym by eauto. eauto.
    + rewrite sizes_app. unfold sizes at 2. cbn [map list_sum fst snd fold_right length]. rewrite app_length. cbn [length]. lia.
    + intros k g Hin. apply in_app_or in Hin as [Hin|[Hin|[]]]; [eauto|]. now injection Hin as <- <-.
Qed.

Lemma collect_steps column rows : forall done c, Forall (fun r => NoDup (map fst r)) rows ->
  (forall x, In x (done ++ rows) -> hashable (rget column x) = true) -> invariant column done c ->
  exists c', fold_left (fun acc item => let* c := acc in collect_one column c item) rows (Ok c) = Ok c' /\
             invariant column (done ++ rows) c'.
Proof.
  induction rows as [|r rows IH]; intros done c Hnd Hh Hi; cbn [fold_left].
  - exists c. rewrite app_nil_r. auto.
  - inversion Hnd; subst.
    destruct (collect_one_step column done c r) as (c' & E & Hi'); auto.
    { apply Hh. apply in_or_app. right. now left. }
    { intros x Hx. apply Hh. apply in_or_app. now left. }
    cbn [bind]. rewrite E. destruct (IH (done ++ [r]) c') as (c'' & E' & Hi''); auto.
    { intros x Hx. rewrite <- app_assoc in Hx. auto. }
    exists c''. rewrite <- app_assoc in Hi''. auto.
Qed.

Lemma can_be_key_hashable v : can_be_key v <-> hashable v = true.
Proof. destruct v; cbn; split; try tauto; discriminate. Qed.

Lemma collect_set_invariant column rows : Forall (fun r => NoDup (map fst r)) rows ->
  Forall (fun r => can_be_key (rget column r)) rows ->
  exists c, collect_set column rows = Ok c /\ invariant column rows c.
Proof.
  intros H1 H2. destruct (collect_steps column rows [] [] H1) as (c & E & Hi).
  - intros x Hx. cbn in Hx. rewrite Forall_forall in H2. apply can_be_key_hashable. auto.
  - split; [split|split]; cbn; try easy. constructor.
  - exists c. auto.
Qed.

Lemma collect_set_partitions column rows : Forall (fun r => NoDup (map fst r)) rows ->
  Forall (fun r => can_be_key (rget column r)) rows ->
  exists c, collect_set column rows = Ok c /\ partitions column rows c /\ list_sum (map snd (counts c)) = length rows.
Proof.
  intros H1 H2. destruct (collect_set_invariant column rows H1 H2) as (c & E & Hp & Hs & _).
  exists c. split; auto. split; auto. rewrite <- Hs. unfold counts, sizes. now rewrite map_map.
Qed.

Lemma collect_raise column rows e : fold_left (fun acc item => let* c := acc in collect_one column c item) rows (Raise e) = Raise e.
Proof. induction rows; auto. Qed.

Lemma collect_set_unhashable column rows : Forall (fun r => NoDup (map fst r)) rows ->
  (exists r, In r rows /\ ~ can_be_key (rget column r)) -> collect_set column rows = Raise TypeError.
Proof.
  intros Hnd (r & Hin & Hr). unfold collect_set.
  assert (H : forall c, fold_left (fun acc item => let* c := acc in collect_one column c item) rows (Ok c) = Raise TypeError); auto.
  clear Hnd. revert Hin. induction rows as [|x rows IH]; intros Hin c; [destruct Hin|]. cbn [fold_left bind].
  unfold collect_one at 2. destruct (hashable (rget column x)) eqn:E; [|apply collect_raise].
  destruct Hin as [->|Hin]; [apply can_be_key_hashable in E; easy|]. now apply IH.
Qed.

(** ** Looking up a collection *)
Lemma partition_lookup column rows c v : invariant column rows c -> can_be_key v ->
  (forall r, In r rows -> hashable (rget column r) = true) ->
  sub_collection c v = Ok (records_with column v rows).
Proof.
  intros ([Hg He Ho] & Hs & Hk) Hv Hh. apply can_be_key_hashable in Hv. unfold sub_collection. rewrite Hv.
  destruct (dget py_eq v c) as [g|] eqn:E.
  - destruct (dget_split _ _ _ E) as (c1 & k & c2 & -> & Ek & _).
    assert (Hin : In (k, g) (c1 ++ (k, g) :: c2)) by (apply in_or_app; right; now left).
    destruct (Hg _ _ Hin) as [-> _]. f_equal. unfold records_with. f_equal.
    assert (Hkk : hashable k = true) by eauto.
    apply filter_ext_in. intros r Hr. symmetry. apply py_eq_congr; auto.
  - destruct (dget_missing _ _ E) as [Hno _]. f_equal. unfold records_with.
    replace (filter _ rows) with (@nil record); auto. symmetry.
    assert (Hf : forall x, In x rows -> py_eq (rget column x) v = false).
    { intros x Hx. destruct (He x Hx) as (k & g & Hin & Ex). specialize (Hno _ _ Hin).
      pose proof (Hk _ _ Hin) as Hkk. pose proof (Hh x Hx).
      rewrite (py_eq_sym (rget column x) v), (py_eq_congr (rget column x) k v) by auto. exact Hno. }
    clear - Hf. induction rows as [|x l IH]; auto. cbn [filter]. rewrite Hf by now left. apply IH. intros y Hy. apply Hf. now right.
Qed.

Lemma lookup_in_collected column rows v : Forall (fun r => NoDup (map fst r)) rows ->
  Forall (fun r => can_be_key (rget column r)) rows -> can_be_key v ->
  exists c, collect_set column rows = Ok c /\ sub_collection c v = Ok (records_with column v rows).
Proof.
  intros H1 H2 Hv. destruct (collect_set_invariant column rows H1 H2) as (c & E & Hi). exists c. split; auto.
  apply partition_lookup; auto. intros r Hr. rewrite Forall_forall in H2. apply can_be_key_hashable. auto.
Qed.

Lemma count_in_collected column rows v : Forall (fun r => NoDup (map fst r)) rows ->
  Forall (fun r => can_be_key (rget column r)) rows -> can_be_key v ->
  exists c, collect_set column rows = Ok c /\ count_of c v = length (filter (fun r => py_eq (rget column r) v) rows).
Proof.
  intros H1 H2 Hv. destruct (collect_set_invariant column rows H1 H2) as (c & E & Hi). exists c. split; auto.
  assert (Hh : forall r, In r rows -> hashable (rget column r) = true).
  { intros r Hr. rewrite Forall_forall in H2. apply can_be_key_hashable. auto. }
  pose proof (partition_lookup column rows c v Hi Hv Hh) as L.
  assert (Ec : length (filter (fun r => py_eq (rget column r) v) rows) = length (records_with column v rows))
    by (unfold records_with; now rewrite map_length).
  rewrite Ec. apply can_be_key_hashable in Hv. unfold sub_collection in L. rewrite Hv in L. injection L as L.
  unfold count_of. destruct Hi as ([_ _ Ho] & _ & Hk). rewrite <- L. clear - Ho Hk Hv.
  induction c as [|[k g] c IH]; [reflexivity|]. inversion Ho as [|? ? Hf Ho']; subst. cbn [filter fst dget].
  assert (Hkk : hashable k = true) by (apply (Hk k g); now left).
  rewrite (py_eq_sym v k) by auto. destruct (py_eq k v) eqn:Ek.
  - cbn [map snd]. replace (filter _ c) with (@nil (value * list record)); [reflexivity|]. symmetry.
    rewrite Forall_forall in Hf.
    assert (Hall : forall y, In y c -> py_eq (fst y) v = false).
    { intros [k' g'] Hy. specialize (Hf _ Hy). cbn [fst] in *. assert (hashable k' = true) by (apply (Hk k' g'); now right).
      rewrite <- (py_eq_congr k v k') by auto. rewrite py_eq_sym by auto. exact Hf. }
    clear - Hall. induction c as [|x l IH]; auto. cbn [filter]. rewrite Hall by now left. apply IH. intros y Hy. apply Hall. now right.
  - apply IH; auto. intros k' g' Hin. apply (Hk k' g'). now right.
Qed.

(** ** Pages *)
Section P.
  Context (dumps : record -> str) (size : nat) (Hsize : 0 < size).

  Lemma set_nth_pad filled x k : set_nth (filled ++ repeat [] (S k)) (length filled) x = (filled ++ [x]) ++ repeat [] k.
  Proof. induction filled as [|y f IH]; [reflexivity|]. cbn [app length set_nth]. now rewrite IH. Qed.

  Lemma mod_succ i : (S i) mod size = 0 \/ (S i) mod size = S (i mod size).
  Proof.
    pose proof (Nat.mod_upper_bound i size ltac:(lia)) as Hb.
    destruct (Nat.eq_dec (S (i mod size)) size) as [E|E].
    - left. rewrite (Nat.div_mod i size) at 1 by lia.
      replace (S (size * (i / size) + i mod size)) with ((i / size + 1) * size) by nia.
      apply Nat.mod_mul. lia.
    - right. rewrite (Nat.div_mod i size) at 1 by lia.
      replace (S (size * (i / size) + i mod size)) with (S (i mod size) + (i / size) * size) by nia.
      rewrite Nat.mod_add by lia. apply Nat.mod_small. lia.
  Qed.
  Lemma mod_succ_zero i : (S i) mod size = 0 -> S (i mod size) = size.
  Proof.
    intro H. pose proof (Nat.mod_upper_bound i size ltac:(lia)) as Hb.
    destruct (Nat.eq_dec (S (i mod size)) size) as [E|E]; auto.
    assert (E2 : S i = S (i mod size) + (i / size) * size) by (rewrite (Nat.div_mod i size) at 1 by lia; nia).
    rewrite E2, Nat.mod_add, Nat.mod_small in H by lia. discriminate.
  Qed.

  Lemma pages_from rows : forall i filled, length filled = S (i mod size) ->
    exists pages tail, page_from dumps size (S i) (filled ++ repeat [] (size - length filled)) rows = (pages ++ [tail], None) /\
      concat (pages ++ [tail]) = removelast (filled ++ map dumps rows) /\
      Forall (fun p => length p = size) pages /\ length tail < size.
  Proof.
    induction rows as [|r rows IH]; intros i filled Hf; cbn [page_from map].
    - pose proof (Nat.mod_upper_bound i size ltac:(lia)) as Hb.
      destruct filled as [|x f] eqn:Ef; [discriminate|]. rewrite <- Ef in *.
      assert (Hne : filled ++ repeat [] (size - length filled) <> []) by (rewrite Ef; discriminate).
      exists [], (firstn (i mod size) (filled ++ repeat [] (size - length filled))).
      assert (E : firstn (i mod size) (filled ++ repeat [] (size - length filled)) = removelast filled).
      { rewrite firstn_app. replace (i mod size - length filled) with 0 by lia. cbn [firstn]. rewrite app_nil_r.
        rewrite removelast_firstn_len. f_equal. lia. }
      split; [|split; [|split]].
      + destruct (filled ++ repeat [] (size - length filled)); [easy|reflexivity].
      + cbn [app concat]. rewrite !app_nil_r. exact E.
      + constructor.
      + rewrite firstn_length. lia.
    - destruct (Nat.eqb_spec size 0) as [Ez|_]; [lia|]. change (0 <? S i) with true. cbn [andb].
      pose proof (Nat.mod_upper_bound i size ltac:(lia)) as Hb.
      destruct (Nat.eqb_spec (S i mod size) 0) as [E0|E0].
      + pose proof (mod_succ_zero i E0) as Es.
        replace (size - length filled) with 0 by lia. cbn [repeat]. rewrite app_nil_r.
        assert (Ep : set_nth (repeat [] size) 0 (dumps r) = [dumps r] ++ repeat [] (size - length [dumps r])).
        { destruct size as [|k]; [lia|]. cbn [repeat set_nth length app]. now rewrite Nat.sub_succ, Nat.sub_0_r. }
        rewrite Ep. destruct (IH (S i) [dumps r]) as (pages & tail & E & Ec & Hp & Ht); [cbn [length]; now rewrite E0|].
        rewrite E. exists (filled :: pages), tail. split; [reflexivity|]. split; [|split; auto].
        * cbn [app concat]. rewrite Ec. cbn [app]. rewrite removelast_app by discriminate. reflexivity.
        * constructor; auto. lia.
      + destruct (mod_succ i) as [C|C]; [easy|].
        pose proof (Nat.mod_upper_bound (S i) size ltac:(lia)) as Hb'.
        rewrite C, <- Hf. replace (size - length filled) with (S (size - length (filled ++ [dumps r]))) by (rewrite app_length; cbn [length]; lia).
        rewrite set_nth_pad.
        destruct (IH (S i) (filled ++ [dumps r])) as (pages & tail & E & Ec & Hp & Ht).
        { rewrite app_length. cbn [length]. lia. }
        rewrite E. exists pages, tail. repeat split; auto. rewrite Ec. now rewrite <- app_assoc.
  Qed.

  Lemma pages_spec pre x : exists pages tail, page_dictset dumps size (pre ++ [x]) = (pages ++ [tail], None) /\
    concat (pages ++ [tail]) = map dumps pre /\ Forall (fun p => length p = size) pages /\ length tail < size.
  Proof.
    unfold page_dictset. destruct (pre ++ [x]) as [|r rows] eqn:Er; [now destruct pre|].
    cbn [page_from]. destruct (Nat.eqb_spec size 0) as [Ez|_]; [lia|]. cbn [Nat.ltb andb Nat.leb].
    rewrite Nat.mod_small by lia.
    assert (Ep : set_nth (repeat [] size) 0 (dumps r) = [dumps r] ++ repeat [] (size - length [dumps r])).
    { destruct size as [|k]; [lia|]. cbn [repeat set_nth length app]. now rewrite Nat.sub_succ, Nat.sub_0_r. }
    rewrite Ep. destruct (pages_from rows 0 [dumps r]) as (pages & tail & E & Ec & Hp & Ht).
    { cbn [length]. now rewrite Nat.mod_small by lia. }
    exists pages, tail. repeat split; auto. rewrite Ec.
    change ([dumps r] ++ map dumps rows) with (map dumps (r :: rows)). rewrite <- Er, map_app. cbn [map].
    apply removelast_last.
  Qed.
End P.

Lemma pages_empty dumps size : 0 < size -> page_dictset dumps size [] = ([], Some NameError).
Proof. intro H. destruct size; [lia|reflexivity]. Qed.
Lemma pages_zero dumps r rows : page_dictset dumps 0 (r :: rows) = ([], Some ZeroDivisionError).
Proof. reflexivity. Qed.

Lemma pages_lossy dumps size rows : 0 < size ->
  concat (fst (page_dictset dumps size rows)) <> map dumps rows \/ snd (page_dictset dumps size rows) <> None.
Proof.
  intro H. destruct rows as [|r rows] using rev_ind.
  - right. rewrite pages_empty by auto. discriminate.
  - left. destruct (pages_spec dumps size H rows r) as (pages & tail & -> & E & _). cbn [fst]. rewrite E, map_app.
    intro C. apply (f_equal (@length str)) in C. rewrite app_length in C. cbn in C. lia.
Qed.
