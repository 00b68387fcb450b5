(** Proofs: collected sets without repeated records. *)
From Verif.Base Require Import Py PyFacts Value ValueFacts.
From Verif.Model Require Import DictSet Collections.
From Verif.Spec Require Import DictSet Collections.
From Verif.Proofs Require Import Collections.
From Verif.Proofs Require DictSet.

Definition scalar (r : record) : Prop := forall c v, In (c, v) r -> hashable v = true.

Lemma scalar_b r : forallb (fun kv => hashable (snd kv)) r = true <-> scalar r.
Proof.
  rewrite forallb_forall. split.
  - intros H c v Hin. exact (H (c, v) Hin).
  - intros H [c v] Hin. exact (H c v Hin).
Qed.

Lemma items_within_iff a b : items_within a b = true <->
  forall c v, In (c, v) a -> exists w, In (c, w) b /\ py_eq v w = true.
Proof.
  unfold items_within. rewrite forallb_forall. split.
  - intros H c v Hin. specialize (H (c, v) Hin). apply existsb_exists in H. destruct H as ((c' & w) & Hw & E).
    cbn [fst snd] in E. apply andb_true_iff in E. destruct E as [E1 E2]. apply str_eqb_eq in E1. subst c'. eauto.
  - intros H [c v] Hin. destruct (H c v Hin) as (w & Hw & E). apply existsb_exists. exists (c, w). split; auto.
    cbn [fst snd]. now rewrite str_eqb_refl, E.
Qed.
Lemma same_items_iff a b : same_items a b = true <-> same_record a b.
Proof. unfold same_items, same_record. now rewrite andb_true_iff, !items_within_iff. Qed.

Lemma same_sym a b : same_record a b -> same_record b a.
Proof. intros [H1 H2]. split; auto. Qed.
Lemma same_refl a : scalar a -> same_record a a.
Proof. intro S. split; intros c v H; exists v; split; auto; apply py_eq_refl; eauto. Qed.
Lemma within_trans a b d : scalar a -> scalar b -> scalar d ->
  (forall c v, In (c, v) a -> exists w, In (c, w) b /\ py_eq v w = true) ->
  (forall c v, In (c, v) b -> exists w, In (c, w) d /\ py_eq v w = true) ->
  forall c v, In (c, v) a -> exists w, In (c, w) d /\ py_eq v w = true.
Proof.
  intros Sa Sb Sd H1 H2 c v Hv. destruct (H1 c v Hv) as (w & Hw & E). destruct (H2 c w Hw) as (x & Hx & E').
  exists x. split; auto. apply py_eq_canon; eauto. apply py_eq_canon in E; eauto. apply py_eq_canon in E'; eauto. congruence.
Qed.
Lemma same_trans a b d : scalar a -> scalar b -> scalar d -> same_record a b -> same_record b d -> same_record a d.
Proof.
  intros Sa Sb Sd [A1 A2] [B1 B2]. split.
  - exact (within_trans a b d Sa Sb Sd A1 B1).
  - exact (within_trans d b a Sd Sb Sa B2 A2).
Qed.

(** ** The dictionary of the records *)
Record keeps (v : list record) (d : list (record * record)) : Prop := {
  k_in : forall k x, In (k, x) d -> In k v /\ In x v /\ same_record k x;
  k_all : forall x, In x v -> exists k y, In (k, y) d /\ same_record x y;
  k_pairs : ForallOrdPairs (fun a b => ~ same_record (fst a) (fst b)) d
}.

Lemma pairs_map_change (R : record * record -> record * record -> Prop) d1 k x x' d2 :
  (forall a, R a (k, x) <-> R a (k, x')) -> (forall a, R (k, x) a <-> R (k, x') a) ->
  ForallOrdPairs R (d1 ++ (k, x) :: d2) -> ForallOrdPairs R (d1 ++ (k, x') :: d2).
Proof.
  intros H1 H2. induction d1 as [|a d1 IH]; cbn [app]; intro F; inversion F as [|? ? Fa Fd]; subst.
  - constructor; auto. rewrite Forall_forall in *. intros b Hb. apply H2. auto.
  - constructor; auto. rewrite Forall_forall in *. intros b Hb. apply in_app_or in Hb. destruct Hb as [Hb|[<-|Hb]].
    + apply Fa. apply in_or_app. auto.
    + apply H1. apply Fa. apply in_or_app. right. left. reflexivity.
    + apply Fa. apply in_or_app. right. right. auto.
Qed.

Lemma dset_cases (i : record) (d : list (record * record)) :
  (exists d1 k x d2, d = d1 ++ (k, x) :: d2 /\ same_record i k /\ dset same_items i i d = d1 ++ (k, i) :: d2) \/
  ((forall k x, In (k, x) d -> ~ same_record i k) /\ dset same_items i i d = d ++ [(i, i)]).
Proof.
  induction d as [|[k x] d IH]; cbn [dset]; [right; split; [intros ? ? []|reflexivity]|].
  destruct (same_items i k) eqn:E.
  - left. exists [], k, x, d. apply same_items_iff in E. auto.
  - destruct IH as [(d1 & k' & x' & d2 & -> & S & ->)|[N ->]].
    + left. exists ((k, x) :: d1), k', x', d2. auto.
    + right. split; auto. intros k' x' [H|H]; [|eauto]. injection H as <- <-. intro S. apply same_items_iff in S. congruence.
Qed.

Lemma keeps_step v d i : (forall x, In x (v ++ [i]) -> scalar x) -> keeps v d -> keeps (v ++ [i]) (dset same_items i i d).
Proof.
  intros S [KI KA KP]. assert (Si : scalar i) by (apply S, in_or_app; right; left; reflexivity).
  assert (Sv : forall x, In x v -> scalar x) by (intros x Hx; apply S, in_or_app; auto).
  destruct (dset_cases i d) as [(d1 & k & x & d2 & -> & Sk & ->)|[N ->]].
  - assert (Ik : In k v /\ In x v /\ same_record k x) by (apply KI, in_or_app; right; left; reflexivity).
    destruct Ik as (Ik & Ix & Skx). split.
    + intros k' x' H. apply in_app_or in H. destruct H as [H|[H|H]].
      * destruct (KI k' x') as (A & B & C); [apply in_or_app; auto|]. repeat split; try (apply in_or_app; auto); apply C.
      * injection H as <- <-. repeat split; try (apply in_or_app; cbn; auto); apply (same_sym _ _ Sk).
      * destruct (KI k' x') as (A & B & C); [apply in_or_app; cbn; auto|]. repeat split; try (apply in_or_app; auto); apply C.
    + intros y Hy. apply in_app_or in Hy. destruct Hy as [Hy|[<-|[]]].
      * destruct (KA y Hy) as (k' & y' & H & Sy). apply in_app_or in H. destruct H as [H|[H|H]].
        { exists k', y'. split; auto. apply in_or_app; auto. }
        { injection H as <- <-. exists k, i. split; [apply in_or_app; cbn; auto|].
          apply (same_trans y x i); auto. apply (same_trans x k i); auto using same_sym. }
        { exists k', y'. split; auto. apply in_or_app; cbn; auto. }
      * exists k, i. split; [apply in_or_app; cbn; auto|]. now apply same_refl.
    + eapply pairs_map_change; [..|exact KP]; intros a; cbn [fst]; tauto.
  - split.
    + intros k' x' H. apply in_app_or in H. destruct H as [H|[H|[]]].
      * destruct (KI k' x' H) as (A & B & C). repeat split; try (apply in_or_app; auto); apply C.
      * injection H as <- <-. repeat split; try (apply in_or_app; cbn; auto); apply (same_refl _ Si).
    + intros y Hy. apply in_app_or in Hy. destruct Hy as [Hy|[<-|[]]].
      * destruct (KA y Hy) as (k' & y' & H & Sy). exists k', y'. split; auto. apply in_or_app; auto.
      * exists i, i. split; [apply in_or_app; cbn; auto|]. now apply same_refl.
    + apply pairs_app. split; [exact KP|]. split; [repeat constructor|].
      intros [k x] b Ha [<-|[]]. cbn [fst]. intro C. apply (N k x Ha). now apply same_sym.
Qed.

Lemma keeps_fold w : forall v d, (forall x, In x (v ++ w) -> scalar x) -> keeps v d ->
  keeps (v ++ w) (fold_left (fun d i => dset same_items i i d) w d).
Proof.
  induction w as [|i w IH]; intros v d S K; cbn [fold_left]; [now rewrite app_nil_r|].
  replace (v ++ i :: w) with ((v ++ [i]) ++ w) in * by now rewrite <- app_assoc.
  apply IH; auto. apply keeps_step; auto. intros x Hx. apply S. apply in_or_app. auto.
Qed.

Lemma one_of_each_spec v g : one_of_each v = Ok g ->
  (forall r, In r g -> In r v) /\ (forall r, In r v -> exists r', In r' g /\ same_record r r') /\
  ForallOrdPairs (fun a b => ~ same_record a b) g.
Proof.
  unfold one_of_each. destruct (forallb _ v) eqn:E; [|discriminate]. intro H. injection H as <-.
  assert (S : forall x, In x v -> scalar x) by (rewrite forallb_forall in E; intros x Hx; apply scalar_b; auto).
  assert (K : keeps v (fold_left (fun d i => dset same_items i i d) v [])).
  { apply (keeps_fold v [] []); auto. split; cbn; try easy. constructor. }
  set (d := fold_left _ v []) in *. clearbody d. destruct K as [KI KA KP]. split; [|split].
  - intros r Hr. apply in_map_iff in Hr. destruct Hr as ([k x] & <- & Hin). apply (KI k x Hin).
  - intros r Hr. destruct (KA r Hr) as (k & y & H & Sy). exists y. split; auto. apply in_map_iff. now exists (k, y).
  - assert (Sd : forall k x, In (k, x) d -> scalar k /\ scalar x /\ same_record k x)
      by (intros k x H; destruct (KI k x H) as (A & B & C); auto).
    clear KI KA E S. induction d as [|[k x] d IH]; cbn [map]; [constructor|]. inversion KP as [|? ? Fa Fd]; subst.
    constructor; [|apply IH; auto; intros; apply Sd; right; auto].
    rewrite Forall_forall in *. intros y Hy. apply in_map_iff in Hy. destruct Hy as ([k' x'] & <- & Hin). cbn [snd].
    destruct (Sd k x (or_introl eq_refl)) as (A1 & A2 & A3). destruct (Sd k' x' (or_intror Hin)) as (B1 & B2 & B3).
    specialize (Fa (k', x') Hin). cbn [fst] in Fa. intro C. apply Fa.
    apply (same_trans k x k'); auto. apply (same_trans x x' k'); auto using same_sym.
Qed.

Lemma one_of_each_different v : (forall x, In x v -> scalar x) ->
  ForallOrdPairs (fun a b => ~ same_record a b) v -> one_of_each v = Ok v.
Proof.
  intros S P. unfold one_of_each.
  replace (forallb _ v) with true by (symmetry; apply forallb_forall; intros x Hx; apply scalar_b; auto).
  f_equal.
  assert (H : forall w d, (forall k x, In (k, x) d -> k = x) -> ForallOrdPairs (fun a b => ~ same_record a b) (map snd d ++ w) ->
                map snd (fold_left (fun d i => dset same_items i i d) w d) = map snd d ++ w).
  { clear. induction w as [|i w IH]; intros d D P; cbn [fold_left]; [now rewrite app_nil_r|].
    destruct (dset_cases i d) as [(d1 & k & x & d2 & E & Sk & _)|[N ->]].
    - exfalso. apply pairs_app in P. destruct P as (_ & _ & C).
      assert (In (k, x) d) by (rewrite E; apply in_or_app; cbn; auto).
      apply (C k i); [apply in_map_iff; exists (k, x); split; auto; symmetry; apply (D k x); auto|left; reflexivity|].
      now apply same_sym.
    - rewrite IH.
      + rewrite map_app, <- app_assoc. reflexivity.
      + intros k x Hin. apply in_app_or in Hin. destruct Hin as [Hin|[Hin|[]]]; [auto|congruence].
      + rewrite map_app, <- app_assoc. exact P. }
  apply (H v []); [intros ? ? []|exact P].
Qed.

Lemma dedupe_same c : (forall k v, In (k, v) c -> one_of_each v = Ok v) -> dedupe_collections c = Ok c.
Proof.
  induction c as [|[k v] c IH]; intro H; [reflexivity|]. cbn [dedupe_collections].
  rewrite (H k v (or_introl eq_refl)). cbn [bind]. rewrite IH; [reflexivity|]. intros; apply (H k0); right; auto.
Qed.

Lemma dedupe_in c : forall c', dedupe_collections c = Ok c' ->
  map fst c' = map fst c /\ forall k g, In (k, g) c' -> exists v, In (k, v) c /\ one_of_each v = Ok g.
Proof.
  induction c as [|[k v] c IH]; intros c'; cbn [dedupe_collections].
  - intro H. injection H as <-. split; [reflexivity|intros ? ? []].
  - destruct (one_of_each v) as [v'|] eqn:E; cbn [bind]; [|discriminate].
    destruct (dedupe_collections c) as [rest|] eqn:E'; cbn [bind]; [|discriminate]. intro H. injection H as <-.
    destruct (IH rest eq_refl) as [M I]. split; [cbn; now f_equal|].
    intros k0 g [H|H]; [injection H as <- <-; exists v; split; [left|]; auto|].
    destruct (I k0 g H) as (v0 & A & B). exists v0. split; [right|]; auto.
Qed.

(** ** Every collection has no two equal records *)
Lemma distinct_incl hash columns rows r : In r (distinct hash columns rows) -> In r rows.
Proof.
  unfold distinct. generalize (@nil Z). induction rows as [|x rows IH]; intros seen; cbn [dedupe]; [auto|].
  destruct (mem Z.eqb _ seen); intro H; [right; eauto|]. destruct H as [H|H]; [left; auto|right; eauto].
Qed.

Lemma collect_ok_keys column rows c : Forall (fun r => NoDup (map fst r)) rows -> collect_set column rows = Ok c ->
  Forall (fun r => can_be_key (rget column r)) rows.
Proof.
  intros ND E. apply Forall_forall. intros r Hr. destruct (hashable (rget column r)) eqn:Hh; [now apply can_be_key_hashable|].
  rewrite (collect_set_unhashable column rows ND) in E; [discriminate|]. exists r. split; auto.
  rewrite can_be_key_hashable. congruence.
Qed.

Lemma deduped_sound hash column rows groups : Forall (fun r => NoDup (map fst r)) rows ->
  collect_set_deduped hash column rows = Ok groups ->
  ForallOrdPairs (fun a b => py_eq (fst a) (fst b) = false) groups /\
  forall k g, In (k, g) groups ->
    ForallOrdPairs (fun a b => ~ same_record a b) g /\
    forall r, In r g -> In r (records_with column k rows).
Proof.
  unfold collect_set_deduped. intros ND H.
  assert (ND' : Forall (fun r => NoDup (map fst r)) (distinct hash [] rows)).
  { rewrite Forall_forall in *. intros r Hr. apply ND. eapply distinct_incl; eauto. }
  destruct (collect_set column (distinct hash [] rows)) as [c|] eqn:E; cbn [bind] in H; [|discriminate].
  pose proof (collect_ok_keys _ _ _ ND' E) as HK.
  destruct (collect_set_partitions column _ ND' HK) as (c' & E' & P & _).
  assert (c' = c) by congruence. subst c'. destruct (dedupe_in c groups H) as [M I]. split.
  - destruct P as [_ _ P3]. revert P3 M. clear. revert groups.
    induction c as [|a c IH]; intros [|b groups] P M; cbn [map] in M; try discriminate; [constructor|].
    injection M as M1 M2. inversion P as [|? ? Fa Fc]; subst. constructor; [|apply IH; auto].
    rewrite M1. rewrite Forall_forall in *. intros x Hx.
    assert (In (fst x) (map fst c)) by (rewrite <- M2; now apply in_map).
    apply in_map_iff in H. destruct H as (y & <- & Hy). auto.
  - intros k g Hg. destruct (I k g Hg) as (v & Hv & O). destruct (one_of_each_spec v g O) as (S1 & _ & S3).
    split; auto. intros r Hr. apply S1 in Hr. destruct P as [P1 _ _]. destruct (P1 k v Hv) as [Ev _]. subst v.
    unfold records_with in *. apply in_map_iff in Hr. destruct Hr as (r0 & <- & H0). apply in_map.
    apply filter_In in H0. apply filter_In. split; [|tauto]. eapply distinct_incl. apply H0.
Qed.

(** ** Nothing else is dropped *)
Lemma first_occurrences_spec {A} (l : list A) : forall before out, first_occurrences eq before l out ->
  (forall x, In x out -> In x l /\ ~ In x before) /\ NoDup out.
Proof.
  intros before out F. induction F as [before|before x l out N F [I ND]|before x l out D F [I ND]].
  - split; [easy|constructor].
  - split.
    + intros y [<-|Hy]; [split; [left; auto|intro C; now apply (N x C)]|].
      destruct (I y Hy) as [A1 A2]. split; [right; auto|]. intro C. apply A2. apply in_or_app; auto.
    + constructor; auto. intro C. destruct (I x C) as [_ C2]. apply C2. apply in_or_app. right. left. auto.
  - split; auto. intros y Hy. destruct (I y Hy) as [A1 A2]. split; [right; auto|]. intro C. apply A2. apply in_or_app; auto.
Qed.

Lemma without_In column (r : record) c v : In (c, v) (without column r) <-> In (c, v) r /\ c <> column.
Proof.
  unfold without. rewrite filter_In. cbn [fst]. rewrite negb_true_iff. split; intros [H1 H2]; split; auto.
  - intros ->. now rewrite str_eqb_refl in H2.
  - now apply str_eqb_neq.
Qed.

Lemma rget_In column (r : record) v : NoDup (map fst r) -> In (column, v) r -> rget column r = v.
Proof.
  unfold rget. induction r as [|[k x] r IH]; intros ND H; [destruct H|]. cbn [map fst] in ND.
  inversion ND as [|? ? N1 N2]; subst. cbn [dget]. destruct H as [H|H].
  - injection H as -> ->. now rewrite str_eqb_refl.
  - destruct (str_eqb column k) eqn:E; [|auto]. apply str_eqb_eq in E. subst. destruct N1.
    apply in_map_iff. now exists (k, v).
Qed.

Lemma same_list (a b : record) : map fst a = map fst b -> NoDup (map fst a) ->
  (forall c v, In (c, v) a -> In (c, v) b) -> a = b.
Proof.
  revert b. induction a as [|[k v] a IH]; intros [|[k' v'] b] M ND H; cbn [map fst] in *; try discriminate; auto.
  injection M as <- M. inversion ND as [|? ? N1 N2]; subst.
  assert (E : v = v').
  { destruct (H k v (or_introl eq_refl)) as [X|X]; [congruence|]. destruct N1. rewrite M. apply in_map_iff. now exists (k, v). }
  subst v'. f_equal. apply IH; auto. intros c w Hin. destruct (H c w (or_intror Hin)) as [X|X]; [|auto].
  injection X as <- <-. destruct N1. apply in_map_iff. now exists (k, v).
Qed.

Lemma pairs_filter_map {A B} (R : A -> A -> Prop) (Q : B -> B -> Prop) f (h : A -> B) l :
  ForallOrdPairs R l -> (forall a b, In a l -> In b l -> f a = true -> f b = true -> R a b -> Q (h a) (h b)) ->
  ForallOrdPairs Q (map h (filter f l)).
Proof.
  induction l as [|a l IH]; intros P H; cbn [filter]; [constructor|]. inversion P as [|? ? Fa Fl]; subst.
  assert (IH' : ForallOrdPairs Q (map h (filter f l))) by (apply IH; auto; intros; apply H; try right; auto).
  destruct (f a) eqn:E; auto. cbn [map]. constructor; auto. rewrite Forall_forall in *. intros y Hy.
  apply in_map_iff in Hy. destruct Hy as (b & <- & Hb). apply filter_In in Hb. destruct Hb as [Hb Eb].
  apply H; auto; [left|right]; auto.
Qed.
Lemma nodup_pairs {A} (l : list A) : NoDup l -> ForallOrdPairs (fun a b => a <> b) l.
Proof.
  induction 1 as [|x l N ND IH]; constructor; auto. apply Forall_forall. intros y Hy ->. auto.
Qed.

Lemma deduped_complete hash column rows names : NoDup names ->
  (forall r, In r rows -> map fst r = names) ->
  (forall r v, In r rows -> In v (map snd r) -> can_be_key v) ->
  (forall a b v w, In a rows -> In b rows -> In v (map snd a) -> In w (map snd b) ->
     py_str v = py_str w \/ py_eq v w = true -> v = w) ->
  (forall a b, In a rows -> In b rows ->
     xor_all hash (numbered 0 (map snd a)) = xor_all hash (numbered 0 (map snd b)) ->
     numbered 0 (map snd a) = numbered 0 (map snd b)) ->
  exists once groups, first_occurrences eq [] rows once /\
    collect_set_deduped hash column rows = Ok groups /\ partitions column once groups.
Proof.
  intros NDn HN HK HV HH.
  assert (F : first_occurrences eq [] rows (distinct hash [] rows)).
  { apply (DictSet.distinct_rows_texts hash rows names HN); auto. intros a b v w Ha Hb Hv Hw E. apply (HV a b v w); auto. }
  exists (distinct hash [] rows). set (once := distinct hash [] rows) in *.
  destruct (first_occurrences_spec rows [] once F) as [Inc ND].
  assert (Inc' : forall r, In r once -> In r rows) by (intros r Hr; apply (Inc r Hr)).
  assert (N1 : Forall (fun r => NoDup (map fst r)) once).
  { apply Forall_forall. intros r Hr. rewrite (HN r); auto. }
  assert (G : forall r, In r once -> rget column r = VNull \/ In (column, rget column r) r).
  { intros r Hr. unfold rget. destruct (dget str_eqb column r) eqn:E; auto. right.
    eapply (dget_Some_In str_eqb str_keqb); eauto. }
  assert (GK : forall r, In r once -> hashable (rget column r) = true).
  { intros r Hr. destruct (G r Hr) as [->|H]; auto. apply can_be_key_hashable. apply (HK r); auto.
    apply in_map_iff. eexists. split; [|exact H]. reflexivity. }
  assert (N2 : Forall (fun r => can_be_key (rget column r)) once).
  { apply Forall_forall. intros r Hr. apply can_be_key_hashable. auto. }
  destruct (collect_set_partitions column once N1 N2) as (c & E & P & _).
  exists c. split; auto. split; [|exact P]. unfold collect_set_deduped. fold once. rewrite E. cbn [bind].
  apply dedupe_same. intros k v Hv. destruct P as [P1 _ _]. destruct (P1 k v Hv) as [-> NE].
  assert (SC : forall r, In r once -> scalar r).
  { intros r Hr col x Hin. apply can_be_key_hashable. apply (HK r); auto. apply in_map_iff. now exists (col, x). }
  apply one_of_each_different.
  - intros x Hx. unfold records_with in Hx. apply in_map_iff in Hx. destruct Hx as (r & <- & Hr).
    apply filter_In in Hr. intros col w Hw. apply without_In in Hw. destruct Hw as [Hw _]. eapply SC; [apply Hr|exact Hw].
  - unfold records_with. apply (pairs_filter_map (fun a b => a <> b)); [now apply nodup_pairs|].
    intros a b Ha Hb Ea Eb D S. apply D. destruct S as [S _].
    assert (KH : hashable k = true).
    { destruct (hashable k) eqn:Ek; auto. exfalso. clear - Ek Ea GK Ha. specialize (GK a Ha).
      destruct k; try discriminate; destruct (rget column a); cbn in Ea; discriminate. }
    assert (Ec : canon (rget column a) = canon (rget column b)).
    { apply py_eq_canon in Ea; auto. apply py_eq_canon in Eb; auto. congruence. }
    pose proof (HN a (Inc' a Ha)) as Na. pose proof (HN b (Inc' b Hb)) as Nb.
    apply same_list; [congruence|now rewrite Na|]. intros col v Hcv. destruct (str_eqb col column) eqn:Ecol.
    + apply str_eqb_eq in Ecol. subst col.
      assert (Va : rget column a = v) by (apply rget_In; auto; now rewrite Na).
      assert (Ib : In column (map fst b)) by (rewrite Nb, <- Na; apply in_map_iff; now exists (column, v)).
      apply in_map_iff in Ib. destruct Ib as ([c' w] & X & Hw). cbn in X. subst c'.
      assert (Vb : rget column b = w) by (apply rget_In; auto; now rewrite Nb).
      assert (Evw : v = w); [|rewrite Evw; exact Hw].
      apply (HV a b); auto; try (apply in_map_iff; eexists; split; [|eassumption]; reflexivity).
      right. apply py_eq_canon; [rewrite <- Va; auto|rewrite <- Vb; auto|congruence].
    + apply str_eqb_neq in Ecol. destruct (S col v) as (w & Hw & Ew); [now apply without_In|].
      apply without_In in Hw. destruct Hw as [Hw _]. assert (Evw : v = w); [|rewrite Evw; exact Hw].
      apply (HV a b); auto; apply in_map_iff; eexists; (split; [|eassumption]); reflexivity.
Qed.
