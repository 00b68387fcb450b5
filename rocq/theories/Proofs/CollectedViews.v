(** Proofs: what is computed from a collected set. *)
From Coq Require Import Permutation.
From Verif.Base Require Import Py PyFacts Value ValueFacts.
From Verif.Model Require Import DictSet Collections.
From Verif.Spec Require Import Collections.
From Verif.Proofs Require Import Collections.

Lemma rget_without_other column other (r : record) : other <> column -> rget other (without column r) = rget other r.
Proof.
  intros N. unfold without, rget. induction r as [|[k v] r IH]; [reflexivity|].
  cbn [filter fst]. destruct (str_eqb k column) eqn:E; cbn [negb].
  - apply str_eqb_eq in E. subst. cbn [dget]. destruct (str_eqb other column) eqn:E2; [apply str_eqb_eq in E2; easy|]. exact IH.
  - cbn [dget]. destruct (str_eqb other k); auto.
Qed.

Lemma rget_without_same column (r : record) : rget column (without column r) = VNull.
Proof.
  unfold without, rget. induction r as [|[k v] r IH]; [reflexivity|].
  cbn [filter fst]. destruct (str_eqb k column) eqn:E; cbn [negb]; [exact IH|].
  cbn [dget]. destruct (str_eqb column k) eqn:E2; [|exact IH].
  apply str_eqb_eq in E2. subst. rewrite str_eqb_refl in E. discriminate.
Qed.

Lemma known_same column (rows : list record) : filter (fun v => negb (is_none v)) (map (rget column) (map (without column) rows)) = [].
Proof. induction rows as [|r rows IH]; [reflexivity|]. cbn [map]. rewrite rget_without_same. exact IH. Qed.

Lemma known_other column other (rows : list record) : other <> column ->
  filter (fun v => negb (is_none v)) (map (rget other) (map (without column) rows)) = known_values other rows.
Proof.
  intros N. unfold known_values. rewrite map_map. rewrite (map_ext _ (rget other)) by (intro; now apply rget_without_other).
  apply filter_ext. now intros [].
Qed.

Lemma aggregate_spec {B} column rows other (method : list value -> B) : other <> column ->
  Forall (fun r => NoDup (map fst r)) rows -> Forall (fun r => can_be_key (rget column r)) rows ->
  exists groups, collect_set column rows = Ok groups /\ partitions column rows groups /\
    aggregate groups other method =
    map (fun g => (fst g, method (known_values other (filter (fun r => py_eq (rget column r) (fst g)) rows)))) groups.
Proof.
  intros N H1 H2. destruct (collect_set_partitions column rows H1 H2) as (c & E & Hp & _).
  exists c. split; auto. split; auto. unfold aggregate. apply map_ext_in. intros [k g] Hin. cbn [fst snd].
  destruct (group_exact _ _ _ Hp _ _ Hin) as [-> _]. unfold records_with. now rewrite known_other.
Qed.

Lemma aggregate_own {B} column rows (method : list value -> B) :
  Forall (fun r => NoDup (map fst r)) rows -> Forall (fun r => can_be_key (rget column r)) rows ->
  exists groups, collect_set column rows = Ok groups /\ partitions column rows groups /\
    aggregate groups column method = map (fun g => (fst g, method [])) groups.
Proof.
  intros H1 H2. destruct (collect_set_partitions column rows H1 H2) as (c & E & Hp & _).
  exists c. split; auto. split; auto. unfold aggregate. apply map_ext_in. intros [k g] Hin. cbn [fst snd].
  destruct (group_exact _ _ _ Hp _ _ Hin) as [-> _]. unfold records_with. now rewrite known_same.
Qed.

Lemma apply_spec {B} column rows (method : list record -> B) :
  Forall (fun r => NoDup (map fst r)) rows -> Forall (fun r => can_be_key (rget column r)) rows ->
  exists groups, collect_set column rows = Ok groups /\ partitions column rows groups /\
    apply groups method = map (fun g => (fst g, method (records_with column (fst g) rows))) groups.
Proof.
  intros H1 H2. destruct (collect_set_partitions column rows H1 H2) as (c & E & Hp & _).
  exists c. split; auto. split; auto. unfold apply. apply map_ext_in. intros [k g] Hin. cbn [fst snd].
  now destruct (group_exact _ _ _ Hp _ _ Hin) as [<- _].
Qed.

(** ** Every record is in the items, once *)
Lemma filter_split {A} (p : A -> bool) l : Permutation l (filter p l ++ filter (fun x => negb (p x)) l).
Proof.
  induction l as [|x l IH]; [constructor|]. cbn [filter]. destruct (p x); cbn [negb app]; [now constructor|].
  now apply Permutation_cons_app.
Qed.

Lemma groups_cover column : forall (keys : list value) (rows : list record),
  (forall r, In r rows -> hashable (rget column r) = true) -> Forall (fun k => hashable k = true) keys ->
  ForallOrdPairs (fun a b => py_eq a b = false) keys ->
  (forall r, In r rows -> exists k, In k keys /\ py_eq (rget column r) k = true) ->
  Permutation (concat (map (fun k => filter (fun r => py_eq (rget column r) k) rows) keys)) rows.
Proof.
  induction keys as [|k keys IH]; intros rows Hh Hk Ho He.
  - destruct rows as [|r rows]; [constructor|]. destruct (He r (or_introl eq_refl)) as (k & [] & _).
  - inversion Hk as [|? ? Hk1 Hk2]; subst. inversion Ho as [|? ? Ho1 Ho2]; subst. cbn [map concat].
    set (p := fun r => py_eq (rget column r) k). apply Permutation_trans with (2 := Permutation_sym (filter_split p rows)). apply Permutation_app_head.
    set (rest := filter (fun r => negb (p r)) rows).
    assert (Eq : map (fun k' => filter (fun r => py_eq (rget column r) k') rows) keys =
                 map (fun k' => filter (fun r => py_eq (rget column r) k') rest) keys).
    { apply map_ext_in. intros k' Hin. unfold rest. rewrite Forall_forall in Ho1, Hk2. specialize (Ho1 _ Hin). specialize (Hk2 _ Hin).
      clear - Hh Ho1 Hk1 Hk2. induction rows as [|r rows IH]; [reflexivity|]. cbn [filter].
      assert (Hr : hashable (rget column r) = true) by (apply Hh; now left).
      assert (IH' := IH (fun x H => Hh x (or_intror H))). unfold p at 1. destruct (py_eq (rget column r) k) eqn:E1; cbn [negb].
      - destruct (py_eq (rget column r) k') eqn:E2; [|exact IH'].
        apply py_eq_canon in E1, E2; auto. apply py_eq_false in Ho1; auto. congruence.
      - cbn [filter]. now rewrite IH'. }
    rewrite Eq. apply IH; auto.
    + intros r Hr. apply filter_In in Hr as [Hr _]. auto.
    + intros r Hr. apply filter_In in Hr as [Hr Hn]. destruct (He r Hr) as (k' & [<-|Hin] & E).
      * unfold p in Hn. rewrite E in Hn. discriminate.
      * eauto.
Qed.

Lemma items_snd (c : collections) : map snd (items c) = concat (map snd c).
Proof.
  unfold items. induction c as [|[k g] c IH]; [reflexivity|]. cbn [flat_map map concat fst snd]. rewrite map_app, IH. f_equal.
  rewrite map_map. cbn [snd]. apply map_id.
Qed.

Lemma pairs_map {A B} (f : A -> B) (R : B -> B -> Prop) l : ForallOrdPairs (fun a b => R (f a) (f b)) l -> ForallOrdPairs R (map f l).
Proof. induction 1 as [|a l H1 H2 IH]; cbn [map]; constructor; auto. now apply Forall_map. Qed.

Lemma items_spec column rows :
  Forall (fun r => NoDup (map fst r)) rows -> Forall (fun r => can_be_key (rget column r)) rows ->
  exists groups, collect_set column rows = Ok groups /\
    Permutation (map snd (items groups)) (map (without column) rows) /\
    (forall k r, In (k, r) (items groups) -> exists r0, In r0 rows /\ r = without column r0 /\ py_eq (rget column r0) k = true).
Proof.
  intros H1 H2. destruct (collect_set_invariant column rows H1 H2) as (c & E & Hp & _ & Hk).
  exists c. split; auto. split.
  - rewrite items_snd. assert (Hg : map snd c = map (map (without column)) (map (fun k => filter (fun r => py_eq (rget column r) k) rows) (map fst c))).
    { rewrite !map_map. apply map_ext_in. intros [k g] Hin. cbn [fst snd].
      destruct (group_exact _ _ _ Hp _ _ Hin) as [-> _]. reflexivity. }
    rewrite Hg, <- concat_map. apply Permutation_map. apply groups_cover.
    + intros r Hr. rewrite Forall_forall in H2. apply can_be_key_hashable. auto.
    + apply Forall_forall. intros k Hin. apply in_map_iff in Hin as ([k' g] & <- & Hin). exact (Hk _ _ Hin).
    + apply pairs_map. exact (group_once _ _ _ Hp).
    + intros r Hr. destruct (group_exists _ _ _ Hp r Hr) as (k & g & Hin & Ek). exists k. split; auto.
      apply in_map_iff. exists (k, g). auto.
  - intros k r Hin. unfold items in Hin. apply in_flat_map in Hin as ([k' g] & Hin & Hr). apply in_map_iff in Hr as (r' & Er & Hr).
    cbn [fst snd] in *. injection Er as <- <-. destruct (group_exact _ _ _ Hp _ _ Hin) as [-> _].
    unfold records_with in Hr. apply in_map_iff in Hr as (r0 & <- & Hr). apply filter_In in Hr as [Hr Ek]. eauto.
Qed.
