(** Proofs: the types of columns, least and greatest texts. *)
From Coq Require Import Permutation.
From Verif.Base Require Import Py PyFacts Value ValueFacts.
From Verif.Model Require Import Storage DictSet Columns.
From Verif.Spec Require Import DictSet Columns.
From Verif.Proofs Require DictSet.

Lemma dIn (x : str) l : In x (dedup str_eqb l) <-> In x l.
Proof. pose proof (dedup_In str_eqb str_eqb_eq x l). tauto. Qed.

Lemma names_eqb (a : list str) : forall b, list_eqb str_eqb a b = true <-> a = b.
Proof.
  induction a as [|x a IH]; intros [|y b]; cbn [list_eqb]; try (split; congruence).
  rewrite andb_true_iff, str_eqb_eq, IH. split; [intros [-> ->]; auto|intro H; injection H; auto].
Qed.

Section Types.
  Context (type_name : value -> str).

  Lemma present_eq key rows : filter (fun v => negb (is_none v)) (collect_list key rows) = present key rows.
  Proof.
    unfold present. rewrite DictSet.collect_list_spec. apply filter_ext. intros v. destruct v; reflexivity.
  Qed.

  Lemma fold_dset_new (f : str -> str) ks : forall acc, NoDup (map fst acc ++ ks) ->
    fold_left (fun r k => dset str_eqb k (f k) r) ks acc = acc ++ map (fun k => (k, f k)) ks.
  Proof.
    induction ks as [|k ks IH]; intros acc ND; cbn [fold_left map]; [now rewrite app_nil_r|].
    assert (E : dset str_eqb k (f k) acc = acc ++ [(k, f k)]).
    { assert (N : ~ In k (map fst acc)).
      { apply NoDup_remove_2 in ND. intro H. apply ND. apply in_or_app; auto. }
      clear - N. induction acc as [|[k' v] acc IHa]; cbn [dset]; auto. cbn [map fst] in N.
      replace (str_eqb k k') with false; [|symmetry; apply str_eqb_neq; intros ->; apply N; now left].
      cbn [app]. f_equal. apply IHa. intro H. apply N. now right. }
    rewrite E, IH.
    - now rewrite <- app_assoc.
    - rewrite map_app. cbn [map fst]. rewrite <- app_assoc. exact ND.
  Qed.

  Lemma first_nodup (l : list str) : forall before out, first_occurrences eq before l out ->
    (forall x, In x out -> ~ In x before) /\ NoDup out.
  Proof.
    intros before out F. induction F as [before|before x l out N F [I ND]|before x l out D F [I ND]].
    - split; [easy|constructor].
    - split.
      + intros y [<-|Hy] C; [now apply (N x C)|]. apply (I y Hy). apply in_or_app; auto.
      + constructor; auto. intro C. apply (I x C). apply in_or_app. right. now left.
    - split; auto. intros y Hy C. apply (I y Hy). apply in_or_app; auto.
  Qed.

  Lemma types_table persisted n rows : 1 <= n -> Forall well_formed rows ->
    types type_name persisted (Z.of_nat n) rows =
    map (fun k => (k, kind (key_type type_name k (if persisted then firstn n rows else [])))) (keys 0 (firstn n rows)).
  Proof.
    intros Hn W. unfold types. rewrite DictSet.take_spec by auto.
    assert (F : first_occurrences eq [] (flat_map (map fst) (firstn n rows)) (keys 0 (firstn n rows)))
      by (apply DictSet.keys_all_spec, DictSet.Forall_firstn, W).
    apply first_nodup in F. destruct F as [_ ND].
    rewrite fold_dset_new; [reflexivity|exact ND].
  Qed.

  Lemma types_columns persisted n rows : 1 <= n -> Forall well_formed rows ->
    first_occurrences eq [] (flat_map (map fst) (firstn n rows)) (map fst (types type_name persisted (Z.of_nat n) rows)).
  Proof.
    intros Hn W. rewrite types_table by auto. rewrite map_map. cbn [fst]. rewrite map_id.
    apply DictSet.keys_all_spec, DictSet.Forall_firstn, W.
  Qed.

  Lemma kind_one t vs : vs <> [] -> Forall (fun v => type_name v = t) vs -> kind (dedup str_eqb (map type_name vs)) = t.
  Proof.
    intros NE F. assert (D : dedup str_eqb (map type_name vs) = [t]); [|now rewrite D].
    assert (ND : NoDup (dedup str_eqb (map type_name vs))) by (apply dedup_NoDup; apply str_eqb_eq).
    assert (I : forall x, In x (dedup str_eqb (map type_name vs)) -> x = t).
    { intros x Hx. apply -> dIn in Hx. apply in_map_iff in Hx. destruct Hx as (v & <- & Hv).
      rewrite Forall_forall in F. auto. }
    assert (In t (dedup str_eqb (map type_name vs))).
    { apply <- dIn. destruct vs as [|v vs]; [congruence|]. inversion F; subst. cbn; auto. }
    destruct (dedup str_eqb (map type_name vs)) as [|a [|b l]].
    - destruct H.
    - now rewrite (I a (or_introl eq_refl)).
    - exfalso. inversion ND as [|? ? N1 N2]; subst. apply N1. left.
      rewrite (I a (or_introl eq_refl)), (I b); cbn; auto.
  Qed.

  Lemma kind_several vs v w : In v vs -> In w vs -> type_name v <> type_name w ->
    kind (dedup str_eqb (map type_name vs)) =
    if list_eqb str_eqb (sorted_str (dedup str_eqb (map type_name vs))) [$"float"; $"int"] then $"numeric" else $"mixed".
  Proof.
    intros Hv Hw D.
    assert (Iv : In (type_name v) (dedup str_eqb (map type_name vs))) by (apply <- dIn; now apply in_map).
    assert (Iw : In (type_name w) (dedup str_eqb (map type_name vs))) by (apply <- dIn; now apply in_map).
    destruct (dedup str_eqb (map type_name vs)) as [|a [|b l]]; auto.
    exfalso. destruct Iv as [Ev|[]], Iw as [Ew|[]]. congruence.
  Qed.

  Lemma numeric_iff names : NoDup names ->
    list_eqb str_eqb (sorted_str names) [$"float"; $"int"] = true <->
    (forall x, In x names <-> x = $"float" \/ x = $"int").
  Proof.
    intros ND. rewrite names_eqb. split.
    - intros E x. rewrite <- (sorted_str_In x names), E. cbn. intuition.
    - intros H. assert (P : Permutation names [$"float"; $"int"]).
      { apply NoDup_Permutation; auto.
        - repeat constructor; cbn; intuition discriminate.
        - intros x. rewrite H. cbn. intuition. }
      rewrite (sorted_str_perm_eq _ _ P). reflexivity.
  Qed.

  Lemma types_at n rows column : 1 <= n -> Forall well_formed rows ->
    (exists r, In r (firstn n rows) /\ In column (map fst r)) ->
    dget str_eqb column (types type_name true (Z.of_nat n) rows) =
    Some (kind (dedup str_eqb (map type_name (present column (firstn n rows))))).
  Proof.
    intros Hn W (r & Hr & Hc). rewrite types_table by auto.
    assert (I : In column (keys 0 (firstn n rows))).
    { pose proof (DictSet.keys_all_spec _ (DictSet.Forall_firstn _ n _ W)) as F.
      assert (G : forall before l (out : list str), first_occurrences eq before l out -> forall x, In x l -> In x before \/ In x out).
      { clear. intros before l out F. induction F as [before|before x l out N F IH|before x l out (y & Hy & ->) F IH]; intros z Hz.
        - destruct Hz.
        - destruct Hz as [<-|Hz]; [right; now left|]. destruct (IH z Hz) as [H|H]; [|right; now right].
          apply in_app_or in H. destruct H as [H|[<-|[]]]; [auto|right; now left].
        - destruct Hz as [<-|Hz]; [auto|]. destruct (IH z Hz) as [H|H]; [|auto].
          apply in_app_or in H. destruct H as [H|[<-|[]]]; auto. }
      destruct (G _ _ _ F column) as [[]|H]; auto. apply in_flat_map. eauto. }
    clear Hr Hc.
    induction (keys 0 (firstn n rows)) as [|k ks IH]; [destruct I|]. cbn [map dget].
    destruct (str_eqb column k) eqn:E.
    - apply str_eqb_eq in E. subst k. unfold key_type. now rewrite present_eq.
    - destruct I as [->|I]; [now rewrite str_eqb_refl in E|]. auto.
  Qed.

  Theorem types_one n rows column t : 1 <= n -> Forall well_formed rows ->
    present column (firstn n rows) <> [] -> Forall (fun v => type_name v = t) (present column (firstn n rows)) ->
    dget str_eqb column (types type_name true (Z.of_nat n) rows) = Some t.
  Proof.
    intros Hn W NE F. rewrite types_at; auto; [now rewrite (kind_one t)|].
    destruct (present column (firstn n rows)) as [|v vs] eqn:E; [congruence|].
    assert (Hv : In v (present column (firstn n rows))) by (rewrite E; now left).
    unfold present in Hv. apply filter_In in Hv. destruct Hv as [Hv _]. rewrite <- DictSet.collect_list_spec in Hv.
    unfold collect_list in Hv. apply in_flat_map in Hv. destruct Hv as (r & Hr & Hv). exists r. split; auto.
    destruct (dget str_eqb column r) eqn:G; [|destruct Hv]. apply in_map_iff. eexists. split; [|eapply (dget_Some_In str_eqb str_keqb); eauto]. reflexivity.
  Qed.

  Theorem types_several n rows column v w : 1 <= n -> Forall well_formed rows ->
    In v (present column (firstn n rows)) -> In w (present column (firstn n rows)) -> type_name v <> type_name w ->
    dget str_eqb column (types type_name true (Z.of_nat n) rows) = Some $"numeric" /\
      Forall (fun x => type_name x = $"int" \/ type_name x = $"float") (present column (firstn n rows)) \/
    dget str_eqb column (types type_name true (Z.of_nat n) rows) = Some $"mixed" /\
      Exists (fun x => type_name x <> $"int" /\ type_name x <> $"float") (present column (firstn n rows)).
  Proof.
    intros Hn W Hv Hw D. rewrite types_at; auto.
    - rewrite (kind_several _ v w) by auto. set (vs := present column (firstn n rows)) in *. clearbody vs.
      destruct (list_eqb _ _ _) eqn:E.
      + left. split; auto. pose proof (proj1 (numeric_iff _ (dedup_NoDup str_eqb str_eqb_eq (map type_name vs))) E) as E'.
        apply Forall_forall. intros x Hx.
        assert (X : In (type_name x) (dedup str_eqb (map type_name vs))) by (apply <- dIn; now apply in_map).
        apply E' in X. tauto.
      + right. split; auto. apply Exists_exists.
        destruct (existsb (fun x => negb (str_eqb (type_name x) $"int") && negb (str_eqb (type_name x) $"float")) vs) eqn:X.
        * apply existsb_exists in X. destruct X as (x & Hx & N). exists x. split; auto.
          apply andb_true_iff in N. rewrite !negb_true_iff, !str_eqb_neq in N. auto.
        * exfalso. assert (A : forall x, In x vs -> type_name x = $"int" \/ type_name x = $"float").
          { intros x Hx. destruct (str_eqb (type_name x) $"int") eqn:E1; [left; now apply str_eqb_eq|].
            destruct (str_eqb (type_name x) $"float") eqn:E2; [right; now apply str_eqb_eq|].
            assert (existsb (fun x => negb (str_eqb (type_name x) $"int") && negb (str_eqb (type_name x) $"float")) vs = true)
              by (apply existsb_exists; exists x; rewrite E1, E2; auto). congruence. }
          rewrite (proj2 (numeric_iff _ (dedup_NoDup str_eqb str_eqb_eq _))) in E; [discriminate|].
          intros x. rewrite dIn, in_map_iff. split.
          { intros (y & <- & Hy). destruct (A y Hy); auto. }
          { destruct (A v Hv), (A w Hw); try congruence; intros [->| ->]; eauto. }
    - unfold present in Hv. apply filter_In in Hv. destruct Hv as [Hv _]. rewrite <- DictSet.collect_list_spec in Hv.
      unfold collect_list in Hv. apply in_flat_map in Hv. destruct Hv as (r & Hr & Hv). exists r. split; auto.
      destruct (dget str_eqb column r) eqn:G; [|destruct Hv]. apply in_map_iff. eexists. split; [|eapply (dget_Some_In str_eqb str_keqb); eauto]. reflexivity.
  Qed.

  (** a column of nulls *)
  Theorem types_nulls n rows column : 1 <= n -> Forall well_formed rows ->
    (exists r, In r (firstn n rows) /\ In column (map fst r)) -> present column (firstn n rows) = [] ->
    dget str_eqb column (types type_name true (Z.of_nat n) rows) = Some $"mixed".
  Proof. intros Hn W H E. rewrite types_at by auto. rewrite E. reflexivity. Qed.

  Theorem types_not_persisted n rows : 1 <= n -> Forall well_formed rows ->
    Forall (fun kt => snd kt = $"mixed") (types type_name false (Z.of_nat n) rows).
  Proof.
    intros Hn W. rewrite types_table by auto. apply Forall_forall. intros kt H. apply in_map_iff in H.
    destruct H as (k & <- & _). reflexivity.
  Qed.
End Types.

(** ** Texts *)
Lemma ltb_leb a s : str_ltb a s = false -> str_leb s a = true.
Proof.
  intros E. destruct (str_leb_total s a) as [T|T]; auto. unfold str_ltb in E. unfold str_leb in T.
  destruct (str_compare a s) eqn:C; try discriminate. apply str_compare_eq in C. subst. apply str_leb_refl.
Qed.
Lemma reduce_max_text vs : forall a, all_texts vs ->
  exists m, fold_left (fun acc y => let* a := acc in py_max a y) vs (Ok (VStr a)) = Ok (VStr m) /\ last_text (VStr a :: vs) m.
Proof.
  induction vs as [|v vs IH]; intros a F; cbn [fold_left bind].
  - exists a. split; auto. split; [now left|]. intros s [H|[]]. injection H as ->. apply str_leb_refl.
  - inversion F as [|? ? [s ->] F']; subst. unfold py_max at 2. cbn [py_lt bind]. destruct (str_ltb a s) eqn:E.
    + destruct (IH s F') as (m & -> & H1 & H2). exists m. split; auto. split; [now right|].
      intros x [H|H]; [|auto]. injection H as <-. apply (str_leb_trans a s); [|apply H2; now left].
      unfold str_ltb in E. unfold str_leb. destruct (str_compare a s); auto; discriminate.
    + destruct (IH a F') as (m & -> & H1 & H2). exists m. split; auto. split.
      * destruct H1 as [H1|H1]; [now left|right; now right].
      * intros x [H|[H|H]]; [apply H2; now left| |apply H2; now right]. injection H as <-.
        apply (str_leb_trans s a); [|apply H2; now left].
        now apply ltb_leb.
Qed.
Lemma reduce_min_text vs : forall a, all_texts vs ->
  exists m, fold_left (fun acc y => let* a := acc in py_min a y) vs (Ok (VStr a)) = Ok (VStr m) /\ first_text (VStr a :: vs) m.
Proof.
  induction vs as [|v vs IH]; intros a F; cbn [fold_left bind].
  - exists a. split; auto. split; [now left|]. intros s [H|[]]. injection H as ->. apply str_leb_refl.
  - inversion F as [|? ? [s ->] F']; subst. unfold py_min at 2. cbn [py_lt bind]. destruct (str_ltb s a) eqn:E.
    + destruct (IH s F') as (m & -> & H1 & H2). exists m. split; auto. split; [now right|].
      intros x [H|H]; [|auto]. injection H as <-. apply (str_leb_trans m s); [apply H2; now left|].
      unfold str_ltb in E. unfold str_leb. destruct (str_compare s a); auto; discriminate.
    + destruct (IH a F') as (m & -> & H1 & H2). exists m. split; auto. split.
      * destruct H1 as [H1|H1]; [now left|right; now right].
      * intros x [H|[H|H]]; [apply H2; now left| |apply H2; now right]. injection H as <-.
        apply (str_leb_trans m a); [apply H2; now left|]. now apply ltb_leb.
Qed.

Theorem max_text column rows : all_texts (column_values column rows) -> column_values column rows <> [] ->
  exists m, ds_max column rows = Ok (VStr m) /\ last_text (column_values column rows) m.
Proof.
  intros H Hn. unfold ds_max. rewrite DictSet.collect_list_spec. destruct (column_values column rows) as [|v vs]; [congruence|].
  inversion H as [|? ? [s ->] H']; subst. now apply reduce_max_text.
Qed.
Theorem min_text column rows : all_texts (column_values column rows) -> column_values column rows <> [] ->
  exists m, ds_min column rows = Ok (VStr m) /\ first_text (column_values column rows) m.
Proof.
  intros H Hn. unfold ds_min. rewrite DictSet.collect_list_spec. destruct (column_values column rows) as [|v vs]; [congruence|].
  inversion H as [|? ? [s ->] H']; subst. now apply reduce_min_text.
Qed.
