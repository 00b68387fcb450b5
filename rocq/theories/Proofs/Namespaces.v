(** Lemmas about XML namespaces. *)
From Coq Require Import Lia.
From Verif.Base Require Import Py PyFacts Value ValueFacts.
From Verif.Model Require Import Storage Reader Decoders.
From Verif.Spec Require Import Reader Decoders Xml Namespaces.
From Verif.Proofs Require Import Decoders.

(** ** Names *)
Fixpoint after_close (k : str) : str :=
  match k with [] => [] | c :: k' => if Ascii.eqb c "}" then k' else after_close k' end.
Definition lp (k : str) : str := match k with c :: k' => if Ascii.eqb c "{" then after_close k' else k | [] => [] end.

Lemma after_close_app ns n : ~ In "}"%char ns -> after_close (ns ++ "}"%char :: n) = n.
Proof.
  induction ns as [|c ns IH]; intro H; [reflexivity|]. cbn [app after_close].
  destruct (Ascii.eqb c "}") eqn:E; [apply Ascii.eqb_eq in E; subst; elim H; now left|]. apply IH. intro C. apply H. now right.
Qed.
Lemma after_brace_app ns n : ~ In "}"%char ns -> after_brace (ns ++ "}"%char :: n) = Ok n.
Proof.
  induction ns as [|c ns IH]; intro H; [reflexivity|]. cbn [app after_brace].
  destruct (Ascii.eqb c "}") eqn:E; [apply Ascii.eqb_eq in E; subst; elim H; now left|]. apply IH. intro C. apply H. now right.
Qed.
Lemma bare_lp n : bare n -> lp n = n.
Proof.
  intro H. unfold lp. destruct n as [|c r]; [reflexivity|]. destruct (Ascii.eqb c "{") eqn:E; [|reflexivity].
  apply Ascii.eqb_eq in E. subst. elim (H _ _ eq_refl). now left.
Qed.
Lemma local_lp k n : local k n -> lp k = n.
Proof. destruct 1 as [n H|ns n H1 H2]; [now apply bare_lp|]. cbn. now apply after_close_app. Qed.
Lemma local_bare_name k n : local k n -> bare n.
Proof. now destruct 1. Qed.
Lemma local_not_at k n s : local k n -> k <> "@"%char :: s.
Proof. destruct 1 as [n H|]; [|discriminate]. intros ->. elim (H _ _ eq_refl). right. now left. Qed.
Lemma local_not_hash k n s : local k n -> k <> "#"%char :: s.
Proof. destruct 1 as [n H|]; [|discriminate]. intros ->. elim (H _ _ eq_refl). right. right. now left. Qed.
Lemma local_element_name k n : local k n -> element_name k.
Proof. intro H. split; intro s; [eapply local_not_at|eapply local_not_hash]; eauto. Qed.
Lemma bare_element_name n : bare n -> element_name n.
Proof. intro H. eapply local_element_name. now constructor. Qed.
Lemma starts_one c k : startswith [c] k = true <-> exists s, k = c :: s.
Proof.
  split.
  - intro H. destruct k as [|d k]; [discriminate|]. destruct (ascii_dec c d) as [->|N]; [eauto|].
    rewrite startswith_not in H; [discriminate|]. intros s C. injection C as -> _. congruence.
  - intros (s & ->). cbn. rewrite Ascii.eqb_refl. now destruct s.
Qed.
Lemma starts_two c d k : startswith [c; d] k = true <-> exists s, k = c :: d :: s.
Proof.
  split.
  - intro H. destruct k as [|a [|b k]].
    1,2: rewrite startswith2_not in H; discriminate.
    destruct (ascii_dec c a) as [->|N]; [destruct (ascii_dec d b) as [->|N]; [eauto|]|].
    all: rewrite startswith2_not in H; [discriminate|]; intros s C; injection C; intros; subst; congruence.
  - intros (s & ->). cbn. rewrite !Ascii.eqb_refl. now destruct s.
Qed.
Lemma starts_brace k : startswith $"{" k = true <-> exists s, k = "{"%char :: s.
Proof. exact (starts_one "{" k). Qed.
Lemma starts_at_brace k : startswith $"@{" k = true <-> exists s, k = "@"%char :: "{"%char :: s.
Proof. exact (starts_two "@" "{" k). Qed.
Lemma local_brace k n : local k n -> startswith $"{" k = true -> after_brace k = Ok n.
Proof.
  destruct 1 as [n H|ns n H1 H2]; intro S.
  - apply starts_brace in S as (r & ->). elim (H _ _ eq_refl). now left.
  - cbn [after_brace Ascii.eqb]. change (Ascii.eqb "{" "}") with false. cbv iota. now apply after_brace_app.
Qed.
Lemma local_unbraced k n : local k n -> startswith $"{" k = false -> k = n.
Proof. destruct 1 as [n H|ns n H1 H2]; intro S; [reflexivity|discriminate]. Qed.

(** what a key of a dictionary becomes *)
Definition newkey (k : str) : str :=
  match k with c :: k' => if Ascii.eqb c "@" then c :: lp k' else lp k | [] => [] end.
Lemma newkey_at a : newkey ("@"%char :: a) = "@"%char :: lp a. Proof. reflexivity. Qed.
Lemma newkey_element k : (forall s, k <> "@"%char :: s) -> newkey k = lp k.
Proof.
  intro H. unfold newkey. destruct k as [|c k]; [reflexivity|]. destruct (Ascii.eqb c "@") eqn:E; [|reflexivity].
  apply Ascii.eqb_eq in E. subst. now elim (H k).
Qed.

(** ** Dictionaries *)
Lemma ddel_keys k (d : list (str * value)) x : NoDup (dkeys d) -> In x (dkeys (ddel str_eqb k d)) <-> In x (dkeys d) /\ x <> k.
Proof.
  induction d as [|[k' v] d IH]; intro N; cbn [ddel dkeys map fst] in *; [cbn; tauto|].
  apply NoDup_cons_iff in N as [N1 N2]. destruct (str_eqb k k') eqn:E.
  - apply str_eqb_eq in E. subst k'. cbn [In]. split.
    + intro H. split; [now right|]. intros ->. contradiction.
    + intros [[->|H] Hx]; [congruence|exact H].
  - cbn [map fst In]. rewrite IH by exact N2. split.
    + intros [->|[H1 H2]]; [split; [now left|]|split; [now right|exact H2]].
      intros ->. rewrite str_eqb_refl in E. discriminate.
    + intros [[->|H1] H2]; [now left|right; now split].
Qed.
Lemma ddel_NoDup k (d : list (str * value)) : NoDup (dkeys d) -> NoDup (dkeys (ddel str_eqb k d)).
Proof.
  induction d as [|[k' v] d IH]; intro N; cbn [ddel dkeys map fst] in *; [constructor|].
  apply NoDup_cons_iff in N as [N1 N2]. destruct (str_eqb k k') eqn:E; [exact N2|]. cbn [map fst]. constructor; [|now apply IH].
  intro C. apply (ddel_keys k d k') in C; [|exact N2]. destruct C as [C _]. contradiction.
Qed.
Lemma ddel_other k k' (d : list (str * value)) : k' <> k -> dget str_eqb k' (ddel str_eqb k d) = dget str_eqb k' d.
Proof.
  intro H. induction d as [|[j v] d IH]; [reflexivity|]. cbn [ddel dget]. destruct (str_eqb k j) eqn:E.
  - apply str_eqb_eq in E. subst j. destruct (str_eqb k' k) eqn:F; [apply str_eqb_eq in F; contradiction|reflexivity].
  - cbn [dget]. destruct (str_eqb k' j); [reflexivity|exact IH].
Qed.
Lemma dget_In_iff k v (d : list (str * value)) : NoDup (dkeys d) -> In (k, v) d <-> dget str_eqb k d = Some v.
Proof.
  intro N. split; [|apply dget_Some_In; now apply str_keqb].
  induction d as [|[k' v'] d IH]; intro H; [destruct H|]. cbn [dkeys map fst] in N. apply NoDup_cons_iff in N as [N1 N2].
  cbn [dget]. destruct H as [H|H].
  - injection H as -> ->. now rewrite str_eqb_refl.
  - destruct (str_eqb k k') eqn:E; [|now apply IH]. apply str_eqb_eq in E. subst k'. elim N1. apply in_map_iff. now exists (k, v).
Qed.
Lemma dget_keys k (d : list (str * value)) : In k (dkeys d) <-> exists v, dget str_eqb k d = Some v.
Proof.
  split.
  - intro H. destruct (dget str_eqb k d) as [v|] eqn:E; [now exists v|]. apply dget_None in E; [contradiction|now apply str_keqb].
  - intros (v & E). eapply dget_Some_keys; [|exact E]. now apply str_keqb.
Qed.

Lemma rename_spec at_ f ks : forall d, NoDup (dkeys d) -> NoDup ks -> incl ks (dkeys d) ->
  (forall k, In k ks -> exists n, after_brace k = Ok n /\ f k = at_ ++ n) ->
  (forall k, In k ks -> ~ In (f k) (dkeys d)) ->
  (forall k k', In k ks -> In k' ks -> f k = f k' -> k = k') ->
  exists d', rename at_ ks d = Ok d' /\ NoDup (dkeys d') /\
    (forall k, In k ks -> dget str_eqb (f k) d' = dget str_eqb k d) /\
    (forall x, ~ In x ks -> (forall k, In k ks -> x <> f k) -> dget str_eqb x d' = dget str_eqb x d) /\
    (forall x, In x ks -> dget str_eqb x d' = None).
Proof.
  induction ks as [|k ks IH]; intros d N Nk Hi Hf Hn Hj.
  - exists d. repeat split; auto; intros x [].
  - apply NoDup_cons_iff in Nk as [Nk1 Nk2]. cbn [rename].
    destruct (Hf k (or_introl eq_refl)) as (n & En & Ef). rewrite En. cbn [bind].
    destruct (proj1 (dget_keys k d) (Hi k (or_introl eq_refl))) as (v & Ev). rewrite Ev. rewrite <- Ef.
    set (d1 := dset str_eqb (f k) v (ddel str_eqb k d)).
    assert (Kx : forall x, In x (dkeys d1) <-> x = f k \/ In x (dkeys d) /\ x <> k).
    { intro x. unfold d1. rewrite dkeys_dset_In by now apply str_keqb. now rewrite ddel_keys. }
    assert (Fk : f k <> k) by (intro C; apply (Hn k); [now left|rewrite C; apply Hi; now left]).
    assert (Gx : forall x, x <> f k -> x <> k -> dget str_eqb x d1 = dget str_eqb x d).
    { intros x H1 H2. unfold d1. rewrite dget_dset_other; [|now apply str_keqb|exact H1]. now apply ddel_other. }
    destruct (IH d1) as (d' & E' & N' & A1 & A2 & A3).
    + unfold d1. apply dset_NoDup; [now apply str_keqb|]. now apply ddel_NoDup.
    + exact Nk2.
    + intros x Hx. apply Kx. right. split; [apply Hi; now right|]. intros ->. contradiction.
    + intros x Hx. apply Hf. now right.
    + intros x Hx C. apply Kx in C as [C|[C _]]; [|revert C; apply Hn; now right].
      apply Hj in C; [subst; contradiction|now right|now left].
    + intros x y Hx Hy. apply Hj; now right.
    + exists d'. split; [exact E'|]. split; [exact N'|].
      assert (Fx : forall x, In x ks -> f k <> f x).
      { intros x Hx C. apply Hj in C; [subst; contradiction|now left|now right]. }
      assert (Fn : ~ In (f k) ks) by (intro C; apply (Hn k); [now left|apply Hi; now right]).
      split; [|split].
      * intros x [<-|Hx].
        -- rewrite A2 by auto. unfold d1. rewrite dget_dset_same by now apply str_keqb. now rewrite Ev.
        -- rewrite A1 by exact Hx. apply Gx; intros ->; contradiction.
      * intros x H1 H2. rewrite A2.
        -- apply Gx; [apply H2; now left|intros ->; apply H1; now left].
        -- intro C. apply H1. now right.
        -- intros y Hy. apply H2. now right.
      * intros x [<-|Hx]; [|now apply A3]. rewrite A2.
        -- unfold d1. rewrite dget_dset_other; [|now apply str_keqb|congruence].
           apply dget_None; [now apply str_keqb|]. intro C. apply ddel_keys in C; [|exact N]. now destruct C.
        -- exact Nk1.
        -- intros y Hy C. apply (Hn y); [now right|rewrite <- C; apply Hi; now left].
Qed.

(** the keys of a dictionary from a document: names, attributes and the text *)
Inductive doc_key : str -> Prop :=
| doc_element k n : local k n -> doc_key k
| doc_attribute a n : local a n -> doc_key ("@"%char :: a)
| doc_text : doc_key $"#text".

Lemma doc_brace k : doc_key k -> startswith $"{" k = true -> exists n, local k n /\ after_brace k = Ok n /\ newkey k = n.
Proof.
  intros H S. apply starts_brace in S as E. destruct E as (s & ->). inversion H as [k n L| |]; subst.
  exists n. split; [exact L|]. split; [now apply local_brace|]. now apply local_lp in L.
Qed.
Lemma doc_at_brace k : doc_key k -> startswith $"@{" k = true ->
  exists a n, k = "@"%char :: a /\ local a n /\ after_brace k = Ok n /\ newkey k = "@"%char :: n.
Proof.
  intros H S. apply starts_at_brace in S as (s & ->). inversion H as [k n L|a n L|]; subst.
  - exfalso. eapply local_not_at; [exact L|reflexivity].
  - eexists _, n. split; [reflexivity|]. split; [exact L|]. split.
    + cbn [after_brace]. change (Ascii.eqb "@" "}") with false. cbv iota. now apply (local_brace _ _ L).
    + rewrite newkey_at. f_equal. now apply local_lp.
Qed.
Lemma doc_plain k : doc_key k -> startswith $"{" k = false -> startswith $"@{" k = false -> newkey k = k.
Proof.
  intros H S1 S2. inversion H as [k' n L|a n L|]; subst; [| |reflexivity].
  - rewrite newkey_element by (intros s; eapply local_not_at; eauto).
    rewrite (local_lp _ _ L). symmetry. now apply local_unbraced.
  - rewrite newkey_at. f_equal. rewrite (local_lp _ _ L). symmetry. apply local_unbraced; [exact L|].
    destruct (startswith $"{" a) eqn:E; [|reflexivity]. apply starts_brace in E as (s & ->).
    assert (F : startswith $"@{" ("@"%char :: "{"%char :: s) = true) by (apply starts_at_brace; eauto).
    congruence.
Qed.
Lemma bare_unbraced n : bare n -> startswith $"{" n = false /\ startswith $"@{" n = false.
Proof.
  intro B. split; apply not_true_is_false; intro C.
  - apply starts_brace in C as (s & ->). elim (B _ _ eq_refl). now left.
  - apply starts_at_brace in C as (s & ->). elim (B _ _ eq_refl). right. now left.
Qed.

Lemma rename_keys_spec d : NoDup (dkeys d) -> Forall doc_key (dkeys d) ->
  (forall k k', In k (dkeys d) -> In k' (dkeys d) -> newkey k = newkey k' -> k = k') ->
  exists d', rename_keys d = Ok d' /\ NoDup (dkeys d') /\
    (forall k, In k (dkeys d) -> dget str_eqb (newkey k) d' = dget str_eqb k d) /\
    (forall x, (forall k, In k (dkeys d) -> x <> newkey k) -> dget str_eqb x d' = None).
Proof.
  intros N HF Hj. rewrite Forall_forall in HF. unfold rename_keys.
  set (ks := filter (startswith $"{") (dkeys d)).
  assert (Hks : forall k, In k ks <-> In k (dkeys d) /\ startswith $"{" k = true) by (intro; apply filter_In).
  destruct (rename_spec [] newkey ks d) as (d1 & E1 & N1 & A1 & A2 & A3); auto.
  { now apply NoDup_filter. }
  { intros k Hk. now apply Hks. }
  { intros k Hk. apply Hks in Hk as [Hk S]. destruct (doc_brace k (HF k Hk) S) as (n & _ & En & Ek). exists n. auto. }
  { intros k Hk C. apply Hks in Hk as [Hk S]. destruct (doc_brace k (HF k Hk) S) as (n & L & En & Ek).
    assert (B : newkey (newkey k) = newkey k).
    { rewrite Ek. apply local_bare_name in L. rewrite newkey_element; [now apply bare_lp|]. apply (bare_element_name _ L). }
    apply Hj in B; auto. rewrite Ek in B. apply local_bare_name, bare_unbraced in L. rewrite B in L. destruct L. congruence. }
  { intros k k' H H'. apply Hks in H, H'. apply Hj; tauto. }
  rewrite E1. cbn [bind].
  (* the keys after the first round *)
  assert (K1 : forall x, In x (dkeys d1) -> exists k, In k (dkeys d) /\
     (startswith $"{" k = true /\ x = newkey k \/ startswith $"{" k = false /\ x = k)).
  { intros x Hx. apply dget_keys in Hx as (v & Ev).
    destruct (in_dec str_eq_dec x ks) as [I|I]; [rewrite A3 in Ev by exact I; discriminate|].
    destruct (in_dec str_eq_dec x (map newkey ks)) as [J|J].
    - apply in_map_iff in J as (k & <- & J). exists k. apply Hks in J. tauto.
    - assert (Q : forall k, In k ks -> x <> newkey k) by (intros k Hk ->; apply J; now apply in_map).
      rewrite A2 in Ev by auto. exists x. assert (Hd : In x (dkeys d)) by (apply dget_keys; eauto). split; [exact Hd|].
      right. split; [|reflexivity]. apply not_true_is_false. intro S. apply I. now apply Hks. }
  assert (K2 : forall k, In k (dkeys d) -> startswith $"{" k = false -> dget str_eqb k d1 = dget str_eqb k d).
  { intros k Hk S. apply A2.
    - intro C. apply Hks in C as [_ C]. congruence.
    - intros j Hk' ->. apply Hks in Hk' as [Hk' S']. destruct (doc_brace j (HF j Hk') S') as (n & L & _ & Ek).
      assert (B : newkey (newkey j) = newkey j).
      { rewrite Ek. apply local_bare_name in L. rewrite newkey_element; [now apply bare_lp|]. apply (bare_element_name _ L). }
      apply Hj in B; auto. rewrite B in S. congruence. }
  set (ks2 := filter (startswith $"@{") (dkeys d1)).
  assert (Hks2 : forall k, In k ks2 <-> In k (dkeys d) /\ startswith $"@{" k = true).
  { intro k. unfold ks2. rewrite filter_In. split; intros [H S]; split; auto.
    - destruct (K1 k H) as (j & Hk & [[S' ->]|[_ ->]]); [|exact Hk].
      destruct (doc_brace j (HF j Hk) S') as (n & L & _ & Ek). apply local_bare_name, bare_unbraced in L as [_ L]. congruence.
    - apply dget_keys. rewrite K2; [now apply dget_keys|exact H|]. apply not_true_is_false. intro C.
      apply starts_brace in C as (s & ->). discriminate. }
  assert (At2 : forall k, In k ks2 -> startswith $"{" k = false).
  { intros k Hk. apply Hks2 in Hk as [_ S]. apply starts_at_brace in S as (s & ->). reflexivity. }
  destruct (rename_spec $"@" newkey ks2 d1) as (d2 & E2 & N2 & B1 & B2 & B3); auto.
  { now apply NoDup_filter. }
  { intros k Hk. unfold ks2 in Hk. now apply filter_In in Hk. }
  { intros k Hk. apply Hks2 in Hk as [Hk S]. destruct (doc_at_brace k (HF k Hk) S) as (a & n & -> & _ & En & Ek). exists n. auto. }
  { intros k Hk C. apply Hks2 in Hk as [Hk S]. destruct (doc_at_brace k (HF k Hk) S) as (a & n & E & L & En & Ek).
    rewrite Ek in C. apply local_bare_name in L as B.
    destruct (K1 _ C) as (j & Hkj & [[S' Ej]|[S' Ej]]).
    - destruct (doc_brace j (HF j Hkj) S') as (n' & L' & _ & Ek'). rewrite Ek' in Ej. apply local_bare_name in L'.
      elim (L' "@"%char n); [now rewrite <- Ej|]. right. now left.
    - assert (Q : newkey j = newkey k).
      { rewrite <- Ej, Ek, newkey_at. f_equal. now apply bare_lp. }
      apply Hj in Q; auto. subst j. rewrite E in Q. injection Q as Q. subst n. rewrite E in S.
      destruct (bare_unbraced a B) as [U _]. apply starts_at_brace in S as (s & S). injection S as ->. discriminate. }
  { intros k k' H H'. apply Hks2 in H, H'. apply Hj; tauto. }
  exists d2. split; [exact E2|]. split; [exact N2|].
  assert (G : forall k, In k (dkeys d) -> dget str_eqb (newkey k) d2 = dget str_eqb k d).
  { intros k Hk. destruct (startswith $"@{" k) eqn:S2.
    - rewrite B1 by now apply Hks2. apply K2; [exact Hk|]. apply At2. now apply Hks2.
    - rewrite B2.
      + destruct (startswith $"{" k) eqn:S1; [apply A1; now apply Hks|].
        rewrite doc_plain by auto. now apply K2.
      + intro C. apply Hks2 in C as [C S]. destruct (doc_at_brace _ (HF _ C) S) as (a & n & Ea & L & _ & _).
        destruct (startswith $"{" k) eqn:S1.
        * destruct (doc_brace k (HF k Hk) S1) as (n' & L' & _ & Ek). apply local_bare_name in L'.
          rewrite Ek in Ea. elim (L' "@"%char a); [exact Ea|]. right. now left.
        * rewrite doc_plain in S by auto. congruence.
      + intros k' Hk' C. apply Hks2 in Hk' as [Hk' S']. apply Hj in C; auto. subst. congruence. }
  split; [exact G|]. intros x Hx.
  destruct (dget str_eqb x d2) as [v|] eqn:Ev; [exfalso|reflexivity].
  destruct (in_dec str_eq_dec x ks2) as [I|I]; [rewrite B3 in Ev by exact I; discriminate|].
  assert (Q : forall k, In k ks2 -> x <> newkey k) by (intros k Hk; apply Hx; now apply Hks2).
  rewrite B2 in Ev by auto.
  destruct (K1 x) as (k & Hk & [[S ->]|[S ->]]); [apply dget_keys; eauto|now apply (Hx k)|].
  destruct (startswith $"@{" k) eqn:S2; [apply I; now apply Hks2|].
  apply (Hx k Hk). symmetry. now apply doc_plain; auto.
Qed.

(** ** Elements *)
(** what the dictionary of an element holds under a key *)
Definition look (attrib : list (str * str)) (text : option str) (children : list element) (k : str) : option value :=
  match k with
  | c :: a => if Ascii.eqb c "@" then option_map VStr (dget str_eqb a attrib)
              else if str_eqb k $"#text" then text_value text
              else one_or_list (map etree_value (children_named k children))
  | [] => one_or_list (map etree_value (children_named [] children))
  end.
Lemma look_at attrib text children a : look attrib text children ("@"%char :: a) = option_map VStr (dget str_eqb a attrib).
Proof. reflexivity. Qed.
Lemma look_text attrib text children : look attrib text children $"#text" = text_value text.
Proof. reflexivity. Qed.
Lemma look_child attrib text children k : element_name k ->
  look attrib text children k = one_or_list (map etree_value (children_named k children)).
Proof.
  intros [H1 H2]. unfold look. destruct k as [|c a]; [reflexivity|].
  destruct (Ascii.eqb c "@") eqn:E; [apply Ascii.eqb_eq in E; subst; now elim (H1 a)|].
  destruct (str_eqb (c :: a) $"#text") eqn:F; [|reflexivity]. apply str_eqb_eq in F. injection F as -> ->. now elim (H2 $"text").
Qed.

Lemma children_named_In k children c : In c (children_named k children) <-> In c children /\ tag_of c = k.
Proof.
  unfold children_named. rewrite filter_In. destruct (list_eq_dec ascii_dec (tag_of c) k); split; intros []; split; auto; discriminate.
Qed.

Lemma element_dict tag attrib text children : ~ (attrib = [] /\ children = []) -> NoDup (map fst attrib) ->
  Forall (fun c => element_name (tag_of c)) children ->
  exists d, etree_value (Element tag attrib text children) = VDict d /\ NoDup (dkeys d) /\
    forall k, dget str_eqb k d = look attrib text children k.
Proof.
  intros Hne Ha Hc. rewrite etree_shape by exact Hne. eexists. split; [reflexivity|]. cbv zeta. split.
  - assert (N1 : NoDup (dkeys (grouped children))).
    { unfold grouped, dkeys. rewrite map_map. cbn [fst].
      assert (G : forall kvs dd, NoDup (map fst dd) -> NoDup (map fst (fold_left append_to kvs dd))).
      { induction kvs as [|kv kvs IH]; intros dd N; [exact N|]. cbn [fold_left]. apply IH. unfold append_to.
        apply (dset_NoDup str_eqb); [now apply str_keqb|exact N]. }
      apply G. constructor. }
    assert (N2 : forall d, NoDup (dkeys d) -> NoDup (dkeys (with_attributes attrib d))).
    { clear. unfold with_attributes. induction attrib as [|kv attrib IH]; intros d N; [exact N|]. cbn [fold_left]. apply IH.
      apply dset_NoDup; [now apply str_keqb|exact N]. }
    destruct (text_value text); [apply dset_NoDup; [now apply str_keqb|]|]; auto.
  - assert (X : forall k, ~ element_name k -> dget str_eqb k (grouped children) = None).
    { intros k Hk. rewrite grouped_named. replace (children_named k children) with (@nil element); [reflexivity|].
      symmetry. unfold children_named. clear Hne Ha. induction Hc as [|c cs Hc' _ IH]; [reflexivity|]. cbn [filter].
      rewrite IH. destruct (list_eq_dec ascii_dec (tag_of c) k); [subst; contradiction|reflexivity]. }
    assert (D : forall k v d, k <> $"#text" ->
      dget str_eqb k (match v with Some v => dset str_eqb $"#text" v d | None => d end) = dget str_eqb k (d : record)).
    { intros k [v|] d Hk; [|reflexivity]. apply dget_dset_other; [now apply str_keqb|exact Hk]. }
    intro k. destruct k as [|c a].
    + rewrite D by discriminate. rewrite attributes_other by discriminate. apply grouped_named.
    + unfold look. destruct (Ascii.eqb c "@") eqn:E.
      * apply Ascii.eqb_eq in E. subst c. rewrite D by discriminate. rewrite attributes_at by exact Ha.
        destruct (dget str_eqb a attrib); [reflexivity|]. apply X. intros [C _]. now elim (C a).
      * assert (Hat : forall s, c :: a <> "@"%char :: s) by (intros s C; injection C as -> _; discriminate).
        destruct (str_eqb (c :: a) $"#text") eqn:F.
        -- apply str_eqb_eq in F. rewrite F in *. destruct (text_value text) eqn:T.
           ++ apply dget_dset_same. now apply str_keqb.
           ++ rewrite attributes_other by exact Hat. apply X. intros [_ C]. now elim (C $"text").
        -- rewrite D by (intro C; rewrite C, str_eqb_refl in F; discriminate).
           rewrite attributes_other by exact Hat. apply grouped_named.
Qed.

(** stripping the values of a dictionary or a list *)
Fixpoint strip_entries (d : list (str * value)) : result (list (str * value)) :=
  match d with
  | [] => Ok []
  | (k, x) :: d' => let* y := strip_namespace x in let* e := strip_entries d' in Ok ((k, y) :: e)
  end.
Fixpoint strip_all (l : list value) : result (list value) :=
  match l with [] => Ok [] | x :: l' => let* y := strip_namespace x in let* e := strip_all l' in Ok (y :: e) end.
Lemma strip_dict d : strip_namespace (VDict d) = let* d := strip_entries d in let* d := rename_keys d in Ok (VDict d).
Proof.
  cbn [strip_namespace]. match goal with |- bind (?g d) _ = _ => assert (E : forall d, g d = strip_entries d) end.
  { clear d. induction d as [|[k x] d IH]; [reflexivity|]. cbn [strip_entries]. now rewrite <- IH. }
  now rewrite E.
Qed.
Lemma strip_list l : strip_namespace (VList l) = let* l := strip_all l in Ok (VList l).
Proof.
  cbn [strip_namespace]. match goal with |- bind (?g l) _ = _ => assert (E : forall l, g l = strip_all l) end.
  { clear l. induction l as [|x l IH]; [reflexivity|]. cbn [strip_all]. now rewrite <- IH. }
  now rewrite E.
Qed.
Lemma strip_entries_spec d : (forall k v, In (k, v) d -> exists y, strip_namespace v = Ok y) ->
  exists d1, strip_entries d = Ok d1 /\ dkeys d1 = dkeys d /\
    forall k, match dget str_eqb k d with
              | Some v => exists y, strip_namespace v = Ok y /\ dget str_eqb k d1 = Some y
              | None => dget str_eqb k d1 = None
              end.
Proof.
  induction d as [|[k x] d IH]; intro H; [exists []; repeat split|]. cbn [strip_entries].
  destruct (H k x (or_introl eq_refl)) as (y & Ey). rewrite Ey. cbn [bind].
  destruct IH as (d1 & E1 & K1 & G1); [intros; eapply H; right; eassumption|]. rewrite E1. cbn [bind].
  eexists. split; [reflexivity|]. split; [cbn; f_equal; exact K1|]. intro j. cbn [dget].
  destruct (str_eqb j k); [eauto|apply G1].
Qed.

Definition done (c c' : element) : Prop := exists v, strip_namespace (etree_value c) = Ok v /\ same_value v (etree_value c').

Lemma done_children cs cs' : Forall2 done cs cs' -> cs <> [] ->
  exists v v1 v', one_or_list (map etree_value cs) = Some v /\ strip_namespace v = Ok v1 /\
    one_or_list (map etree_value cs') = Some v' /\ same_value v1 v'.
Proof.
  intros H Hne. inversion H as [|c c' l l' (v & E & S) Hl]; subst; [congruence|]. destruct Hl as [|c2 c2' l l' H2 Hl].
  - exists (etree_value c), v, (etree_value c'). repeat split; auto.
  - assert (G : forall l l', Forall2 done l l' -> exists ys, strip_all (map etree_value l) = Ok ys /\ Forall2 same_value ys (map etree_value l')).
    { clear. induction 1 as [|c c' l l' (v & E & S) _ (ys & Ey & Hy)]; [exists []; repeat constructor|].
      cbn [map strip_all]. rewrite E. cbn [bind]. rewrite Ey. cbn [bind]. eexists. split; [reflexivity|]. now constructor. }
    destruct (G _ _ H) as (ys & Ey & Hy). cbn [map one_or_list] in *.
    eexists _, (VList ys), _. split; [reflexivity|]. split; [|split; [reflexivity|now constructor]].
    rewrite strip_list, Ey. reflexivity.
Qed.

Lemma named_forall2 k n children children' : Forall2 without_namespaces children children' -> local k n ->
  (forall c, In c children -> local (tag_of c) n -> tag_of c = k) ->
  Forall2 without_namespaces (children_named k children) (children_named n children').
Proof.
  intros H L. induction H as [|c c' cs cs' Hc _ IH]; intro Hu; [constructor|].
  unfold children_named. cbn [filter]. fold (children_named k cs). fold (children_named n cs').
  assert (IH' := IH (fun d Hd => Hu d (or_intror Hd))).
  assert (T : local (tag_of c) (tag_of c')) by (destruct Hc; assumption).
  destruct (list_eq_dec ascii_dec (tag_of c) k) as [E|E], (list_eq_dec ascii_dec (tag_of c') n) as [E'|E'].
  - now constructor.
  - exfalso. apply E'. rewrite E in T. apply local_lp in T, L. congruence.
  - exfalso. apply E. apply Hu; [now left|]. now rewrite <- E'.
  - exact IH'.
Qed.

Lemma attrib_get attrib attrib' : Forall2 (fun a a' : str * str => local (fst a) (fst a') /\ snd a = snd a') attrib attrib' ->
  NoDup (map fst attrib') -> NoDup (map fst attrib) /\
  (forall a s, dget str_eqb a attrib = Some s -> exists n, local a n /\ dget str_eqb n attrib' = Some s) /\
  (forall n s, dget str_eqb n attrib' = Some s -> exists a, local a n /\ dget str_eqb a attrib = Some s) /\
  (forall a b, In a (map fst attrib) -> In b (map fst attrib) -> lp a = lp b -> a = b).
Proof.
  induction 1 as [|[a s] [n s'] at_ at_' [L E] HF IH]; intro N.
  - repeat split; [constructor|discriminate|discriminate|intros a b []].
  - cbn [map fst snd] in *. subst s'. apply NoDup_cons_iff in N as [N1 N2]. destruct (IH N2) as (I1 & I2 & I3 & I4).
    assert (M : forall b, In b (map fst at_) -> exists m, local b m /\ In m (map fst at_')).
    { clear -HF. induction HF as [|[a s] [n s'] l l' [L E] _ IH]; intros b; [intros []|]. cbn [map fst] in *.
      intros [<-|H]; [exists n; split; [exact L|now left]|]. destruct (IH b H) as (m & ? & ?). exists m. split; [assumption|now right]. }
    assert (Q : forall b, In b (map fst at_) -> lp b <> n).
    { intros b Hb C. destruct (M b Hb) as (m & Lm & Hm). apply local_lp in Lm. congruence. }
    assert (Na : ~ In a (map fst at_)) by (intro C; apply (Q a C); now apply local_lp).
    split; [|split; [|split]].
    + now constructor.
    + intros b t. cbn [dget]. destruct (str_eqb b a) eqn:F.
      * apply str_eqb_eq in F. subst b. intro G. injection G as <-. exists n. split; [exact L|]. now rewrite str_eqb_refl.
      * intro G. destruct (I2 b t G) as (m & Lm & Gm). exists m. split; [exact Lm|].
        destruct (str_eqb m n) eqn:F'; [|exact Gm]. apply str_eqb_eq in F'. subst m. exfalso. apply (Q b).
        -- apply (dget_Some_keys str_eqb) in G; [exact G|now apply str_keqb].
        -- now apply local_lp.
    + intros m t. cbn [dget]. destruct (str_eqb m n) eqn:F.
      * apply str_eqb_eq in F. subst m. intro G. injection G as <-. exists a. split; [exact L|]. now rewrite str_eqb_refl.
      * intro G. destruct (I3 m t G) as (b & Lb & Gb). exists b. split; [exact Lb|].
        destruct (str_eqb b a) eqn:F'; [|exact Gb]. apply str_eqb_eq in F'. subst b. exfalso.
        apply local_lp in L, Lb. rewrite <- L, Lb, str_eqb_refl in F. discriminate.
    + apply local_lp in L. intros b c [<-|Hb] [<-|Hc] E; auto.
      * exfalso. apply (Q c Hc). congruence.
      * exfalso. apply (Q b Hb). congruence.
Qed.

Lemma namespaces_done t : forall u, without_namespaces t u -> done t u.
Proof.
  induction t as [tag attrib text children IH] using element_ind2. intros u H.
  inversion H as [? tag' ? attrib' ? ? children' Ht Ha Hd Hc Hu]; subst.
  assert (D : (attrib = [] /\ children = []) \/ ~ (attrib = [] /\ children = [])).
  { destruct attrib, children; [left; auto|right..]; intros [? ?]; discriminate. }
  destruct D as [[-> ->]|Hne].
  - inversion Ha; subst. inversion Hc; subst. unfold done. rewrite !xml_leaf. destruct text as [[|]|]; eexists; (split; [reflexivity|constructor]).
  - assert (Hne' : ~ (attrib' = [] /\ children' = [])).
    { intros [-> ->]. apply Hne. inversion Ha. inversion Hc. auto. }
    destruct (attrib_get _ _ Ha Hd) as (Na & G1 & G2 & G3).
    assert (Loc : forall c, In c children -> exists n, local (tag_of c) n).
    { clear -Hc. induction Hc as [|c c' cs cs' W _ IH]; intros d; [intros []|].
      intros [<-|Hd]; [|now apply IH]. destruct W. eauto. }
    assert (Loc' : forall c', In c' children' -> exists c, In c children /\ local (tag_of c) (tag_of c')).
    { clear -Hc. induction Hc as [|c c' cs cs' W _ IH]; intros d; [intros []|].
      intros [<-|Hd]; [exists c; split; [now left|destruct W; assumption]|].
      destruct (IH d Hd) as (e & ? & ?). exists e. split; [now right|assumption]. }
    destruct (element_dict tag attrib text children Hne Na) as (d & Ed & Nd & Gd).
    { apply Forall_forall. intros c Hin. destruct (Loc c Hin) as (n & L). eapply local_element_name; eauto. }
    destruct (element_dict tag' attrib' text children' Hne' Hd) as (d' & Ed' & Nd' & Gd').
    { apply Forall_forall. intros c' Hin. destruct (Loc' c' Hin) as (c & _ & L). eapply bare_element_name, local_bare_name; eauto. }
    (* what is found under a key *)
    assert (Key : forall k v, dget str_eqb k d = Some v ->
      exists v1 v', doc_key k /\ strip_namespace v = Ok v1 /\ dget str_eqb (newkey k) d' = Some v' /\ same_value v1 v' /\
        ((exists a, k = "@"%char :: a /\ In a (map fst attrib)) \/ k = $"#text" \/ (exists c, In c children /\ tag_of c = k))).
    { intros k v E. rewrite Gd in E.
      assert (Cs : (exists a, k = "@"%char :: a) \/ k = $"#text" \/ look attrib text children k = one_or_list (map etree_value (children_named k children))).
      { unfold look in *. destruct k as [|c a]; [auto|]. destruct (Ascii.eqb c "@") eqn:E1; [apply Ascii.eqb_eq in E1; subst; eauto|].
        destruct (str_eqb (c :: a) $"#text") eqn:E2; [apply str_eqb_eq in E2; auto|auto]. }
      destruct Cs as [(a & ->)|[->|Cs]].
      - rewrite look_at in E. destruct (dget str_eqb a attrib) as [s|] eqn:Es; [|discriminate]. injection E as <-.
        destruct (G1 a s Es) as (n & L & En). exists (VStr s), (VStr s). split; [now apply (doc_attribute a n)|].
        split; [reflexivity|]. split; [rewrite newkey_at, (local_lp _ _ L), Gd', look_at, En; reflexivity|]. split; [constructor|].
        left. exists a. split; [reflexivity|]. apply (dget_Some_keys str_eqb) in Es; [exact Es|now apply str_keqb].
      - rewrite look_text in E. exists v, v. split; [constructor|]. split.
        + unfold text_value in E. destruct text as [s|]; [|discriminate]. destruct (strip s); [discriminate|]. injection E as <-. reflexivity.
        + split; [change (newkey $"#text") with $"#text"; now rewrite Gd', look_text|]. split; [constructor|auto].
      - rewrite Cs in E. destruct (children_named k children) as [|c cs] eqn:Ec; [discriminate|].
        assert (Hin : In c children /\ tag_of c = k) by (apply children_named_In; rewrite Ec; now left). destruct Hin as [Hin Hk].
        destruct (Loc c Hin) as (n & L). rewrite Hk in L.
        assert (W : Forall2 without_namespaces (children_named k children) (children_named n children')).
        { apply (named_forall2 k n _ _ Hc L). intros e He Le. rewrite <- Hk. apply (Hu e c n); auto. now rewrite Hk. }
        assert (Dn : Forall2 done (children_named k children) (children_named n children')).
        { rewrite Forall_forall in IH. assert (P : forall e, In e (children_named k children) -> forall u, without_namespaces e u -> done e u)
            by (intros e He; apply IH; now apply children_named_In in He).
          clear -W P. induction W as [|e e' l l' He _ IHl]; constructor; [apply P; [now left|exact He]|].
          apply IHl. intros f Hf. apply P. now right. }
        rewrite <- Ec in E. destruct (done_children _ _ Dn) as (w & v1 & v' & E1 & E2 & E3 & E4); [rewrite Ec; discriminate|].
        rewrite E1 in E. injection E as <-. exists v1, v'. split; [now apply (doc_element k n)|]. split; [exact E2|].
        split; [|split; [exact E4|right; right; eauto]].
        rewrite newkey_element by (intro s; eapply local_not_at; eauto). rewrite (local_lp _ _ L), Gd', look_child; [exact E3|].
        eapply bare_element_name, local_bare_name; eauto. }
    destruct (strip_entries_spec d) as (d1 & E1 & K1 & S1).
    { intros k v Hin. apply dget_In_iff in Hin; [|exact Nd]. destruct (Key k v Hin) as (v1 & ? & _ & ? & _). eauto. }
    destruct (rename_keys_spec d1) as (d2 & E2 & N2 & R1 & R2).
    { now rewrite K1. }
    { rewrite K1. apply Forall_forall. intros k Hk. apply dget_keys in Hk as (v & Hk). now destruct (Key k v Hk) as (? & ? & ? & _). }
    { rewrite K1. intros k k' Hk Hk' E. apply dget_keys in Hk as (v & Hk), Hk' as (v' & Hk').
      destruct (Key k v Hk) as (_ & _ & _ & _ & _ & _ & Ck). destruct (Key k' v' Hk') as (_ & _ & _ & _ & _ & _ & Ck').
      assert (NE : forall c, In c children -> exists n, local (tag_of c) n /\ newkey (tag_of c) = n).
      { intros c Hin. destruct (Loc c Hin) as (n & L). exists n. split; [exact L|].
        rewrite newkey_element by (intro s; eapply local_not_at; eauto). now apply local_lp. }
      destruct Ck as [(a & -> & Hka)|[->|(c & Hin & <-)]], Ck' as [(b & -> & Hkb)|[->|(c' & Hin' & <-)]].
      - rewrite !newkey_at in E. injection E as E. f_equal. now apply G3.
      - discriminate.
      - destruct (NE c' Hin') as (n & L & En). rewrite newkey_at, En in E. apply local_bare_name in L.
        elim (L _ _ (eq_sym E)). right. now left.
      - discriminate.
      - reflexivity.
      - destruct (NE c' Hin') as (n & L & En). change (newkey $"#text") with $"#text" in E. rewrite En in E. apply local_bare_name in L.
        elim (L _ _ (eq_sym E)). right. right. now left.
      - destruct (NE c Hin) as (n & L & En). rewrite newkey_at, En in E. apply local_bare_name in L.
        elim (L _ _ E). right. now left.
      - destruct (NE c Hin) as (n & L & En). change (newkey $"#text") with $"#text" in E. rewrite En in E. apply local_bare_name in L.
        elim (L _ _ E). right. right. now left.
      - destruct (NE c Hin) as (n & L & En), (NE c' Hin') as (n' & L' & En'). apply (Hu c c' n); auto. congruence. }
    exists (VDict d2). rewrite Ed, Ed', strip_dict, E1. cbn [bind]. rewrite E2. cbn [bind]. split; [reflexivity|].
    apply same_dict; auto.
    + intros x w Hin. apply dget_In_iff in Hin; [|exact N2].
      destruct (in_dec str_eq_dec x (map newkey (dkeys d1))) as [I|I].
      * apply in_map_iff in I as (k & <- & I). rewrite R1 in Hin by exact I. specialize (S1 k).
        destruct (dget str_eqb k d) as [v|] eqn:Ev; [|rewrite S1 in Hin; discriminate].
        destruct S1 as (y & Ey & Gy). rewrite Gy in Hin. injection Hin as <-.
        destruct (Key k v Ev) as (v1 & v' & _ & Es & Ek & Sm & _). rewrite Es in Ey. injection Ey as <-.
        exists v'. split; [|exact Sm]. apply dget_In_iff; auto.
      * rewrite R2 in Hin; [discriminate|]. intros k Hk ->. apply I. now apply in_map.
    + intros x w Hin. apply dget_In_iff in Hin; [|exact Nd']. rewrite Gd' in Hin.
      assert (B : exists k v, dget str_eqb k d = Some v /\ newkey k = x).
      { assert (Cs : (exists a, x = "@"%char :: a) \/ x = $"#text" \/ look attrib' text children' x = one_or_list (map etree_value (children_named x children'))).
        { unfold look in *. destruct x as [|c a]; [auto|]. destruct (Ascii.eqb c "@") eqn:F1; [apply Ascii.eqb_eq in F1; subst; eauto|].
          destruct (str_eqb (c :: a) $"#text") eqn:F2; [apply str_eqb_eq in F2; auto|auto]. }
        destruct Cs as [(a & ->)|[->|Cs]].
        - rewrite look_at in Hin. destruct (dget str_eqb a attrib') as [s|] eqn:Es; [|discriminate].
          destruct (G2 a s Es) as (b & L & Eb). exists ("@"%char :: b), (VStr s).
          split; [rewrite Gd, look_at, Eb; reflexivity|]. rewrite newkey_at. f_equal. now apply local_lp.
        - rewrite look_text in Hin. exists $"#text", w. split; [now rewrite Gd, look_text|reflexivity].
        - rewrite Cs in Hin. destruct (children_named x children') as [|c' cs] eqn:Ec; [discriminate|].
          assert (Hin' : In c' children' /\ tag_of c' = x) by (apply children_named_In; rewrite Ec; now left).
          destruct Hin' as [Hin' <-]. destruct (Loc' c' Hin') as (c & Hcc & L).
          assert (Nm : In c (children_named (tag_of c) children)) by (now apply children_named_In).
          assert (V : exists v, one_or_list (map etree_value (children_named (tag_of c) children)) = Some v).
          { destruct (children_named (tag_of c) children) as [|e [|]]; [destruct Nm|eexists; reflexivity..]. }
          destruct V as (v & V). exists (tag_of c), v. split.
          + rewrite Gd, look_child; [exact V|eapply local_element_name; eauto].
          + rewrite newkey_element by (intro s; eapply local_not_at; eauto). now apply local_lp. }
      destruct B as (k & v & Ev & <-). change (In (newkey k) (dkeys d2)). apply dget_keys.
      assert (Hk : In k (dkeys d1)) by (rewrite K1; apply dget_keys; eauto). rewrite R1 by exact Hk. now apply dget_keys.
Qed.

Lemma xml_namespaces t u : without_namespaces t u ->
  exists v, strip_namespace (etree_to_dict t) = Ok (VDict [(tag_of u, v)]) /\ same_value v (etree_value u).
Proof.
  intro H. destruct (namespaces_done t u H) as (v & E & S). exists v. split; [|exact S].
  unfold etree_to_dict. rewrite strip_dict. cbn [strip_entries]. rewrite E. cbn [bind].
  assert (L : local (tag_of t) (tag_of u)) by (destruct H; assumption).
  unfold rename_keys. cbn [dkeys map fst filter]. destruct (startswith $"{" (tag_of t)) eqn:B.
  - cbn [rename]. rewrite (local_brace _ _ L B). cbn [bind dget]. rewrite str_eqb_refl. cbn [ddel]. rewrite str_eqb_refl.
    cbn [app dset map fst filter]. apply local_bare_name, bare_unbraced in L as [_ L]. cbn [bind dkeys map fst filter]. rewrite L. reflexivity.
  - pose proof (local_unbraced _ _ L B) as ET. pose proof (local_bare_name _ _ L) as BB. apply bare_unbraced in BB as [_ BB].
    rewrite ET. cbn [rename bind dkeys map fst filter]. rewrite BB. reflexivity.
Qed.

Lemma xml_blob_namespaces parse unzstd unlzma zip XML parquet depth read_blob name data t u :
  file_with_extension $".xml" name -> read_blob name = Ok data -> XML data = Ok t -> without_namespaces t u ->
  exists v, blob_records parse unzstd (other_decoder parse unzstd unlzma zip (Some XML) parquet depth) read_blob pass_thru
      pass_thru_filter None name = [VDict [(tag_of u, v)]] /\ same_value v (etree_value u).
Proof.
  intros Hx Hr Hp Ht. destruct (xml_namespaces t u Ht) as (v & E & S). exists v. split; [|exact S].
  assert (D : decode parse unzstd (other_decoder parse unzstd unlzma zip (Some XML) parquet depth) $".xml" data
              = Some (map_gen (xml (Some XML)) [data] None)) by (unfold decode; destruct depth; reflexivity).
  cbn [map_gen xml] in D. rewrite Hp in D. cbn [bind] in D. rewrite E in D.
  exact (blob_decoded _ _ _ _ _ _ _ _ _ Hx Hr D).
Qed.
