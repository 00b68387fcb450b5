(** Proofs about the partitions a stream writer writes to. *)
From Coq Require Import Permutation Sorted.
From Verif.Base Require Import Py PyFacts.
From Verif.Model Require Import Paths Frames Writers Stream.
From Verif.Spec Require Import Paths Writers Stream.
From Verif.Proofs Require Import Paths Writers Stream.
From Verif.Proofs Require Frames.

Inductive gtok := GL (s : str) | GP (name : str).
Definition gtext (t : gtok) : str := match t with GL s => s | GP n => $"{" ++ n ++ $"}" end.
Definition gall (l : list gtok) : str := concat (map gtext l).
Definition gok (l : list gtok) : Prop :=
  (forall s, In (GL s) l -> ~ In "{"%char s) /\ (forall n, In (GP n) l -> no_braces n).
Definition gsub (k v : str) (t : gtok) : gtok :=
  match t with GP n => if str_eqb k n then GL v else t | _ => t end.

Lemma until_brace k n (t u : str) : ~ In "}"%char k -> ~ In "}"%char n ->
  k ++ "}"%char :: t = n ++ "}"%char :: u -> k = n.
Proof.
  revert n; induction k as [|c k IH]; intros [|d n] Hk Hn; cbn.
  - auto.
  - intros [= <- _]. exfalso. apply Hn. left; auto.
  - intros [= -> _]. exfalso. apply Hk. left; auto.
  - intros [= <- E]. f_equal. apply IH; auto; intros H; [apply Hk|apply Hn]; right; auto.
Qed.

Lemma replace_g k v l : no_braces k -> gok l ->
  replace ($"{" ++ k ++ $"}") v (gall l) = gall (map (gsub k v) l).
Proof.
  intros [K1 K2]. unfold gall. change ($"{" ++ k ++ $"}") with ("{"%char :: k ++ $"}").
  induction l as [|t l IH]; intros [O1 O2]; [reflexivity|].
  assert (O: gok l) by (split; intros; [apply O1|apply O2]; right; auto).
  cbn [map concat]. destruct t as [s|n]; cbn [gtext gsub].
  - rewrite replace_skip by (apply O1; left; auto). now rewrite IH.
  - destruct (str_eqb_reflect k n) as [<-|N].
    + change ($"{" ++ k ++ $"}") with ("{"%char :: k ++ $"}").
      rewrite replace_here by discriminate. cbn [gtext]. now rewrite IH.
    + destruct (O2 n (or_introl eq_refl)) as [N1 N2].
      change ($"{" ++ n ++ $"}") with ("{"%char :: n ++ $"}"). cbn [gtext].
      change ($"{" ++ n ++ $"}") with ("{"%char :: n ++ $"}").
      cbn [app]. rewrite replace_cons by discriminate.
      replace (startswith _ _) with false.
      * f_equal. rewrite replace_skip; [now rewrite IH|].
        intros H. apply in_app_iff in H. destruct H as [H|[H|[]]]; [auto|discriminate].
      * symmetry. apply not_true_iff_false. intros H. apply startswith_iff in H. destruct H as [t H].
        injection H as H. rewrite <- !app_assoc in H. cbn in H. symmetry in H. apply until_brace in H; auto.
Qed.
Lemma gsub_ok k v l : ~ In "{"%char v -> gok l -> gok (map (gsub k v) l).
Proof.
  intros V [O1 O2]. split; intros x H; apply in_map_iff in H; destruct H as (t & E & Ht);
    destruct t as [s|n]; cbn in E.
  - injection E as <-. auto.
  - destruct (str_eqb k n); [injection E as <-; auto|discriminate].
  - discriminate.
  - destruct (str_eqb k n); [discriminate|injection E as <-; auto].
Qed.

(** a piece after date_format *)
Definition ptok (d : moment) (p : piece) : gtok :=
  match p with Date g => GL (seg_value d g) | Field n => GP n end.
Definition rawtok (p : piece) : gtok :=
  match p with
  | Date (Lit s) => GL s | Date Year => GP $"yyyy" | Date Month => GP $"mm" | Date Day => GP $"dd"
  | Date Hour => GP $"HH" | Date Minute => GP $"MM" | Date Second => GP $"SS" | Field n => GP n
  end.
Lemma rawtok_text p : piece_text p = gtext (rawtok p).
Proof. destruct p as [[]|]; reflexivity. Qed.

Lemma raw_ok ps : pieces_ok ps -> gok (map rawtok ps).
Proof.
  intros [P1 P2]. split; intros x H; apply in_map_iff in H; destruct H as (p & E & Hp).
  - destruct p as [[]|]; try discriminate. cbn in E. injection E as <-. apply P1; auto.
  - destruct p as [[]|]; try discriminate; cbn in E; injection E as <-;
      try (split; simpl; intuition discriminate). apply P2; auto.
Qed.
Lemma date_format_pieces ps d : pieces_ok ps ->
  date_format (stream_template ps) d = gall (map (ptok d) ps).
Proof.
  intros P. unfold date_format, stream_template.
  assert (D: forall n, ~ In "{"%char (dec n)) by (intros n; apply digits_no_brace; apply dec_digits).
  assert (Q: forall w n, ~ In "{"%char (dec_pad w n)) by (intros w n; apply digits_no_brace; apply dec_pad_digits).
  replace (concat (map piece_text ps)) with (gall (map rawtok ps))
    by (unfold gall; rewrite map_map; f_equal; apply map_ext; intros; symmetry; apply rawtok_text).
  pose proof (raw_ok ps P) as O.
  assert (K: forall k, In k [$"yyyy"; $"mm"; $"dd"; $"HH"; $"MM"; $"SS"] -> no_braces k)
    by (intros k; cbn; intros H; repeat (destruct H as [<-|H]; [split; simpl; intuition discriminate|]); destruct H).
  change $"{yyyy}" with ($"{" ++ $"yyyy" ++ $"}"). rewrite replace_g by (auto; apply K; cbn; tauto).
  change $"{mm}" with ($"{" ++ $"mm" ++ $"}"). rewrite replace_g by (repeat apply gsub_ok; auto; apply K; cbn; tauto).
  change $"{dd}" with ($"{" ++ $"dd" ++ $"}"). rewrite replace_g by (repeat apply gsub_ok; auto; apply K; cbn; tauto).
  change $"{HH}" with ($"{" ++ $"HH" ++ $"}"). rewrite replace_g by (repeat apply gsub_ok; auto; apply K; cbn; tauto).
  change $"{MM}" with ($"{" ++ $"MM" ++ $"}"). rewrite replace_g by (repeat apply gsub_ok; auto; apply K; cbn; tauto).
  change $"{SS}" with ($"{" ++ $"SS" ++ $"}"). rewrite replace_g by (repeat apply gsub_ok; auto; apply K; cbn; tauto).
  unfold gall. rewrite !map_map. f_equal. apply map_ext_in. intros p Hp.
  destruct p as [[]|n]; try reflexivity. cbn [rawtok ptok].
  destruct P as [_ P2]. destruct (P2 n Hp) as (_ & _ & N).
  assert (X: forall k, In k [$"yyyy"; $"mm"; $"dd"; $"HH"; $"MM"; $"SS"] -> forall v, gsub k v (GP n) = GP n).
  { intros k Hk v. cbn. destruct (str_eqb_reflect k n); auto. subst. contradiction. }
  rewrite !X by (cbn; tauto). reflexivity.
Qed.

Lemma ptok_ok ps d : pieces_ok ps -> gok (map (ptok d) ps).
Proof.
  intros [P1 P2]. split; intros x H; apply in_map_iff in H; destruct H as (p & E & Hp).
  - destruct p as [g|]; [|discriminate]. cbn in E. injection E as <-. destruct g; cbn [seg_value];
      try (apply digits_no_brace; apply dec_digits); try (apply digits_no_brace; apply dec_pad_digits).
    apply P1; auto.
  - destruct p; [discriminate|]. injection E as <-. apply P2; auto.
Qed.

(** findall *)
Fixpoint gnames (l : list gtok) : list str :=
  match l with [] => [] | GL _ :: l' => gnames l' | GP n :: l' => n :: gnames l' end.
Lemma upto_brace_name n r : ~ In "}"%char n -> ~ In "010"%char n ->
  upto_brace (n ++ "}"%char :: r) = Some (n, r).
Proof.
  induction n as [|c n IH]; intros H1 H2; cbn [app upto_brace]; auto.
  destruct (Ascii.eqb_spec c "}"); [exfalso; apply H1; left; auto|].
  destruct (Ascii.eqb_spec c "010"); [exfalso; apply H2; left; auto|].
  rewrite IH; auto; intros H; [apply H1|apply H2]; right; auto.
Qed.
Lemma findall_skip s r : forall f, ~ In "{"%char s -> findall_fuel (length s + f) (s ++ r) = findall_fuel f r.
Proof.
  induction s as [|c s IH]; intros f H; cbn [app length Nat.add findall_fuel]; auto.
  destruct (Ascii.eqb_spec c "{"); [exfalso; apply H; left; auto|]. apply IH. intros H'. apply H. right; auto.
Qed.
Lemma findall_g l : forall f, gok l -> (forall n, In (GP n) l -> ~ In "010"%char n) ->
  (length (gall l) <= f)%nat -> findall_fuel f (gall l) = gnames l.
Proof.
  unfold gall. induction l as [|t l IH]; intros f [O1 O2] NL L; cbn [map concat gnames].
  - destruct f; reflexivity.
  - assert (O: gok l) by (split; intros; [apply O1|apply O2]; right; auto).
    assert (NL': forall n, In (GP n) l -> ~ In "010"%char n) by (intros; apply NL; right; auto).
    cbn [map concat] in L. rewrite app_length in L. destruct t as [s|n]; cbn [gtext] in *.
    + replace f with (length s + (f - length s))%nat by lia.
      rewrite findall_skip by (apply O1; left; auto). apply IH; auto. lia.
    + destruct (O2 n (or_introl eq_refl)) as [N1 N2]. rewrite !app_length in L. cbn in L.
      destruct f as [|f]; [lia|]. cbn [app findall_fuel list_ascii_of_string].
      change (Ascii.eqb "{" "{") with true. cbv iota. rewrite <- app_assoc. cbn [app].
      rewrite upto_brace_name by (auto; apply NL; left; auto). f_equal. apply IH; auto. lia.
Qed.

(** substitution *)
Definition gfin {V} (f : V -> str) (names : list str) (c : list V) (t : gtok) : str :=
  match t with
  | GL s => s
  | GP n => match chosen names c n with Some v => f v | None => $"{" ++ n ++ $"}" end
  end.
Lemma substitute_g {V} (f : V -> str) (names : list str) : forall (c : list V) l,
  (forall v, ~ In "{"%char (f v)) -> (forall n, In n names -> no_braces n) -> gok l ->
  fold_left (fun s kv => replace ($"{" ++ fst kv ++ $"}") (f (snd kv)) s) (combine names c) (gall l)
  = concat (map (gfin f names c) l).
Proof.
  induction names as [|k names IH]; intros c l F N O.
  - reflexivity.
  - destruct c as [|v c]; cbn [combine fold_left fst snd].
    + reflexivity.
    + rewrite replace_g by (auto; apply N; left; auto).
      rewrite IH; [|auto|intros; apply N; right; auto|apply gsub_ok; auto].
      rewrite map_map. f_equal. apply map_ext. intros [s|n]; cbn; auto.
      destruct (str_eqb k n); reflexivity.
Qed.

Lemma Forall2_len {A B} (Q : A -> B -> Prop) l l' : Forall2 Q l l' -> length l = length l'.
Proof. induction 1; cbn; auto. Qed.
Lemma product_In {V} (ls : list (list V)) : forall c, In c (product ls) <-> Forall2 (fun l v => In v l) ls c.
Proof.
  induction ls as [|l ls IH]; intros c; cbn.
  - split; [intros [<-|[]]; constructor|intros H; inversion H; auto].
  - rewrite in_flat_map. split.
    + intros (x & Hx & H). apply in_map_iff in H. destruct H as (y & <- & Hy). constructor; auto. now apply IH.
    + intros H. inversion H; subst. exists y. split; auto. apply in_map_iff. exists l'. split; auto. now apply IH.
Qed.
Lemma Forall2_map_l {A B C} (P : B -> C -> Prop) (f : A -> B) l l' :
  Forall2 P (map f l) l' <-> Forall2 (fun a c => P (f a) c) l l'.
Proof.
  revert l'; induction l as [|a l IH]; intros l'; cbn; split; intros H; inversion H; subst; constructor; auto; now apply IH.
Qed.
Lemma chosen_Some {V} (names : list str) : forall (c : list V) n, length c = length names -> In n names ->
  exists v, chosen names c n = Some v.
Proof.
  induction names as [|m names IH]; intros [|v c] n L Hn; try discriminate; [destruct Hn|].
  cbn. destruct (str_eqb_reflect m n); [eauto|]. apply IH; [cbn in L; lia|]. destruct Hn; [contradiction|auto].
Qed.
Lemma gnames_In l n : In n (gnames l) <-> In (GP n) l.
Proof.
  induction l as [|[s|m] l IH]; cbn [gnames In]; [tauto| |].
  - rewrite IH. split; [auto|]. intros [H|H]; [discriminate|auto].
  - rewrite IH. split; intros [H|H]; auto; left; congruence.
Qed.
Lemma sanitize_chars s c : In c (sanitize s) -> valid_character c = true.
Proof. intros H. apply filter_In in H. tauto. Qed.
Lemma sanitize_no s c : valid_character c = false -> ~ In c (sanitize s).
Proof. intros E H. apply sanitize_chars in H. congruence. Qed.

Section Targets.
  Context {R V : Type} (M : streaming R V) (ps : list piece).
  Hypothesis S : sets_ok M.
  Hypothesis T : m_template M = stream_template ps.
  Hypothesis P : pieces_ok ps.

  Definition suffix_of (r : R) : str := if m_valid M r then [] else $"/BACKOUT/".
  Definition value_in (names : list str) (c : list V) (n : str) : str :=
    match chosen names c n with Some v => sanitize (m_show M v) | None => [] end.

  Lemma targets_eq r now :
    exists names combos,
      NoDup names /\ (forall n, In n names <-> In (Field n) ps) /\
      NoDup combos /\ (forall c, In c combos <-> Forall2 (fun n v => In v (m_get M r n)) names c) /\
      targets M r now = map (fun c => partition_of ps now (value_in names c) ++ suffix_of r) combos.
  Proof.
    destruct S as [SN ST].
    set (l := map (ptok now) ps ++ if m_valid M r then [] else [GL $"/BACKOUT/"]).
    assert (Ei: identity M r now = gall l).
    { unfold identity, l. rewrite T, date_format_pieces by auto. unfold gall.
      destruct (m_valid M r); rewrite ?app_nil_r; auto.
      rewrite map_app, concat_app. cbn. now rewrite ?app_nil_r. }
    assert (O: gok l).
    { destruct (ptok_ok ps now P) as [O1 O2]. unfold l. split; intros x H; apply in_app_iff in H.
      - destruct H as [H|H]; [auto|]. destruct (m_valid M r); [destruct H|destruct H as [H|[]]].
        injection H as <-. simpl. intuition discriminate.
      - destruct H as [H|H]; [auto|]. destruct (m_valid M r); [destruct H|destruct H as [H|[]]]. discriminate. }
    assert (IP: forall n, In (GP n) l <-> In (Field n) ps).
    { intros n. unfold l. rewrite in_app_iff, in_map_iff. split.
      - intros [(p & E & Hp)|H].
        + destruct p; [discriminate|]. injection E as <-. auto.
        + destruct (m_valid M r); [destruct H|destruct H as [H|[]]]; discriminate.
      - intros H. left. exists (Field n). auto. }
    assert (Ef: findall_placeholders (identity M r now) = gnames l).
    { unfold findall_placeholders. rewrite Ei. apply findall_g; auto. intros n Hn. apply IP in Hn. apply P; auto. }
    unfold targets. rewrite Ef. set (names := m_names M (gnames l)).
    destruct (SN (gnames l)) as [NN NI]. fold names in NN, NI.
    assert (NF: forall n, In n names <-> In (Field n) ps) by (intros n; rewrite NI, gnames_In; apply IP).
    assert (Fin: forall c, length c = length names ->
      concat (map (gfin (fun v => sanitize (m_show M v)) names c) l) =
      partition_of ps now (value_in names c) ++ suffix_of r).
    { intros c L. unfold l, partition_of, suffix_of. rewrite map_app, concat_app, map_map. f_equal.
      - f_equal. apply map_ext_in. intros p Hp. destruct p as [g|n]; cbn [ptok gfin piece_value]; auto.
        unfold value_in. destruct (chosen_Some names c n L) as [v ->]; auto. now apply NF.
      - destruct (m_valid M r); reflexivity. }
    destruct names as [|n0 names0] eqn:En.
    - exists [], [[]]. split; [constructor|]. split; [exact NF|].
      split; [constructor; [intros []|constructor]|]. split.
      + intros c. split; [intros [<-|[]]; constructor|]. intros H. inversion H. left; auto.
      + cbn [map]. rewrite <- (Fin []) by auto. rewrite Ei. reflexivity.
    - rewrite <- En in *. set (combos := m_tuples M (product (map (m_get M r) names))).
      destruct (ST (product (map (m_get M r) names))) as [CN CI]. fold combos in CN, CI.
      assert (CI': forall c, In c combos <-> Forall2 (fun n v => In v (m_get M r n)) names c).
      { intros c. rewrite CI, product_In. apply Forall2_map_l. }
      exists names, combos. split; [auto|]. split; [auto|]. split; [auto|]. split; [auto|].
      apply map_ext_in. intros c Hc. unfold substitute.
      rewrite <- Fin.
      + rewrite <- (substitute_g (fun v => sanitize (m_show M v)) names c l).
        * rewrite Ei. reflexivity.
        * intros v. apply sanitize_no. reflexivity.
        * intros n Hn. apply O. apply IP. now apply NF.
        * exact O.
      + apply CI' in Hc. symmetry. eapply Forall2_len; eauto.
  Qed.
End Targets.

(** ** Depth *)
Definition dotless (w : str) : Prop := exists c, In c w /\ c <> "."%char.
(** [split] of a partition, component by component *)
Definition grows (w w' : str) : Prop := dotless w -> dotless w'.

(** how split works on a concatenation: the last component of [a] and the first of [b] are glued *)
Definition glue (a b : list str) : list str :=
  match b with
  | [] => a
  | y :: b' => removelast a ++ (last a [] ++ y) :: b'
  end.
Lemma split_glue c a b : split c (a ++ b) = glue (split c a) (split c b).
Proof.
  induction a as [|d a IH].
  - cbn [app split]. pose proof (split_nonempty c b). destruct (split c b); [congruence|]. reflexivity.
  - pose proof (split_nonempty c a) as Na. pose proof (split_nonempty c b) as Nb.
    cbn [app]. destruct (Ascii.eqb_spec c d) as [->|N].
    + cbn [split]. rewrite Ascii.eqb_refl. rewrite IH. destruct (split d b); [congruence|].
      destruct (split d a); [congruence|]. reflexivity.
    + cbn [split]. rewrite (proj2 (Ascii.eqb_neq c d) N). rewrite IH.
      destruct (split c b) as [|y b']; [congruence|]. destruct (split c a) as [|x [|x' a']]; [congruence| |]; reflexivity.
Qed.
Lemma Forall2_last {A} (Q : A -> A -> Prop) a b d : a <> [] -> Forall2 Q a b ->
  Forall2 Q (removelast a) (removelast b) /\ Q (last a d) (last b d) /\ b <> [].
Proof.
  intros N H. induction H as [|x y a b Hxy H IH]; [congruence|].
  destruct H as [|x' y' a b Hx' H]; [split; [constructor|split; [exact Hxy|discriminate]]|].
  destruct IH as (I1 & I2 & _); [discriminate|].
  split; [|split; [|discriminate]].
  - change (Forall2 Q (x :: removelast (x' :: a)) (y :: removelast (y' :: b))). constructor; auto.
  - exact I2.
Qed.
Lemma grows_app a a' b b' : grows a a' -> grows b b' -> grows (a ++ b) (a' ++ b').
Proof.
  intros H1 H2 (c & Hc & N). apply in_app_iff in Hc. destruct Hc as [Hc|Hc].
  - destruct H1 as (d & Hd & Nd); [exists c; auto|]. exists d. split; auto. apply in_app_iff; auto.
  - destruct H2 as (d & Hd & Nd); [exists c; auto|]. exists d. split; auto. apply in_app_iff; auto.
Qed.
Lemma glue_grows a a' b b' : a <> [] -> Forall2 grows a a' -> Forall2 grows b b' -> Forall2 grows (glue a b) (glue a' b').
Proof.
  intros N Ha Hb. destruct (Forall2_last _ _ _ [] N Ha) as (H1 & H2 & _).
  destruct Hb as [|y y' b b' Hy Hb]; cbn; auto. apply Forall2_app; auto. constructor; auto. apply grows_app; auto.
Qed.
Lemma grows_refl_list l : Forall2 grows l l.
Proof. induction l; constructor; auto. intros H; exact H. Qed.

Lemma partition_split ps d v0 v :
  (forall n, ~ In "/"%char (v0 n)) -> (forall n, ~ In "/"%char (v n)) ->
  (forall n, grows (v0 n) (v n)) ->
  Forall2 grows (split "/"%char (partition_of ps d v0)) (split "/"%char (partition_of ps d v)).
Proof.
  intros N0 N1 G. unfold partition_of. induction ps as [|p ps IH]; cbn [map concat]; [apply grows_refl_list|].
  rewrite !split_glue. apply glue_grows; [apply split_nonempty| |exact IH].
  destruct p as [g|n]; cbn [piece_value]; [apply grows_refl_list|].
  rewrite !split_single by auto. constructor; auto.
Qed.
Lemma dotless_component w : dotless w -> real_part w = true /\ w <> $"..".
Proof.
  intros (c & Hc & N). split.
  - unfold real_part. apply andb_true_iff. split; apply negb_true_iff, str_eqb_neq; intros ->; cbn in Hc; intuition.
  - intros ->. cbn in Hc. intuition.
Qed.
Lemma depth_same ps d v0 v :
  (forall n, ~ In "/"%char (v0 n)) -> (forall n, ~ In "/"%char (v n)) ->
  (forall n, grows (v0 n) (v n)) -> solid (partition_of ps d v0) ->
  length (components_of (partition_of ps d v)) = length (components_of (partition_of ps d v0)) /\
  ~ In $".." (components_of (partition_of ps d v)) /\
  relative (partition_of ps d v).
Proof.
  intros N0 N1 G S. pose proof (partition_split ps d v0 v N0 N1 G) as F. unfold solid in S.
  assert (A: forall w, In w (split "/"%char (partition_of ps d v)) -> dotless w).
  { remember (split "/"%char (partition_of ps d v0)) as l0. remember (split "/"%char (partition_of ps d v)) as l1.
    clear -F S. induction F as [|x y l l' Hxy F IH]; intros w; [intros []|].
    intros [<-|Hw]; [apply Hxy; destruct (S x (or_introl eq_refl)) as (c & ?); exists c; auto|].
    apply IH; auto. intros u Hu. apply S. right; auto. }
  assert (E1: components_of (partition_of ps d v) = split "/"%char (partition_of ps d v)).
  { apply filter_all. intros w Hw. apply A in Hw. apply dotless_component in Hw. apply Hw. }
  assert (E0: components_of (partition_of ps d v0) = split "/"%char (partition_of ps d v0)).
  { apply filter_all. intros w Hw. destruct (S w Hw) as (c & ?). apply dotless_component. exists c; auto. }
  rewrite E1, E0. split; [symmetry; eapply Forall2_len; eauto|]. split.
  - intros H. apply A in H. apply dotless_component in H. tauto.
  - intros r Er. specialize (A []). rewrite Er in A. cbn [split] in A.
    rewrite Ascii.eqb_refl in A. destruct A as (c & [] & _). left; auto.
Qed.
