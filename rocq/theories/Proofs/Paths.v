(** Lemmas about paths and templates. *)
From Verif.Base Require Import Py PyFacts.
From Verif.Model Require Import Paths.
From Verif.Spec Require Import Paths.

(** ** Templates *)
Inductive ph := PY | PM | PD | PH | PMi | PS | PStem.
Definition ph_text (p : ph) : str :=
  match p with PY => $"{yyyy}" | PM => $"{mm}" | PD => $"{dd}" | PH => $"{HH}" | PMi => $"{MM}"
             | PS => $"{SS}" | PStem => $"{stem}" end.
Definition ph_eqb (a b : ph) : bool :=
  match a, b with PY, PY | PM, PM | PD, PD | PH, PH | PMi, PMi | PS, PS | PStem, PStem => true | _, _ => false end.
Inductive tok := TL (s : str) | TP (p : ph).
Definition tok_text t := match t with TL s => s | TP p => ph_text p end.
Definition toks_text l := concat (map tok_text l).
Definition toks_ok l := forall s, In (TL s) l -> ~ In "{"%char s.
Definition tsub (p : ph) (v : str) (t : tok) : tok :=
  match t with TP q => if ph_eqb p q then TL v else t | _ => t end.

Lemma replace_toks p v l : toks_ok l ->
  replace (ph_text p) v (toks_text l) = toks_text (map (tsub p v) l).
Proof.
  unfold toks_text. induction l as [|t l IH]; intros Hok; [destruct p; reflexivity|].
  cbn [map concat]. assert (Hok': toks_ok l) by (intros s H; apply Hok; right; exact H).
  destruct t as [s|q]; cbn [tok_text tsub].
  - assert (Hs: ~ In "{"%char s) by (apply Hok; left; reflexivity).
    rewrite <- IH by auto. destruct p; apply replace_skip; exact Hs.
  - rewrite <- IH by auto. destruct (ph_eqb p q) eqn:E.
    + assert (p = q) as <- by (destruct p, q; try discriminate E; reflexivity).
      cbn [tok_text]. apply replace_here. destruct p; discriminate.
    + cbn [tok_text].
      assert (G: exists r, ph_text q = "{"%char :: r /\ ~ In "{"%char r /\
                forall u, startswith (ph_text p) (("{"%char :: r) ++ u) = false).
      { destruct p, q; try discriminate E; eexists; (split; [reflexivity|]);
          (split; [simpl; intuition discriminate|reflexivity]). }
      destruct G as (r & -> & Hr & Hst). cbn [app]. rewrite replace_cons by (destruct p; discriminate).
      change ("{"%char :: r ++ concat (map tok_text l)) with (("{"%char :: r) ++ concat (map tok_text l)).
      rewrite Hst. f_equal. destruct p; apply replace_skip; exact Hr.
Qed.

Definition seg_tok (g : seg) : tok :=
  match g with Lit s => TL s | Year => TP PY | Month => TP PM | Day => TP PD
             | Hour => TP PH | Minute => TP PMi | Second => TP PS end.
Lemma template_toks t : template_text t = toks_text (map seg_tok t).
Proof. unfold template_text, toks_text. rewrite map_map. f_equal. apply map_ext. intros []; reflexivity. Qed.
Lemma template_toks_ok t : template_ok t -> toks_ok (map seg_tok t).
Proof.
  intros H s Hs. apply in_map_iff in Hs. destruct Hs as (g & E & Hg).
  destruct g; try discriminate E. injection E as <-. apply (H s0 Hg).
Qed.
Lemma digits_no_brace s : (forall c, In c s -> is_digit c = true) -> ~ In "{"%char s.
Proof. intros H Hi. apply H in Hi. discriminate Hi. Qed.
Lemma tsub_ok p v l : ~ In "{"%char v -> toks_ok l -> toks_ok (map (tsub p v) l).
Proof.
  intros Hv Hl s Hs. apply in_map_iff in Hs. destruct Hs as (g & E & Hg).
  destruct g as [s'|q]; cbn in E.
  - injection E as <-. auto.
  - destruct (ph_eqb p q); [injection E as <-; auto|discriminate].
Qed.

Lemma date_format_fill t d : template_ok t -> date_format (template_text t) d = fill t d.
Proof.
  intros Ht. unfold date_format. rewrite template_toks.
  pose proof (template_toks_ok t Ht) as Hok.
  assert (D: forall n, ~ In "{"%char (dec n)) by (intros n; apply digits_no_brace; apply dec_digits).
  assert (P: forall w n, ~ In "{"%char (dec_pad w n)) by (intros w n; apply digits_no_brace; apply dec_pad_digits).
  change $"{yyyy}" with (ph_text PY). rewrite replace_toks by auto.
  change $"{mm}" with (ph_text PM). rewrite replace_toks by (repeat apply tsub_ok; auto).
  change $"{dd}" with (ph_text PD). rewrite replace_toks by (repeat apply tsub_ok; auto).
  change $"{HH}" with (ph_text PH). rewrite replace_toks by (repeat apply tsub_ok; auto).
  change $"{MM}" with (ph_text PMi). rewrite replace_toks by (repeat apply tsub_ok; auto).
  change $"{SS}" with (ph_text PS). rewrite replace_toks by (repeat apply tsub_ok; auto).
  unfold toks_text, fill. rewrite !map_map. f_equal. apply map_ext. intros []; reflexivity.
Qed.

Lemma fill_no_brace t d : template_ok t -> ~ In "{"%char (fill t d).
Proof.
  intros Ht Hi. unfold fill in Hi. apply in_concat in Hi. destruct Hi as (s & Hs & Hi).
  apply in_map_iff in Hs. destruct Hs as (g & <- & Hg). destruct g; cbn [seg_value] in Hi.
  - destruct (Ht s Hg); auto.
  - apply dec_digits in Hi. discriminate Hi.
  - apply dec_pad_digits in Hi. discriminate Hi.
  - apply dec_pad_digits in Hi. discriminate Hi.
  - apply dec_pad_digits in Hi. discriminate Hi.
  - apply dec_pad_digits in Hi. discriminate Hi.
  - apply dec_pad_digits in Hi. discriminate Hi.
Qed.

Lemma no_brace_contains r s : ~ In "{"%char s -> contains ("{"%char :: r) s = false.
Proof.
  intros H. destruct (contains ("{"%char :: r) s) eqn:E; auto.
  apply contains_iff in E. destruct E as (a & b & ->). exfalso. apply H.
  apply in_app_iff. right. left. reflexivity.
Qed.

Lemma last_slash s : skipn (length (s ++ $"/") - 1) (s ++ $"/") = $"/".
Proof.
  rewrite app_length. cbn [length list_ascii_of_string].
  replace (length s + 1 - 1)%nat with (length s) by lia.
  rewrite skipn_app, skipn_all, Nat.sub_diag. reflexivity.
Qed.

Lemma build_path_template rnd t d : template_ok t ->
  build_path rnd (template_text t ++ $"/") d = Ok (fill t d ++ $"/").
Proof.
  intros Ht. unfold build_path.
  destruct (template_text t ++ $"/") as [|c0 r0] eqn:E; [destruct (template_text t); discriminate|].
  rewrite <- E. rewrite last_slash. cbn [str_eqb list_eqb]. unfold bind.
  replace (str_eqb $"/" $"/") with true by reflexivity. cbv iota beta.
  assert (Ht': template_ok (t ++ [Lit $"/"])).
  { intros s Hs. apply in_app_iff in Hs. destruct Hs as [Hs|[Hs|[]]]; [apply Ht; auto|].
    injection Hs as <-. split; simpl; intuition discriminate. }
  assert (E': template_text t ++ $"/" = template_text (t ++ [Lit $"/"])).
  { unfold template_text. rewrite map_app, concat_app. cbn [map concat seg_text]. reflexivity. }
  rewrite E', date_format_fill by auto.
  rewrite replace_none; [|discriminate|].
  - f_equal. unfold fill. rewrite map_app, concat_app. reflexivity.
  - apply no_brace_contains, fill_no_brace. exact Ht'.
Qed.

(** *** filling is injective in the day *)
Lemma concat_inj_len {A} (a b : list (list A)) :
  Forall2 (fun x y => length x = length y) a b -> concat a = concat b -> a = b.
Proof.
  induction 1 as [|x y a b Hl H IH]; auto. cbn [concat]. intros E.
  assert (x = y /\ concat a = concat b) as [-> Ec].
  { revert y Hl E. induction x as [|c x IHx]; intros [|d y] Hl E; try discriminate Hl; auto.
    injection E as -> E. injection Hl as Hl. destruct (IHx y Hl E) as [-> ?]. auto. }
  f_equal; auto.
Qed.

Lemma seg_length_month d d' g : plausible d -> plausible d' -> g <> Year ->
  length (seg_value d g) = length (seg_value d' g).
Proof.
  intros (A & B & C & D & E) (A' & B' & C' & D' & E') Hg.
  destruct g; cbn [seg_value]; try congruence; rewrite !dec_pad_length; auto; try lia;
    change (10 ^ N.of_nat 2)%N with 100%N; assumption.
Qed.

Lemma fill_length t d d' : plausible d -> plausible d' -> In Year t ->
  length (fill t d) = length (fill t d') -> length (dec (year d)) = length (dec (year d')).
Proof.
  intros Hd Hd' Hy.
  set (a := length (dec (year d))). set (b := length (dec (year d'))).
  assert (G: forall t, (a < b -> length (fill t d) <= length (fill t d') /\ (In Year t -> length (fill t d) < length (fill t d')))%nat
                    /\ (b < a -> length (fill t d') <= length (fill t d) /\ (In Year t -> length (fill t d') < length (fill t d)))%nat).
  { clear t Hy. induction t as [|g t [IH1 IH2]].
    - unfold fill. cbn [map concat length In]. split; intros; (split; [lia|intros []]).
    - unfold fill in *. cbn [map concat In]. rewrite !app_length.
      assert (Hdec: {g = Year} + {g <> Year}) by (destruct g; auto; right; discriminate).
      destruct Hdec as [->|Hne].
      + cbn [seg_value]. fold a b. split; intros Hl; [destruct (IH1 Hl)|destruct (IH2 Hl)]; split; intros; lia.
      + rewrite (seg_length_month d d' g Hd Hd' Hne).
        split; intros Hl; [destruct (IH1 Hl) as [X Y]|destruct (IH2 Hl) as [X Y]]; (split; [lia|]);
          (intros [->|Hin]; [congruence|specialize (Y Hin); lia]). }
  intros E. destruct (G t) as [G1 G2]. destruct (Nat.lt_trichotomy a b) as [Hl|[He|Hl]]; auto.
  - destruct (G1 Hl) as [_ X]. specialize (X Hy). lia.
  - destruct (G2 Hl) as [_ X]. specialize (X Hy). lia.
Qed.

Lemma fill_inj t d d' : plausible d -> plausible d' -> In Year t -> fill t d = fill t d' ->
  forall g, In g t -> seg_value d g = seg_value d' g.
Proof.
  intros Hd Hd' Hy E.
  pose proof (fill_length t d d' Hd Hd' Hy (f_equal (@length _) E)) as Hl.
  assert (F2: Forall2 (fun x y : str => length x = length y) (map (seg_value d) t) (map (seg_value d') t)).
  { clear E Hy. induction t as [|g t IH]; constructor; auto.
    destruct g; try (apply seg_length_month; auto; discriminate). exact Hl. }
  pose proof (concat_inj_len _ _ F2 E) as Em. clear -Em. intros g Hg.
  induction t as [|h t IH]; [destruct Hg|]. cbn [map] in Em. injection Em as E1 E2.
  destruct Hg as [->|Hg]; auto.
Qed.

Lemma fill_same_day t d d' : day_template t -> plausible d -> plausible d' ->
  fill t d = fill t d' -> same_day d d'.
Proof.
  intros (_ & Hy & Hm & Hdd) Hd Hd' E. pose proof (fill_inj t d d' Hd Hd' Hy E) as G. split; [|split].
  - apply dec_inj. exact (G Year Hy).
  - apply (dec_pad_inj 2). exact (G Month Hm).
  - apply (dec_pad_inj 2). exact (G Day Hdd).
Qed.

(** *** and stays so after pathlib's normalisation *)
Definition sim (a b : str) : Prop := a = b \/ (real_part a = true /\ real_part b = true).
Definition has_digit (a : str) := exists c, In c a /\ is_digit c = true.
Lemma has_digit_real a : has_digit a -> real_part a = true.
Proof.
  intros (c & Hc & Hd). unfold real_part. apply andb_true_iff. rewrite !negb_true_iff, !str_eqb_neq.
  split; intros ->; [destruct Hc|]. destruct Hc as [<-|[]]. discriminate Hd.
Qed.

Lemma dec_has_digit n x : has_digit (dec n ++ x).
Proof.
  pose proof (dec_nonempty n). destruct (dec n) as [|c s] eqn:E; [congruence|].
  exists c. split; [left; auto|]. apply (dec_digits n). rewrite E. left. auto.
Qed.
Lemma dec_pad_has_digit w n x : has_digit (dec_pad w n ++ x).
Proof.
  unfold dec_pad, pad_left. rewrite <- app_assoc.
  destruct (dec_has_digit n x) as (c & Hc & Hd). exists c. split; auto. apply in_app_iff. auto.
Qed.

Definition simD (a b : str) : Prop := a = b \/ (has_digit a /\ has_digit b).

Lemma split_fill_sim t d d' : Forall2 simD (split "/"%char (fill t d)) (split "/"%char (fill t d')).
Proof.
  unfold fill. induction t as [|g t IH]; cbn [map concat].
  - repeat constructor.
  - assert (G: forall v v', ~ In "/"%char v -> ~ In "/"%char v' ->
       (forall x, has_digit (v ++ x)) -> (forall x, has_digit (v' ++ x)) ->
       Forall2 simD (split "/"%char (v ++ concat (map (seg_value d) t)))
                    (split "/"%char (v' ++ concat (map (seg_value d') t)))).
    { intros v v' Hv Hv' D D'. rewrite (split_prefix _ v), (split_prefix _ v') by auto.
      destruct IH as [|w w' l l' Hw Hl]; [constructor|]. constructor; auto. right. auto. }
    assert (N1: forall n, ~ In "/"%char (dec n)) by (intros n H; apply dec_digits in H; discriminate H).
    assert (N2: forall w n, ~ In "/"%char (dec_pad w n)) by (intros w n H; apply dec_pad_digits in H; discriminate H).
    destruct g; cbn [seg_value]; try (solve [apply G; auto using dec_has_digit, dec_pad_has_digit]).
    induction s as [|c s IHs]; cbn [app]; auto. cbn [split].
    destruct (Ascii.eqb "/"%char c); [constructor; auto; left; auto|].
    destruct IHs as [|w w' l l' Hw Hl]; [constructor; auto; left; auto|].
    constructor; auto. destruct Hw as [->|[(x & Hx & Dx) (y & Hy & Dy)]]; [left; auto|right].
    split; [exists x|exists y]; simpl; auto.
Qed.

Lemma filter_sim a b : Forall2 simD a b -> filter real_part a = filter real_part b -> a = b.
Proof.
  induction 1 as [|x y a b Hs H IH]; auto. cbn [filter]. destruct Hs as [->|[Hx Hy]].
  - destruct (real_part y); intros E; f_equal; auto. injection E; auto.
  - rewrite (has_digit_real x Hx), (has_digit_real y Hy). intros E. injection E as -> E. f_equal. auto.
Qed.

Lemma fill_root t d d' : template_ok t -> In Year t -> pp_root (fill t d ++ $"/") = pp_root (fill t d' ++ $"/").
Proof.
  (* up to the first placeholder the texts agree, and there they both have a digit *)
  intros _ Hy.
  assert (G: exists a c e c' e', fill t d = a ++ c :: e /\ fill t d' = a ++ c' :: e' /\ is_digit c = true /\ is_digit c' = true).
  { unfold fill. induction t as [|g t IH]; [destruct Hy|]. cbn [map concat].
    assert (S: forall v v' x x', (forall n : str, has_digit (v ++ n)) -> True -> v <> [] -> v' <> [] ->
      (forall c, In c v -> is_digit c = true) -> (forall c, In c v' -> is_digit c = true) ->
      exists a c e c' e', v ++ x = a ++ c :: e /\ v' ++ x' = a ++ c' :: e' /\ is_digit c = true /\ is_digit c' = true).
    { intros [|c v] [|c' v'] x x' _ _ N N' Dv Dv'; try congruence.
      exists [], c, (v ++ x), c', (v' ++ x'). repeat split; [apply Dv|apply Dv']; left; auto. }
    assert (NP: forall w n, dec_pad w n <> []).
    { intros w n E. unfold dec_pad, pad_left in E. apply app_eq_nil in E. destruct E as [_ E].
      exact (dec_nonempty n E). }
    destruct g; cbn [seg_value];
      try (solve [apply S; auto using dec_has_digit, dec_pad_has_digit, dec_nonempty; intros; solve [eapply dec_digits; eauto | eapply dec_pad_digits; eauto]]).
    destruct Hy as [Hy|Hy]; [discriminate|].
    destruct (IH Hy) as (a & c & e & c' & e' & -> & -> & D & D').
    exists (s ++ a), c, e, c', e'. rewrite <- !app_assoc. auto. }
  destruct G as (a & c & e & c' & e' & -> & -> & D & D').
  assert (NS: forall x, is_digit x = true -> Ascii.eqb "/"%char x = false).
  { intros x Hx. destruct (Ascii.eqb_spec "/"%char x) as [<-|]; try discriminate Hx; auto. }
  rewrite <- !app_assoc. unfold pp_root.
  destruct a as [|a1 [|a2 [|a3 a]]]; cbn [app startswith list_ascii_of_string];
    rewrite ?(NS c D), ?(NS c' D'); cbn [andb]; reflexivity.
Qed.

Lemma pp_str_inj p q : fst p = fst q -> pp_str p = pp_str q ->
  (forall c, In c (snd p) -> component c) -> (forall c, In c (snd q) -> component c) -> snd p = snd q.
Proof.
  destruct p as [r a], q as [r' b]. cbn [fst snd]. intros <- E Ha Hb.
  assert (S: forall l, (forall c, In c l -> component c) -> forall w, In w l -> ~ In "/"%char w)
    by (intros l Hl w Hw; apply Hl; auto).
  assert (J: forall a b, a <> [] -> b <> [] -> (forall c, In c a -> component c) -> (forall c, In c b -> component c) ->
             join $"/" a = join $"/" b -> a = b).
  { intros x y Hx Hy Cx Cy Exy. apply (f_equal (split "/"%char)) in Exy.
    rewrite !split_join in Exy; auto; apply S; auto. }
  assert (N: forall c l, (forall x, In x (c :: l) -> component x) -> join $"/" (c :: l) <> []).
  { intros c l H. destruct (H c (or_introl eq_refl)) as (H1 & _). destruct l; cbn [join]; auto.
    intros X. apply app_eq_nil in X. tauto. }
  assert (Dn: forall c l, (forall x, In x (c :: l) -> component x) -> join $"/" (c :: l) <> $".").
  { intros c l H X. destruct (H c (or_introl eq_refl)) as (H1 & H2 & H3). destruct l as [|c2 l]; cbn [join] in X; auto.
    destruct c as [|x [|y c]]; try congruence; discriminate X. }
  destruct a as [|a0 a], b as [|b0 b]; auto.
  - exfalso. destruct r; cbn [pp_str] in E.
    + cbn [app] in E. eapply Dn; eauto.
    + apply app_inv_head in E. cbn [join] in E. symmetry in E. eapply N; eauto.
  - exfalso. destruct r; cbn [pp_str] in E.
    + cbn [app] in E. symmetry in E. eapply Dn; eauto.
    + apply app_inv_head in E. cbn [join] in E. eapply N; eauto.
  - apply J; auto; try discriminate.
    destruct r; cbn [pp_str] in E; [exact E|]. apply app_inv_head in E. exact E.
Qed.

Lemma parse_components s c : In c (snd (pp_parse s)) -> component c.
Proof.
  cbn [pp_parse snd]. rewrite filter_In. intros [Hc Hr]. unfold real_part in Hr.
  apply andb_true_iff in Hr. rewrite !negb_true_iff, !str_eqb_neq in Hr. destruct Hr.
  split; [auto|split; [auto|]]. eapply split_no_sep; eauto.
Qed.

Lemma split_snoc_slash s : split "/"%char (s ++ $"/") = split "/"%char s ++ [[]].
Proof.
  destruct (split_app "/"%char s $"/") as (pre & x & y & post & H1 & H2 & H3).
  cbn in H2. injection H2 as <- <-. rewrite H3, H1, app_nil_r, <- app_assoc. reflexivity.
Qed.

Lemma cycle_path_template rnd t d : template_ok t ->
  cycle_path rnd (template_text t ++ $"/") d = Ok (pp_str (pp_parse (fill t d ++ $"/"))).
Proof. intros Ht. unfold cycle_path. rewrite build_path_template by auto. reflexivity. Qed.

Lemma cycle_same_fill t d d' : day_template t ->
  pp_str (pp_parse (fill t d ++ $"/")) = pp_str (pp_parse (fill t d' ++ $"/")) ->
  fill t d = fill t d'.
Proof.
  intros (Ht & Hy & _) E.
  assert (Er: fst (pp_parse (fill t d ++ $"/")) = fst (pp_parse (fill t d' ++ $"/"))).
  { cbn [pp_parse fst]. apply fill_root; auto. }
  pose proof (pp_str_inj _ _ Er E (parse_components _) (parse_components _)) as Es.
  cbn [pp_parse snd] in Es. rewrite !split_snoc_slash, !filter_app in Es.
  cbn [filter real_part str_eqb list_eqb negb andb] in Es. rewrite !app_nil_r in Es.
  apply filter_sim in Es; [|apply split_fill_sim].
  rewrite <- (join_split "/"%char (fill t d)), Es, join_split. reflexivity.
Qed.

Lemma same_day_fill t d d' : same_day d d' ->
  (forall g, In g t -> g <> Hour /\ g <> Minute /\ g <> Second) -> fill t d = fill t d'.
Proof.
  intros (A & B & C) Hg. unfold fill. f_equal. apply map_ext_in. intros g Hin.
  destruct (Hg g Hin) as (H1 & H2 & H3). destruct g; cbn [seg_value]; congruence.
Qed.

(** ** get_parts *)
Lemma rfind_dot_from_none i s f : ~ In "."%char s -> rfind_dot_from i s f = f.
Proof.
  revert i f. induction s as [|c s IH]; intros i f H; auto. cbn [rfind_dot_from].
  destruct (Ascii.eqb_spec c "."%char) as [->|]; [exfalso; apply H; left; auto|].
  apply IH. intros X. apply H. right. auto.
Qed.

Lemma stem_suffix_app name : fst (stem_suffix name) ++ snd (stem_suffix name) = name.
Proof.
  unfold stem_suffix. destruct (rfind_dot name) as [i|]; [|apply app_nil_r].
  destruct ((0 <? i)%nat && (i <? length name - 1)%nat); cbn [fst snd]; [apply firstn_skipn|apply app_nil_r].
Qed.
Lemma no_ext_suffix name : no_extension name -> stem_suffix name = (name, []).
Proof. intros H. unfold stem_suffix, rfind_dot. rewrite rfind_dot_from_none by auto. reflexivity. Qed.

Lemma component_real c : component c -> real_part c = true.
Proof.
  intros (H1 & H2 & _). unfold real_part. rewrite andb_true_iff, !negb_true_iff, !str_eqb_neq. auto.
Qed.

Lemma parse_join l : (forall c, In c l -> component c) -> pp_parse (join $"/" l) = ([], l).
Proof.
  intros H. destruct l as [|c l]; [reflexivity|]. unfold pp_parse.
  change ($"/") with ["/"%char]. rewrite split_join; [|discriminate|intros w Hw; apply (H w Hw)].
  rewrite filter_all by (intros x Hx; apply component_real; auto).
  f_equal. unfold pp_root.
  destruct (H c (or_introl eq_refl)) as (N & _ & S).
  destruct c as [|c0 c]; [congruence|].
  assert (Hc: Ascii.eqb "/"%char c0 = false).
  { destruct (Ascii.eqb_spec "/"%char c0) as [<-|]; auto. exfalso. apply S. left. auto. }
  destruct l as [|l0 l]; cbn [join app startswith list_ascii_of_string]; rewrite Hc; reflexivity.
Qed.

Lemma pp_str_join l : l <> [] -> pp_str ([], l) = join $"/" l.
Proof. destruct l; [congruence|reflexivity]. Qed.

Lemma relative_root s : relative s -> pp_root s = [].
Proof.
  intros H. destruct s as [|c s]; auto. unfold pp_root.
  assert (Hc: Ascii.eqb "/"%char c = false).
  { destruct (Ascii.eqb_spec "/"%char c) as [<-|]; auto. exfalso. exact (H s eq_refl). }
  cbn [startswith list_ascii_of_string]. rewrite Hc. reflexivity.
Qed.

Lemma components_of_component s c : In c (components_of s) -> component c.
Proof. intros H. apply (parse_components s c H). Qed.

Lemma components_join l : (forall c, In c l -> component c) -> components_of (join $"/" l) = l.
Proof. intros H. change (components_of (join $"/" l)) with (snd (pp_parse (join $"/" l))). rewrite parse_join; auto. Qed.

Lemma components_app_slash a b : components_of (a ++ $"/" ++ b) = components_of a ++ components_of b.
Proof.
  unfold components_of. rewrite <- filter_app. f_equal.
  induction a as [|c a IH]; cbn [app list_ascii_of_string].
  - cbn [split]. rewrite Ascii.eqb_refl. reflexivity.
  - cbn [split]. destruct (Ascii.eqb "/"%char c); cbn [app] in *; [f_equal; exact IH|].
    change ("/"%char :: b) with ($"/" ++ b). rewrite IH.
    pose proof (split_nonempty "/"%char a). destruct (split "/"%char a); [congruence|]. reflexivity.
Qed.

Lemma components_single c : component c -> components_of c = [c].
Proof. intros H. apply (components_join [c]). intros x [<-|[]]; auto. Qed.

Lemma app_assoc_slash a b : (a ++ $"/") ++ b = a ++ $"/" ++ b.
Proof. rewrite <- app_assoc. reflexivity. Qed.

Lemma components_pp_str l : (forall c, In c l -> component c) -> components_of (pp_str ([], l)) = l.
Proof.
  intros H. destruct l as [|c l]; [reflexivity|]. rewrite pp_str_join by discriminate. apply components_join. auto.
Qed.

Lemma child_component p c : component c -> pp_child p c = (fst p, snd p ++ [c]).
Proof.
  intros H. unfold pp_child.
  assert (E: pp_parse c = ([], [c])) by (apply (parse_join [c]); intros x [<-|[]]; auto).
  rewrite E. reflexivity.
Qed.

Lemma get_parts_eq s b mid z : relative s -> components_of s = b :: mid ++ [z] ->
  get_parts s = Ok (match snd (stem_suffix z) with
                    | [] => (b, pp_str ([], mid ++ [z]) ++ $"/", None, None)
                    | _ => (b, pp_str ([], mid) ++ $"/", Some (fst (stem_suffix z)), Some (snd (stem_suffix z)))
                    end).
Proof.
  intros Hr Hc.
  assert (Hcc: forall c, In c (b :: mid ++ [z]) -> component c).
  { intros c H. rewrite <- Hc in H. eapply components_of_component; eauto. }
  assert (Hp: pp_parse s = ([], b :: mid ++ [z])).
  { unfold pp_parse. rewrite relative_root by auto. f_equal. exact Hc. }
  unfold get_parts. destruct s as [|c0 s0] eqn:Es.
  { cbn in Hc. discriminate Hc. }
  rewrite <- Es in *. clear Es c0 s0. rewrite Hp.
  cbn [pp_parts fst snd app].
  assert (E2: forall A (x : A) (f : str -> list str -> A), match mid ++ [z] with [] => x | y :: l => f y l end
             = f (hd [] (mid ++ [z])) (tl (mid ++ [z]))).
  { intros. destruct mid; reflexivity. }
  destruct (mid ++ [z]) as [|m0 ml] eqn:Em; [destruct mid; discriminate|].
  rewrite <- Em in *. rewrite removelast_last.
  rewrite parse_join by (intros c H; apply Hcc; right; apply in_app_iff; auto).
  unfold pp_suffix, pp_stem, pp_name. cbn [snd fst].
  assert (Hl: last (b :: mid ++ [z]) [] = z).
  { change (b :: mid ++ [z]) with ((b :: mid) ++ [z]). apply last_last. }
  rewrite Hl.
  destruct (stem_suffix z) as [st su] eqn:Ess. cbn [fst snd].
  destruct su as [|x su].
  - assert (st = z).
    { pose proof (stem_suffix_app z) as H. rewrite Ess in H. cbn [fst snd] in H. rewrite app_nil_r in H. auto. }
    subst st. rewrite child_component.
    + cbn [fst snd]. reflexivity.
    + apply Hcc. right. apply in_app_iff. right. left. auto.
  - reflexivity.
Qed.

Lemma two_ends (l : list str) : (2 <= length l)%nat -> exists b mid z, l = b :: mid ++ [z].
Proof.
  intros H. destruct l as [|b l]; [cbn in H; lia|]. exists b.
  destruct (exists_last (l := l)) as (mid & z & ->); [destruct l; [cbn in H; lia|discriminate]|]. eauto.
Qed.

Lemma absolute_root s : ~ relative s -> exists r, s = "/"%char :: r /\ (pp_root s = $"/" \/ pp_root s = $"//").
Proof.
  intros H. destruct s as [|c s].
  - exfalso. apply H. intros r. discriminate.
  - destruct (Ascii.eqb_spec c "/"%char) as [->|N].
    + exists s. split; auto. unfold pp_root. destruct (startswith $"///" _); auto. destruct (startswith $"//" _); auto.
    + exfalso. apply H. intros r [= E _]. auto.
Qed.
Lemma relative_dec s : relative s \/ ~ relative s.
Proof.
  destruct s as [|c s]; [left; intros r; discriminate|]. destruct (Ascii.eqb_spec c "/"%char) as [->|N].
  - right. intros H. apply (H s). auto.
  - left. intros r [= E _]. auto.
Qed.

Lemma get_parts_abs s mid z : ~ relative s -> components_of s = mid ++ [z] ->
  get_parts s = Ok (match snd (stem_suffix z) with
                    | [] => (pp_root s, pp_str ([], mid ++ [z]) ++ $"/", None, None)
                    | _ => (pp_root s, pp_str ([], mid) ++ $"/", Some (fst (stem_suffix z)), Some (snd (stem_suffix z)))
                    end).
Proof.
  intros Hr Hc.
  assert (Hcc: forall c, In c (mid ++ [z]) -> component c).
  { intros c H. rewrite <- Hc in H. eapply components_of_component; eauto. }
  destruct (absolute_root s Hr) as (r & Es & Hroot).
  assert (Hp: pp_parse s = (pp_root s, mid ++ [z])) by (unfold pp_parse; f_equal; exact Hc).
  assert (Ns: s <> []) by (rewrite Es; discriminate). clear r Es.
  unfold get_parts. destruct s as [|c0 s0] eqn:Es; [congruence|]. rewrite <- Es in *. clear Es c0 s0 Ns. rewrite Hp.
  set (rt := pp_root s) in *.
  assert (Ert: pp_parts (rt, mid ++ [z]) = rt :: mid ++ [z]) by (destruct Hroot as [-> | ->]; reflexivity).
  rewrite Ert.
  destruct (mid ++ [z]) as [|m0 ml] eqn:Em; [destruct mid; discriminate|].
  rewrite <- Em in *. rewrite removelast_last.
  rewrite parse_join by (intros c H; apply Hcc; apply in_app_iff; auto).
  unfold pp_suffix, pp_stem, pp_name. cbn [snd fst]. rewrite last_last.
  destruct (stem_suffix z) as [st su] eqn:Ess. cbn [fst snd].
  destruct su as [|x su].
  - assert (st = z).
    { pose proof (stem_suffix_app z) as H. rewrite Ess in H. cbn [fst snd] in H. rewrite app_nil_r in H. auto. }
    subst st. rewrite child_component; [reflexivity|]. apply Hcc, in_app_iff. right. left. auto.
  - reflexivity.
Qed.

(** both cases: the bucket and the components below it *)
Lemma get_parts_cases s : beyond_bucket s -> exists b mid z,
  (relative s <-> relative b) /\ components_of s = components_of b ++ mid ++ [z] /\
  (forall x, relative b -> relative (b ++ x)) /\ b <> [] /\
  (forall c, In c (mid ++ [z]) -> component c) /\
  get_parts s = Ok (match snd (stem_suffix z) with
                    | [] => (b, pp_str ([], mid ++ [z]) ++ $"/", None, None)
                    | _ => (b, pp_str ([], mid) ++ $"/", Some (fst (stem_suffix z)), Some (snd (stem_suffix z)))
                    end).
Proof.
  assert (RA: forall b x, b <> [] -> relative b -> relative (b ++ x)).
  { intros [|c b] x Hb H r; [congruence|]. cbn. intros [= -> _]. apply (H b). auto. }
  intros [[Hr Hn]|[Hr Hn]].
  - destruct (two_ends _ Hn) as (b & mid & z & Hc). exists b, mid, z.
    assert (Hcc: forall c, In c (b :: mid ++ [z]) -> component c).
    { intros c H. rewrite <- Hc in H. eapply components_of_component; eauto. }
    assert (Hb: component b) by (apply Hcc; left; auto).
    assert (Nb: b <> []) by apply Hb.
    split.
    { split; intros _; auto. intros r E. destruct Hb as (_ & _ & Hs). apply Hs. rewrite E. left. auto. }
    rewrite (components_single b) by auto. split; [exact Hc|]. split; [auto|]. split; auto.
    split; [intros c H; apply Hcc; right; auto|]. apply get_parts_eq; auto.
  - destruct (exists_last Hn) as (mid & z & Hc). exists (pp_root s), mid, z.
    destruct (absolute_root s Hr) as (r & Es & Hroot).
    split.
    { split; [intros H; exfalso; auto|]. destruct Hroot as [-> | ->]; intros H; exfalso; eapply H; reflexivity. }
    split; [destruct Hroot as [-> | ->]; exact Hc|].
    split; [intros x H; exfalso; destruct Hroot as [E|E]; rewrite E in H; eapply H; reflexivity|].
    split; [destruct Hroot as [-> | ->]; discriminate|].
    split; [intros c H; rewrite <- Hc in H; eapply components_of_component; eauto|]. apply get_parts_abs; auto.
Qed.

Lemma get_parts_rebuild s : beyond_bucket s ->
  exists bucket folder stem suffix,
    get_parts s = Ok (bucket, folder, stem, suffix)
    /\ components_of (bucket ++ $"/" ++ folder ++ opt_text stem ++ opt_text suffix) = components_of s
    /\ (relative (bucket ++ $"/" ++ folder ++ opt_text stem ++ opt_text suffix) <-> relative s)
    /\ (exists f, folder = f ++ $"/").
Proof.
  intros Hs. destruct (get_parts_cases s Hs) as (b & mid & z & Hrel & Hc & RA & Nb & Hcc & ->).
  assert (REL: forall x, relative (b ++ x) <-> relative s).
  { intros x. rewrite Hrel. split; [|apply RA]. intros H r E. apply (H (r ++ x)). rewrite E. reflexivity. }
  assert (Hz: component z) by (apply Hcc; apply in_app_iff; right; left; auto).
  rewrite Hc. destruct (snd (stem_suffix z)) as [|x su] eqn:Ess.
  - do 4 eexists. split; [reflexivity|]. split; [|split; [apply REL|eauto]]. cbn [opt_text app]. rewrite !app_nil_r.
    rewrite components_app_slash. change (pp_str ([], mid ++ [z]) ++ $"/") with (pp_str ([], mid ++ [z]) ++ $"/" ++ []).
    rewrite components_app_slash, components_pp_str by auto.
    cbn [components_of split filter app]. rewrite app_nil_r. reflexivity.
  - do 4 eexists. split; [reflexivity|]. split; [|split; [apply REL|eauto]]. cbn [opt_text].
    rewrite <- Ess, stem_suffix_app, app_assoc_slash, !components_app_slash.
    rewrite components_pp_str by (intros c H; apply Hcc; apply in_app_iff; auto).
    rewrite (components_single z) by auto. reflexivity.
Qed.

Lemma last_dot s : ~ In "."%char s \/ exists a e, s = a ++ "."%char :: e /\ ~ In "."%char e.
Proof.
  induction s as [|c s IH]; [left; intros []|].
  destruct IH as [N|(a & e & -> & N)]; [|right; exists (c :: a), e; auto].
  destruct (Ascii.eqb_spec c "."%char) as [->|Nc]; [right; exists [], s; auto|left; intros [H|H]; auto].
Qed.
Lemma rfind_dot_last i a e f : ~ In "."%char e -> rfind_dot_from i (a ++ "."%char :: e) f = Some (i + length a)%nat.
Proof.
  revert i f. induction a as [|c a IH]; intros i f H; cbn [app rfind_dot_from length].
  - rewrite Ascii.eqb_refl, rfind_dot_from_none by auto. f_equal. lia.
  - rewrite IH by auto. f_equal. lia.
Qed.
Lemma stem_suffix_dot a e : ~ In "."%char e ->
  stem_suffix (a ++ "."%char :: e) = match a, e with [], _ | _, [] => (a ++ "."%char :: e, []) | _, _ => (a, "."%char :: e) end.
Proof.
  intros H. unfold stem_suffix, rfind_dot. rewrite rfind_dot_last by auto. cbn [plus].
  rewrite app_length. cbn [length].
  destruct a as [|x a]; [reflexivity|]. destruct e as [|y e].
  - replace (length (x :: a) <? _)%nat with false by (symmetry; apply Nat.ltb_ge; cbn [length]; lia).
    reflexivity.
  - replace (length (x :: a) <? _)%nat with true by (symmetry; apply Nat.ltb_lt; cbn [length]; lia).
    replace (0 <? length (x :: a))%nat with true by reflexivity. cbn [andb].
    rewrite firstn_app, Nat.sub_diag, firstn_all, skipn_app, skipn_all, Nat.sub_diag. cbn [firstn skipn app]. rewrite app_nil_r. reflexivity.
Qed.
Lemma dot_split_unique a e a' e' : ~ In "."%char e -> ~ In "."%char e' -> a ++ "."%char :: e = a' ++ "."%char :: e' -> a = a' /\ e = e'.
Proof.
  intros H H' E. assert (L: Some (0 + length a)%nat = Some (0 + length a')%nat).
  { rewrite <- (rfind_dot_last 0 a e None H), <- (rfind_dot_last 0 a' e' None H'), E. reflexivity. }
  injection L as L. cbn in L.
  revert a' L E. clear. induction a as [|x a IH]; intros [|y a'] L E; try discriminate L.
  - injection E as ->. auto.
  - injection E as -> E. injection L as L. destruct (IH a' L E) as [-> ->]. auto.
Qed.

Lemma get_parts_stem s b folder stem suffix : beyond_bucket s ->
  get_parts s = Ok (b, folder, stem, suffix) ->
  (forall a e, stem = Some a /\ suffix = Some ($"." ++ e) <-> stem_and_extension (last (components_of s) []) a e) /\
  ((exists a e, stem = Some a /\ suffix = Some ($"." ++ e)) \/ (stem = None /\ suffix = None)).
Proof.
  intros Hs Hg. destruct (get_parts_cases s Hs) as (b' & mid & z & _ & Hc & _ & _ & _ & Eg).
  rewrite Eg in Hg. clear Eg Hs. rewrite Hc, app_assoc, last_last. clear Hc.
  unfold stem_and_extension.
  destruct (last_dot z) as [N|(a0 & e0 & -> & N)].
  - rewrite (no_ext_suffix z N) in Hg. cbn [snd] in Hg. injection Hg as <- <- <- <-. split; [|right; auto].
    intros a e. split; [intros [H _]; discriminate|]. intros (-> & _). exfalso. apply N, in_app_iff. right. left. auto.
  - rewrite (stem_suffix_dot a0 e0 N) in Hg.
    destruct a0 as [|x0 a0]; [|destruct e0 as [|y0 e0]]; cbn [snd fst] in Hg; injection Hg as <- <- <- <-.
    + split; [|right; auto]. intros a e. split; [intros [H _]; discriminate|].
      intros (E & Na & Ne & Nd). apply dot_split_unique in E; auto. exfalso. apply Na. symmetry. apply E.
    + split; [|right; auto]. intros a e. split; [intros [H _]; discriminate|].
      intros (E & Na & Ne & Nd). apply dot_split_unique in E; auto. exfalso. apply Ne. symmetry. apply E.
    + split; [|left; do 2 eexists; split; reflexivity]. intros a e. split.
      * intros [[= <-] [= <-]]. split; [reflexivity|]. split; [discriminate|]. split; [discriminate|auto].
      * intros (E & Na & Ne & Nd). apply dot_split_unique in E; auto. destruct E as [<- <-]. auto.
Qed.

(** what is left *)
Lemma get_parts_short s : ~ beyond_bucket s ->
  (s = [] /\ get_parts s = Raise ValueError) \/
  (s <> [] /\ relative s /\ components_of s = [] /\ get_parts s = Raise IndexError) \/
  (exists b, get_parts s = Ok (b, $"partitions/", None, None) /\
     ((relative s /\ components_of s = [b]) \/ (~ relative s /\ components_of s = [] /\ components_of b = [] /\ ~ relative b))).
Proof.
  intros H. destruct s as [|c0 s0] eqn:Es; [left; auto|]. right. rewrite <- Es in *.
  assert (Ns: s <> []) by (rewrite Es; discriminate).
  assert (G: forall p, pp_parse s = p -> get_parts s =
    match pp_parts p with [] => Raise IndexError | [bucket] => Ok (bucket, $"partitions" ++ $"/", None, None) | _ => get_parts s end).
  { intros p <-. unfold get_parts. rewrite Es. destruct (pp_parts _) as [|x [|y l]]; reflexivity. }
  destruct (relative_dec s) as [R|R].
  - destruct (components_of s) as [|b [|b' l]] eqn:Ec.
    + left. split; auto. split; auto. split; auto. rewrite (G ([], [])); auto.
      unfold pp_parse. rewrite relative_root by auto. f_equal. exact Ec.
    + right. exists b. split; [|left; auto]. rewrite (G ([], [b])); auto.
      unfold pp_parse. rewrite relative_root by auto. f_equal. exact Ec.
    + exfalso. apply H. left. split; auto. rewrite Ec. cbn. lia.
  - right. assert (Ec: components_of s = []).
    { destruct (components_of s) eqn:Ec; auto. exfalso. apply H. right. split; auto. rewrite Ec. discriminate. }
    destruct (absolute_root s R) as (r & _ & Hroot). exists (pp_root s).
    assert (Hp: pp_parse s = (pp_root s, [])) by (unfold pp_parse; f_equal; exact Ec).
    split; [rewrite (G _ Hp); destruct Hroot as [-> | ->]; reflexivity|].
    right. split; auto. split; auto. split; [destruct Hroot as [-> | ->]; reflexivity|].
    destruct Hroot as [-> | ->]; intros C; eapply C; reflexivity.
Qed.

(** ** a writer's folder is the reader's *)
Lemma join_components_relative l : (forall c, In c l -> component c) -> l <> [] -> relative (join $"/" l).
Proof.
  intros H Hn r E. destruct l as [|c l]; [congruence|]. destruct (H c (or_introl eq_refl)) as (N & _ & S).
  destruct c as [|x c]; [congruence|]. destruct l; cbn [join app] in E; injection E as -> _; apply S; left; auto.
Qed.

Lemma build_path_no_slash rnd comps d :
  (2 <= length comps)%nat -> (forall c, In c comps -> component c) -> no_extension (last comps []) ->
  build_path rnd (join $"/" comps) d = build_path rnd (join $"/" comps ++ $"/") d.
Proof.
  intros Hn Hc He. destruct (two_ends _ Hn) as (b & mid & z & E).
  assert (Hz: last comps [] = z) by (rewrite E; change (b :: mid ++ [z]) with ((b :: mid) ++ [z]); apply last_last).
  rewrite Hz in He.
  assert (Hrel: relative (join $"/" comps)) by (apply join_components_relative; auto; rewrite E; discriminate).
  pose proof (get_parts_eq (join $"/" comps) b mid z Hrel) as Hg.
  rewrite components_join in Hg by auto. specialize (Hg E). rewrite no_ext_suffix in Hg by auto. cbn [snd] in Hg.
  unfold build_path.
  destruct (join $"/" comps) as [|x0 y0] eqn:Ej.
  { exfalso. rewrite <- (components_join comps) in E by auto. rewrite Ej in E. discriminate E. }
  cbn [app]. change (x0 :: y0 ++ $"/") with ((x0 :: y0) ++ $"/"). rewrite last_slash, str_eqb_refl.
  rewrite <- Ej in *. clear Ej x0 y0.
  assert (Hns: str_eqb (skipn (length (join $"/" comps) - 1) (join $"/" comps)) $"/" = false).
  { apply str_eqb_neq. intros X.
    assert (Y: exists r, join $"/" comps = r ++ $"/").
    { pose proof (firstn_skipn (length (join $"/" comps) - 1) (join $"/" comps)) as F. rewrite X in F. eauto. }
    destruct Y as (r & Y).
    assert (Z: split "/"%char (join $"/" comps) = comps).
    { change $"/" with ["/"%char]. apply split_join; [rewrite E; discriminate|]. intros w Hw. apply (Hc w Hw). }
    rewrite Y, split_snoc_slash in Z.
    assert (In [] comps) by (rewrite <- Z; apply in_app_iff; right; left; auto).
    destruct (Hc [] H) as (N & _). congruence. }
  rewrite Hns, Hg. cbn [bind].
  assert (Hj: join $"/" comps = b ++ $"/" ++ join $"/" (mid ++ [z])).
  { rewrite E. apply join_cons. destruct mid; discriminate. }
  replace (str_eqb (pp_str ([], mid ++ [z]) ++ $"/") $"/") with false.
  - rewrite Hj, pp_str_join by (destruct mid; discriminate). rewrite <- !app_assoc. reflexivity.
  - symmetry. apply str_eqb_neq. rewrite pp_str_join by (destruct mid; discriminate). intros X.
    apply (app_inv_tail $"/" (join $"/" (mid ++ [z])) []) in X.
    assert (components_of (join $"/" (mid ++ [z])) = mid ++ [z]).
    { apply components_join. intros c H. apply Hc. rewrite E. right. auto. }
    rewrite X in H. destruct mid; discriminate H.
Qed.

Lemma writer_reader_folder rnd rnd' t comps d :
  template_ok t -> template_text t = join $"/" comps ->
  (2 <= length comps)%nat -> (forall c, In c comps -> component c) -> no_extension (last comps []) ->
  build_path rnd (template_text t) d = Ok (fill t d ++ $"/")
  /\ cycle_path rnd' (template_text t ++ $"/") d = Ok (pp_str (pp_parse (fill t d ++ $"/"))).
Proof.
  intros Ht E Hn Hc He. split; [|apply cycle_path_template; auto].
  rewrite E, build_path_no_slash, <- E by auto. apply build_path_template; auto.
Qed.

Lemma datasets_distinct rnd (ds ds' ps : list str) (p : list seg) d :
  template_ok p -> template_text p = join $"/" ps -> ps <> [] ->
  (forall c, In c (ds ++ ds' ++ ps) -> component c) ->
  (forall c, In c (ds ++ ds') -> no_braces c) -> ds <> [] -> ds' <> [] -> no_extension (last ps []) ->
  build_path rnd (join $"/" (ds ++ ps)) d = Ok (join $"/" ds ++ $"/" ++ fill p d ++ $"/") /\
  (build_path rnd (join $"/" (ds ++ ps)) d = build_path rnd (join $"/" (ds' ++ ps)) d -> ds = ds').
Proof.
  intros Hp Ep Nps Hc Hb Nd Nd' He.
  assert (G: forall l, l <> [] -> (forall c, In c l -> component c) -> (forall c, In c l -> no_braces c) ->
     build_path rnd (join $"/" (l ++ ps)) d = Ok (join $"/" l ++ $"/" ++ fill p d ++ $"/")).
  { intros l Nl Cl Bl.
    assert (Et: template_text (Lit (join $"/" l ++ $"/") :: p) = join $"/" (l ++ ps)).
    { rewrite join_app by auto. unfold template_text in *. cbn [map concat seg_text]. rewrite Ep, <- app_assoc. reflexivity. }
    assert (Ht: template_ok (Lit (join $"/" l ++ $"/") :: p)).
    { intros s [Hs|Hs]; [|apply Hp; auto]. injection Hs as <-.
      assert (J: forall x, x <> "/"%char -> (forall c, In c l -> ~ In x c) -> ~ In x (join $"/" l ++ $"/")).
      { intros x Hx. clear -Hx. intros H Hin. apply in_app_iff in Hin. destruct Hin as [Hin|[Hin|[]]]; [|congruence].
        induction l as [|c l IH]; [destruct Hin|]. destruct l as [|c' l].
        - apply (H c); auto. left; auto.
        - cbn [join] in Hin. apply in_app_iff in Hin. destruct Hin as [Hin|Hin]; [apply (H c); auto; left; auto|].
          cbn [app list_ascii_of_string] in Hin. destruct Hin as [Hin|Hin]; [congruence|].
          apply IH; auto. intros c0 Hc0. apply H. right. auto. }
      split; apply J; try discriminate; intros c H; apply (Bl c H). }
    destruct (writer_reader_folder rnd rnd _ (l ++ ps) d Ht Et) as [W _].
    - rewrite app_length. destruct l; [congruence|]. destruct ps; [congruence|]. cbn [length]. lia.
    - intros c H. apply in_app_iff in H. destruct H; auto. apply Hc. apply in_app_iff. right. apply in_app_iff. auto.
    - destruct (exists_last Nps) as (q & z & ->). rewrite app_assoc, last_last. rewrite last_last in He. auto.
    - rewrite <- Et, W. unfold fill. cbn [map concat seg_value]. rewrite <- !app_assoc. reflexivity. }
  assert (C1: forall c, In c ds -> component c) by (intros; apply Hc; apply in_app_iff; auto).
  assert (C2: forall c, In c ds' -> component c) by (intros; apply Hc; apply in_app_iff; right; apply in_app_iff; auto).
  split; [apply G; auto; intros; apply Hb; apply in_app_iff; auto|].
  rewrite !G; auto; try (intros; apply Hb; apply in_app_iff; auto).
  intros E. injection E as E. apply app_inv_tail in E.
  apply (f_equal components_of) in E. rewrite !components_join in E; auto.
Qed.
