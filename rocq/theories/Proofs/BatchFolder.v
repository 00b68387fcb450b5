(** The folder of a batch. *)
From Verif.Base Require Import Py PyFacts.
From Verif.Model Require Import Paths Writers.
From Verif.Spec Require Import Paths Writers.
From Verif.Proofs Require Import Paths.
From Verif.Proofs Require Writers.

Lemma as_at_plain d c : In c (as_at_text d) -> is_digit c = true \/ In c $"as_at_-".
Proof.
  unfold as_at_text. rewrite !in_app_iff. intros H.
  repeat (destruct H as [H|H]; [first [left; eapply dec_pad_digits; exact H|right; cbn in H |- *; intuition]|]).
  left; eapply dec_pad_digits; exact H.
Qed.
Lemma as_at_component d : component (as_at_text d) /\ no_extension (as_at_text d) /\ no_braces (as_at_text d).
Proof.
  assert (G: forall c, In c (as_at_text d) -> c <> "/"%char /\ c <> "."%char /\ c <> "{"%char /\ c <> "}"%char).
  { intros c H. apply as_at_plain in H. destruct H as [H|H].
    - repeat split; intros ->; discriminate.
    - cbn in H. repeat (destruct H as [<-|H]; [repeat split; discriminate|]). destruct H. }
  split; [split; [discriminate|split; [discriminate|]]|split; [|split]]; intros H; apply G in H; intuition congruence.
Qed.

Lemma components_drop_slash s : components_of (s ++ $"/") = components_of s.
Proof. change $"/" with ($"/" ++ []) at 1. rewrite components_app_slash. cbn. apply app_nil_r. Qed.

Lemma frame_folder rnd rnd' (ds ps : list str) (p : list seg) (now date : moment) f ext :
  template_ok p -> template_text p = join $"/" ps -> ps <> [] -> ds <> [] ->
  (forall c, In c (ds ++ ps) -> component c) -> (forall c, In c ds -> no_braces c) ->
  exists fid root,
    new_frame_id rnd (join $"/" ds) ps now date = Ok fid /\
    cycle_path rnd' (join $"/" (ds ++ ps) ++ $"/") date = Ok root /\
    inner_filename f ext fid =
      Ok ((root ++ $"/" ++ as_at_text now) ++ $"/" ++ $"{stem}" ++ extension f ext).
Proof.
  intros Hp Ep Nps Nds Hc Hb.
  destruct (as_at_component now) as (Ca & Xa & Ba). set (a := as_at_text now) in *.
  assert (Tp: template_ok (p ++ [Lit ($"/" ++ a)])).
  { intros s Hs. apply in_app_iff in Hs. destruct Hs as [Hs|[[= <-]|[]]]; [apply Hp; auto|].
    destruct Ba as [B1 B2]. split; intros [H|H]; try discriminate; auto. }
  assert (Tt: template_text (p ++ [Lit ($"/" ++ a)]) = join $"/" (ps ++ [a])).
  { unfold template_text in *. rewrite map_app, concat_app, Ep, join_app by (auto; discriminate).
    cbn [map concat seg_text join]. rewrite app_nil_r. reflexivity. }
  destruct (datasets_distinct rnd ds ds (ps ++ [a]) _ date Tp Tt) as [HB _]; auto.
  { destruct ps; discriminate. }
  { intros c. rewrite !in_app_iff. intros [H|[H|[H|[<-|[]]]]]; auto; apply Hc; apply in_app_iff; auto. }
  { intros c. rewrite in_app_iff. intros [H|H]; auto. }
  { rewrite last_last. auto. }
  assert (Fl: fill (p ++ [Lit ($"/" ++ a)]) date = fill p date ++ $"/" ++ a).
  { unfold fill. rewrite map_app, concat_app. cbn [map concat seg_value]. now rewrite app_nil_r. }
  rewrite Fl in HB.
  assert (Cds: forall c, In c ds -> component c) by (intros; apply Hc; apply in_app_iff; auto).
  assert (Hrel: forall x, relative (join $"/" ds ++ x)).
  { intros x r Er. destruct (join $"/" ds) as [|c0 j] eqn:Ej.
    - destruct ds as [|c ds']; [congruence|]. destruct (Cds c (or_introl eq_refl)) as (Nc & _).
      destruct c; [congruence|]. destruct ds'; discriminate.
    - injection Er as -> _. eapply (join_components_relative ds); eauto. }
  set (fc := components_of (fill p date)).
  exists (join $"/" ds ++ $"/" ++ (fill p date ++ $"/" ++ a) ++ $"/"), (join $"/" (ds ++ fc)).
  split; [|split].
  - unfold new_frame_id. destruct ps as [|p0 ps0] eqn:Eps; [congruence|]. rewrite <- Eps in *.
    rewrite <- HB. f_equal. rewrite !join_app by (auto; try discriminate; destruct ps; discriminate).
    rewrite <- !app_assoc. reflexivity.
  - assert (Tq: template_ok (Lit (join $"/" ds ++ $"/") :: p)).
    { intros s [[= <-]|Hs]; [|apply Hp; auto].
      assert (J: forall x, x <> "/"%char -> (forall c, In c ds -> ~ In x c) -> ~ In x (join $"/" ds ++ $"/")).
      { intros x Hx. clear -Hx. intros H Hin. apply in_app_iff in Hin. destruct Hin as [Hin|[Hin|[]]]; [|congruence].
        induction ds as [|c l IH]; [destruct Hin|]. destruct l as [|c' l].
        - apply (H c); auto. left; auto.
        - cbn [join] in Hin. apply in_app_iff in Hin. destruct Hin as [Hin|Hin]; [apply (H c); auto; left; auto|].
          cbn [app list_ascii_of_string] in Hin. destruct Hin as [Hin|Hin]; [congruence|].
          apply IH; auto. intros c0 Hc0. apply H. right. auto. }
      split; apply J; try discriminate; intros c H; apply (Hb c H). }
    assert (Eq: template_text (Lit (join $"/" ds ++ $"/") :: p) = join $"/" (ds ++ ps)).
    { unfold template_text in *. cbn [map concat seg_text]. rewrite Ep, join_app, <- app_assoc by auto. reflexivity. }
    rewrite <- Eq, cycle_path_template by auto. f_equal.
    unfold fill. cbn [map concat seg_value]. fold (fill p date). rewrite <- !app_assoc.
    unfold pp_parse. rewrite relative_root by apply Hrel.
    change (filter real_part (split "/"%char ?x)) with (components_of x).
    rewrite components_app_slash, components_drop_slash, components_join by auto. fold fc.
    rewrite pp_str_join; auto. destruct ds; [congruence|discriminate].
  - unfold inner_filename.
    destruct ds as [|b ds0] eqn:Eds; [congruence|]. rewrite <- Eds in *.
    rewrite (get_parts_eq _ b (ds0 ++ fc) a).
    + rewrite no_ext_suffix by auto. cbn [snd bind].
      destruct (Cds b) as (Nb & _ & Sb); [rewrite Eds; left; auto|].
      assert (Q1: str_eqb b $"/" = false) by (apply str_eqb_neq; intros ->; apply Sb; left; auto).
      rewrite Q1, pp_str_join by (destruct (ds0 ++ fc); discriminate).
      assert (Q2: str_eqb (join $"/" ((ds0 ++ fc) ++ [a]) ++ $"/") $"/" = false).
      { apply str_eqb_neq. intros C. apply (app_inv_tail $"/" _ []) in C.
        destruct Ca as (Na & _). destruct (ds0 ++ fc) as [|q l].
        - cbn in C. auto.
        - change ((q :: l) ++ [a]) with ((q :: l) ++ [a]) in C. rewrite join_app in C by discriminate.
          destruct (join $"/" (q :: l)); discriminate. }
      rewrite Q2. f_equal. rewrite Eds.
      assert (J: forall l, l <> [] -> join $"/" l ++ $"/" ++ a = join $"/" (l ++ [a])).
      { intros l Hl. rewrite join_app by (auto; discriminate). reflexivity. }
      rewrite (J ((b :: ds0) ++ fc)) by discriminate.
      cbn [app]. rewrite (join_cons _ b) by (destruct (ds0 ++ fc); discriminate).
      rewrite <- !app_assoc. reflexivity.
    + apply Hrel.
    + rewrite components_app_slash, components_drop_slash, components_app_slash.
      rewrite (components_single a) by auto.
      fold fc. rewrite components_join by auto. rewrite Eds. cbn [app]. now rewrite app_assoc.
Qed.

(** ** frame names order as the moments they were made at *)
Lemma undec_acc_bounds x : forall a n, undec_acc a x = Some n ->
  (a * 10 ^ N.of_nat (length x) <= n < (a + 1) * 10 ^ N.of_nat (length x))%N.
Proof.
  induction x as [|c x IH]; intros a n H.
  - injection H as <-. cbn [length]. change (10 ^ N.of_nat 0)%N with 1%N. lia.
  - cbn [undec_acc] in H. unfold digit_val in H. destruct (is_digit c) eqn:D; [|discriminate].
    apply IH in H. cbn [length]. rewrite Nat2N.inj_succ, N.pow_succ_r'.
    assert (N_of_ascii c - 48 < 10)%N.
    { unfold is_digit in D. apply andb_true_iff in D as [D1 D2]. apply N.leb_le in D1, D2. lia. }
    nia.
Qed.
Lemma undec_acc_lt x : forall y a n m, length x = length y ->
  undec_acc a x = Some n -> undec_acc a y = Some m -> (n < m)%N -> str_compare x y = Lt.
Proof.
  induction x as [|c x IH]; intros [|d y] a n m L Hn Hm H; try discriminate.
  - injection Hn as <-. injection Hm as <-. lia.
  - injection L as L. cbn [undec_acc] in Hn, Hm. unfold digit_val in Hn, Hm.
    destruct (is_digit c) eqn:Dc; [|discriminate]. destruct (is_digit d) eqn:Dd; [|discriminate].
    unfold is_digit in Dc, Dd. apply andb_true_iff in Dc as [Dc _], Dd as [Dd _]. apply N.leb_le in Dc, Dd.
    cbn [str_compare]. destruct (N.compare_spec (N_of_ascii c) (N_of_ascii d)) as [E|E|E]; auto.
    + rewrite E in Hn. eapply IH; eauto.
    + exfalso. apply undec_acc_bounds in Hn, Hm. rewrite L in Hn.
      assert (10 * a + (N_of_ascii d - 48) + 1 <= 10 * a + (N_of_ascii c - 48))%N by lia. nia.
Qed.
Lemma dec_pad_lt w a b : (0 < w)%nat -> (a < b)%N -> (b < 10 ^ N.of_nat w)%N ->
  str_compare (dec_pad w a) (dec_pad w b) = Lt.
Proof.
  intros Hw H Hb.
  assert (U : forall n, undec_acc 0 (dec_pad w n) = Some n).
  { intros n. pose proof (undec_dec_pad w n) as U. unfold undec in U. destruct (dec_pad w n); [discriminate|exact U]. }
  apply (undec_acc_lt _ _ 0%N a b); auto. rewrite !dec_pad_length; auto. lia.
Qed.
Lemma dec_pad_step w a b x y : (0 < w)%nat -> (a < 10 ^ N.of_nat w)%N -> (b < 10 ^ N.of_nat w)%N ->
  (a < b)%N \/ a = b /\ str_compare x y = Lt ->
  str_compare (dec_pad w a ++ x) (dec_pad w b ++ y) = Lt.
Proof.
  intros Hw Ha Hb [H|[-> H]].
  - apply Writers.str_compare_app; [rewrite !dec_pad_length; auto|]. apply dec_pad_lt; auto.
  - rewrite Writers.str_compare_prefix; auto.
Qed.
Lemma as_at_order a b : plausible a -> plausible b -> (year a < 10000)%N -> (year b < 10000)%N ->
  before a b -> str_ltb (as_at_text a) (as_at_text b) = true.
Proof.
  intros (A1 & A2 & A3 & A4 & A5) (B1 & B2 & B3 & B4 & B5) Ya Yb H.
  assert (C : str_compare (as_at_text a) (as_at_text b) = Lt); [|unfold str_ltb; rewrite C; auto].
  unfold as_at_text. rewrite Writers.str_compare_prefix.
  apply dec_pad_step; [lia|exact Ya|exact Yb|]. destruct H as [H|[E H]]; [left; auto|right; split; auto].
  apply dec_pad_step; [lia|exact A1|exact B1|]. destruct H as [H|[E1 H]]; [left; auto|right; split; auto].
  apply dec_pad_step; [lia|exact A2|exact B2|]. destruct H as [H|[E2 H]]; [left; auto|right; split; auto].
  rewrite Writers.str_compare_prefix.
  apply dec_pad_step; [lia|exact A3|exact B3|]. destruct H as [H|[E3 H]]; [left; auto|right; split; auto].
  apply dec_pad_step; [lia|exact A4|exact B4|]. destruct H as [H|[E4 H]]; [left; auto|right; split; auto].
  apply dec_pad_lt; auto; lia.
Qed.
Lemma as_at_length a : plausible a -> (year a < 10000)%N -> length (as_at_text a) = 21.
Proof.
  intros (A1 & A2 & A3 & A4 & A5) Ya. unfold as_at_text. rewrite !app_length.
  rewrite (dec_pad_length 4) by (first [lia|exact Ya]).
  rewrite !(dec_pad_length 2) by (first [lia|assumption]). reflexivity.
Qed.
Lemma as_at_ordered a b : plausible a -> plausible b -> (year a < 10000)%N -> (year b < 10000)%N ->
  before a b -> length (as_at_text a) = length (as_at_text b) /\ str_ltb (as_at_text a) (as_at_text b) = true.
Proof. intros. split; [rewrite !as_at_length; auto|apply as_at_order; auto]. Qed.
