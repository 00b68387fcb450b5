(** Proofs: cutting texts at fixed words and signs. *)
From Coq Require Import Lia.
From Verif.Base Require Import Py PyFacts.
From Verif.Model Require Import Tokens Splitter.
From Verif.Spec Require Import Tokens.
From Verif.Proofs Require Import Tokens.

Section Cut.
  Context (parts : list (str * bool)) (res : list str) (sgn : ascii -> Prop).
  Hypothesis Hwords : forall k, In (k, true) parts -> starts_alpha k = true /\ In (run k) res.
  Hypothesis Hsigns : forall k, In (k, false) parts -> exists c k', k = c :: k' /\ sgn c.
  Hypothesis Hsgn : forall c, sgn c -> is_alpha c = false.
  Hypothesis Hres : ~ In [] res.

  Lemma part_sign prev s k c : keyword_matches prev (c :: s) (k, false) = true -> In (k, false) parts -> sgn c.
  Proof.
    unfold keyword_matches. cbn [fst snd negb orb andb]. rewrite andb_true_r. intros H Hk.
    destruct (Hsigns _ Hk) as (d & k' & -> & Hd). cbn in H. unfold str_eqb in H. cbn [list_eqb] in H.
    apply andb_true_iff in H as [H _]. apply Ascii.eqb_eq in H. apply upper_c_not_letter in H; auto. subst. auto.
  Qed.

  Lemma part_none prev c s : ~ sgn c ->
    (not_word_at_end prev = false \/ is_word c = false \/ ~ In (upper (run (c :: s))) res) ->
    part_at parts prev (c :: s) = None.
  Proof.
    intros Hc H. unfold part_at. destruct (find _ parts) as [[k w]|] eqn:E; auto. exfalso.
    apply find_some in E as [Hin Hm]. destruct w.
    - apply Hwords in Hin as [Ha Hr].
      destruct (word_match _ _ _ Hm Ha) as [Hp Hrun]. destruct H as [H|[H|H]].
      + congruence.
      + rewrite <- Hrun in Hr. cbn in Hr. rewrite H in Hr. cbn in Hr. contradiction.
      + rewrite Hrun in H. contradiction.
    - apply Hc. eapply part_sign; eauto.
  Qed.

  Lemma cut_quiet_from u : forall acc prev cur rest,
    (not_word_at_end prev = true /\ acc = [] \/ not_word_at_end prev = false) ->
    nonword_start rest -> (forall c, In c u -> ~ sgn c) ->
    (forall w, In w (words_from acc u) -> ~ In (upper w) res) ->
    cut parts 0 prev cur (u ++ rest) = cut parts 0 (last_or prev u) (rev u ++ cur) rest.
  Proof.
    induction u as [|c u IH]; intros acc prev cur rest Hp Hr Hs Hw; auto.
    cbn [app cut]. rewrite part_none.
    - rewrite last_or_cons. cbn [rev]. rewrite <- app_assoc. cbn [app].
      cbn [words_from] in Hw. change (is_alpha c || is_digit c || Ascii.eqb c "_") with (is_word c) in Hw.
      destruct (is_word c) eqn:Ec.
      + apply (IH (c :: acc)); auto; [right; cbn; now rewrite Ec|intros; apply Hs; now right].
      + apply (IH []); auto; [left; cbn; now rewrite Ec|intros; apply Hs; now right|]. intros w H. apply Hw. now right.
    - apply Hs. now left.
    - destruct Hp as [[Hp ->]|Hp]; [|now left]. right.
      destruct (is_word c) eqn:Ec; [right|now left].
      change (c :: u ++ rest) with ((c :: u) ++ rest). rewrite run_app by auto.
      destruct (words_from_first (c :: u) []) as (l & E & _). apply Hw. rewrite E. now left.
  Qed.
  Lemma cut_quiet u prev cur rest : not_word_at_end prev = true ->
    nonword_start rest -> (forall c, In c u -> ~ sgn c) ->
    (forall w, In w (words u) -> ~ In (upper w) res) ->
    cut parts 0 prev cur (u ++ rest) = cut parts 0 (last_or prev u) (rev u ++ cur) rest.
  Proof. intros. apply (cut_quiet_from u []); auto. Qed.

  Lemma cut_skip k : forall prev cur rest n, n = length k ->
    cut parts n prev cur (k ++ rest) = cut parts 0 (last_or prev k) cur rest.
  Proof.
    induction k as [|c k IH]; intros prev cur rest n ->; auto.
    cbn [app length cut]. rewrite IH by auto. now rewrite last_or_cons.
  Qed.

  Lemma cut_part k prev cur rest : k <> [] -> part_at parts prev (k ++ rest) = Some (length k) ->
    cut parts 0 prev cur (k ++ rest) = rev cur :: k :: cut parts 0 (last_or prev k) [] rest.
  Proof.
    intros Hk H. destruct k as [|c k]; [congruence|].
    cbn [app cut]. cbn [app] in H. rewrite H.
    change (c :: k ++ rest) with ((c :: k) ++ rest). rewrite firstn_app, Nat.sub_diag, firstn_all. cbn [firstn].
    rewrite app_nil_r. f_equal. f_equal. cbn [length Nat.pred]. rewrite cut_skip by auto. now rewrite last_or_cons.
  Qed.
End Cut.
