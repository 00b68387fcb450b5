(** Lemmas about filter expressions. *)
From Coq Require Import Lia.
From Verif.Base Require Import Py PyFacts Value ValueFacts.
From Verif.Model Require Import Dates Filters Tokens Expression.
From Verif.Spec Require Import DictSet Filters Expression.
From Verif.Proofs Require Filters.

Lemma py_int_raises s e : py_int s = Raise e -> e = ValueError.
Proof.
  assert (Hd : forall n, forall s a e, length s <= n -> int_digits a s = Raise e -> e = ValueError).
  { induction n as [|n IH]; intros [|c s'] a e' Hl; cbn -[Z.mul]; try discriminate.
    - cbn in Hl; lia.
    - destruct (digit_val c); [apply IH; cbn in Hl; lia|].
      destruct (Ascii.eqb c "_"); [|congruence].
      destruct s' as [|c' s'']; [congruence|]. destruct (digit_val c'); [|congruence].
      apply IH; cbn in Hl; lia. }
  assert (Hu : forall s e, int_unsigned s = Raise e -> e = ValueError).
  { intros [|c s'] e'; cbn; [congruence|]. destruct (digit_val c); [|congruence]. apply (Hd (length s')); lia. }
  unfold py_int. destruct (ustrip s) as [|c s']; [apply Hu|].
  destruct c as [[] [] [] [] [] [] [] []]; try apply Hu.
  intro H. destruct (int_unsigned s') eqn:E; cbn in H; [discriminate|]. injection H as <-. eauto.
Qed.

Section E.
  Context (float_of date_of : str -> option value).
  Notation label := (get_token_type float_of date_of).
  Notation pexpr := (parse_expression float_of date_of).
  Notation ploop_or := (or_loop float_of date_of).
  Notation pand := (parse_and_term float_of date_of).
  Notation ploop_and := (and_loop float_of date_of).
  Notation pcond := (parse_condition float_of date_of).
  Notation pterm := (parse_terminal float_of date_of).
  Notation item := (fun s => interpret_value float_of date_of (VStr s)).

  Lemma beq_true a b : ttype_beq a b = true <-> a = b.
  Proof. split; [apply internal_ttype_dec_bl|apply internal_ttype_dec_lb]. Qed.
  Lemma beq_false a b : ttype_beq a b = false <-> a <> b.
  Proof. rewrite <- beq_true. destruct (ttype_beq a b); split; congruence. Qed.

  Lemma parse_list_raises acc ts e : parse_list float_of date_of acc ts = Raise e -> e = IndexError.
  Proof.
    revert acc; induction ts as [|x ts IH]; intros acc; cbn; [congruence|].
    destruct (ttype_beq _ RIGHTPAREN); [discriminate|]. destruct (ttype_beq _ COMMA); apply IH.
  Qed.

  Lemma parse_list_rest acc ts l rest : parse_list float_of date_of acc ts = Ok (l, rest) -> length rest < length ts.
  Proof.
    revert acc; induction ts as [|x ts IH]; intros acc; cbn; [discriminate|].
    destruct (ttype_beq _ RIGHTPAREN); [intro H; injection H as _ <-; lia|].
    destruct (ttype_beq _ COMMA); intro H; apply IH in H; lia.
  Qed.

  Lemma pterm_not_fuel ts : pterm ts <> Raise OutOfFuel.
  Proof.
    destruct ts as [|x ts]; cbn; [discriminate|].
    destruct (label x); try discriminate.
    - destruct (py_int x) eqn:E; cbn; [discriminate|]. apply py_int_raises in E; congruence.
    - destruct (float_of x); discriminate.
    - destruct (parse_list _ _ [] ts) as [[l rest]|e] eqn:E; cbn; [discriminate|].
      apply parse_list_raises in E; congruence.
  Qed.

  Lemma pterm_rest ts t rest : pterm ts = Ok (t, rest) -> length rest <= length ts.
  Proof.
    destruct ts as [|x ts]; cbn; [discriminate|].
    destruct (label x); try discriminate; try (intro H; injection H as _ <-; cbn; lia).
    - destruct (py_int x); cbn; [|discriminate]. intro H; injection H as _ <-; lia.
    - destruct (float_of x); [|discriminate]. intro H; injection H as _ <-; lia.
    - destruct (parse_list _ _ [] ts) as [[l rest']|e] eqn:E; cbn; [|discriminate].
      intro H; injection H as _ <-. apply parse_list_rest in E; lia.
  Qed.

  Lemma collect_call_not_fuel n acc ts : collect_call float_of date_of n acc ts <> Raise OutOfFuel.
  Proof.
    revert n acc; induction ts as [|x ts IH]; intros n acc; cbn; [discriminate|].
    destruct (ttype_beq _ RIGHTPAREN); [destruct n as [|[|n]]; [discriminate..|apply IH]|].
    destruct (ttype_beq _ LEFTPAREN); apply IH.
  Qed.

  Lemma collect_call_rest n acc ts s rest :
    collect_call float_of date_of n acc ts = Ok (s, rest) -> length rest < length ts.
  Proof.
    revert n acc; induction ts as [|x ts IH]; intros n acc; cbn; [discriminate|].
    destruct (ttype_beq _ RIGHTPAREN).
    - destruct n as [|[|n]]; try (intro H; injection H as _ <-; lia). intro H; apply IH in H; lia.
    - destruct (ttype_beq _ LEFTPAREN); intro H; apply IH in H; lia.
  Qed.

  Lemma parse_call_not_fuel ts : parse_call float_of date_of ts <> Raise OutOfFuel.
  Proof.
    destruct ts as [|x [|y ts]]; cbn; try discriminate; destruct (_ || _); try discriminate.
    destruct (ttype_beq _ LEFTPAREN); [|discriminate].
    destruct (collect_call _ _ _ _ ts) as [[s r]|e] eqn:E; cbn; [discriminate|].
    intro H; injection H as ->. now apply collect_call_not_fuel in E.
  Qed.

  Lemma parse_call_rest ts o rest : parse_call float_of date_of ts = Ok (o, rest) -> length rest <= length ts.
  Proof.
    destruct ts as [|x [|y ts]]; cbn; try (intro H; injection H as _ <-; cbn; lia).
    - destruct (_ || _); [discriminate|]. intro H; injection H as _ <-; cbn; lia.
    - destruct (_ || _); [|intro H; injection H as _ <-; cbn; lia].
      destruct (ttype_beq _ LEFTPAREN); [|discriminate].
      destruct (collect_call _ _ _ _ ts) as [[s r]|e] eqn:E; cbn; [|discriminate].
      intro H; injection H as _ <-. apply collect_call_rest in E; lia.
  Qed.

  Lemma parse_comparison_not_fuel o ts : parse_comparison float_of date_of o ts <> Raise OutOfFuel.
  Proof.
    unfold parse_comparison.
    destruct (match o with Some t => Ok (t, ts) | None => pterm ts end) as [[t1 ts1]|e] eqn:E.
    - cbn. destruct ts1 as [|x ts2]; [discriminate|]. destruct (ttype_beq _ OPERATOR); [|discriminate].
      destruct (pterm ts2) as [[t2 ts3]|e] eqn:E2; cbn; [discriminate|].
      intro H; injection H as ->. now apply pterm_not_fuel in E2.
    - cbn. destruct o; [discriminate|]. intro H; injection H as ->. now apply pterm_not_fuel in E.
  Qed.

  Lemma parse_comparison_rest o ts t rest :
    parse_comparison float_of date_of o ts = Ok (t, rest) -> length rest < length ts.
  Proof.
    unfold parse_comparison.
    destruct (match o with Some t => Ok (t, ts) | None => pterm ts end) as [[t1 ts1]|e] eqn:E; cbn; [|discriminate].
    assert (length ts1 <= length ts).
    { destruct o; [injection E as _ <-; lia|]. now apply pterm_rest in E. }
    destruct ts1 as [|x ts2]; [discriminate|]. destruct (ttype_beq _ OPERATOR); [|discriminate].
    destruct (pterm ts2) as [[t2 ts3]|e] eqn:E2; cbn; [|discriminate].
    intro Hx; injection Hx as _ <-. apply pterm_rest in E2. cbn in *; lia.
  Qed.

  Lemma pexpr_S f ts : pexpr (S f) ts = let* (t, ts1) := pand f ts in ploop_or f t ts1.
  Proof. reflexivity. Qed.
  Lemma por_S f t ts : ploop_or (S f) t ts =
    match ts with
    | x :: ts1 => if ttype_beq (label x) OR then let* (u, ts2) := pand f ts1 in ploop_or f (TOr t u) ts2 else Ok (t, ts)
    | [] => Ok (t, ts)
    end.
  Proof. reflexivity. Qed.
  Lemma pand_S f ts : pand (S f) ts = let* (t, ts1) := pcond f ts in ploop_and f t ts1.
  Proof. reflexivity. Qed.
  Lemma pandl_S f t ts : ploop_and (S f) t ts =
    match ts with
    | x :: ts1 => if ttype_beq (label x) AND then let* (u, ts2) := pcond f ts1 in ploop_and f (TAnd t u) ts2 else Ok (t, ts)
    | [] => Ok (t, ts)
    end.
  Proof. reflexivity. Qed.
  Lemma pcond_S f ts : pcond (S f) ts =
    if match ts with tok :: _ => ttype_beq (label tok) NOT | [] => false end then
      let* (t, rest) := pcond f (tl ts) in Ok (TNot t, rest)
    else
    let* (terminal1, ts1) := parse_call float_of date_of ts in
    if match ts1 with tok :: _ => ttype_beq (label tok) LEFTPAREN | [] => false end then
      let* (t, ts2) := pexpr f (tl ts1) in
      match ts2 with
      | tok :: ts3 => if ttype_beq (label tok) RIGHTPAREN then Ok (t, ts3) else Raise InvalidExpression
      | [] => Raise IndexError
      end
    else parse_comparison float_of date_of terminal1 ts1.
  Proof. reflexivity. Qed.

  (** more fuel changes nothing *)
  Lemma mono f :
    (forall ts r, pexpr f ts = r -> r <> Raise OutOfFuel -> pexpr (S f) ts = r) /\
    (forall t ts r, ploop_or f t ts = r -> r <> Raise OutOfFuel -> ploop_or (S f) t ts = r) /\
    (forall ts r, pand f ts = r -> r <> Raise OutOfFuel -> pand (S f) ts = r) /\
    (forall t ts r, ploop_and f t ts = r -> r <> Raise OutOfFuel -> ploop_and (S f) t ts = r) /\
    (forall ts r, pcond f ts = r -> r <> Raise OutOfFuel -> pcond (S f) ts = r).
  Proof.
    induction f as [|f (IHe & IHo & IHa & IHl & IHc)].
    { repeat split; intros; subst; cbn in *; congruence. }
    repeat split.
    - intros ts r H Hr. rewrite pexpr_S in H. rewrite pexpr_S.
      destruct (pand f ts) as [[t ts1]|e] eqn:E; cbn [bind] in H.
      + rewrite (IHa _ _ E) by discriminate. cbn [bind]. now apply IHo.
      + rewrite (IHa _ _ E) by congruence. exact H.
    - intros t ts r H Hr. rewrite por_S in H. rewrite por_S. destruct ts as [|x ts1]; [exact H|].
      destruct (ttype_beq (label x) OR); [|exact H].
      destruct (pand f ts1) as [[u ts2]|e] eqn:E; cbn [bind] in H.
      + rewrite (IHa _ _ E) by discriminate. cbn [bind]. now apply IHo.
      + rewrite (IHa _ _ E) by congruence. exact H.
    - intros ts r H Hr. rewrite pand_S in H. rewrite pand_S.
      destruct (pcond f ts) as [[t ts1]|e] eqn:E; cbn [bind] in H.
      + rewrite (IHc _ _ E) by discriminate. cbn [bind]. now apply IHl.
      + rewrite (IHc _ _ E) by congruence. exact H.
    - intros t ts r H Hr. rewrite pandl_S in H. rewrite pandl_S. destruct ts as [|x ts1]; [exact H|].
      destruct (ttype_beq (label x) AND); [|exact H].
      destruct (pcond f ts1) as [[u ts2]|e] eqn:E; cbn [bind] in H.
      + rewrite (IHc _ _ E) by discriminate. cbn [bind]. now apply IHl.
      + rewrite (IHc _ _ E) by congruence. exact H.
    - intros ts r H Hr. rewrite pcond_S in H. rewrite pcond_S.
      destruct (match ts with tok :: _ => ttype_beq (label tok) NOT | [] => false end).
      + destruct (pcond f (tl ts)) as [[t rest]|e] eqn:E; cbn [bind] in H.
        * rewrite (IHc _ _ E) by discriminate. exact H.
        * rewrite (IHc _ _ E) by congruence. exact H.
      + destruct (parse_call float_of date_of ts) as [[o ts1]|e] eqn:E; cbn [bind] in *; [|exact H].
        destruct (match ts1 with tok :: _ => ttype_beq (label tok) LEFTPAREN | [] => false end); [|exact H].
        destruct (pexpr f (tl ts1)) as [[t rest]|e] eqn:E2; cbn [bind] in H.
        * rewrite (IHe _ _ E2) by discriminate. exact H.
        * rewrite (IHe _ _ E2) by congruence. exact H.
  Qed.

  Lemma mono_expr f g ts r : f <= g -> pexpr f ts = r -> r <> Raise OutOfFuel -> pexpr g ts = r.
  Proof. induction 1 as [|g _ IH]; auto. intros H Hr. apply mono; auto. Qed.
  Lemma mono_or f g t ts r : f <= g -> ploop_or f t ts = r -> r <> Raise OutOfFuel -> ploop_or g t ts = r.
  Proof. induction 1 as [|g _ IH]; auto. intros H Hr. apply mono; auto. Qed.
  Lemma mono_and f g ts r : f <= g -> pand f ts = r -> r <> Raise OutOfFuel -> pand g ts = r.
  Proof. induction 1 as [|g _ IH]; auto. intros H Hr. apply mono; auto. Qed.
  Lemma mono_andl f g t ts r : f <= g -> ploop_and f t ts = r -> r <> Raise OutOfFuel -> ploop_and g t ts = r.
  Proof. induction 1 as [|g _ IH]; auto. intros H Hr. apply mono; auto. Qed.
  Lemma mono_cond f g ts r : f <= g -> pcond f ts = r -> r <> Raise OutOfFuel -> pcond g ts = r.
  Proof. induction 1 as [|g _ IH]; auto. intros H Hr. apply mono; auto. Qed.

  (** what is left is shorter *)
  Lemma rests f :
    (forall ts t rest, pexpr f ts = Ok (t, rest) -> length rest < length ts) /\
    (forall u ts t rest, ploop_or f u ts = Ok (t, rest) -> length rest <= length ts) /\
    (forall ts t rest, pand f ts = Ok (t, rest) -> length rest < length ts) /\
    (forall u ts t rest, ploop_and f u ts = Ok (t, rest) -> length rest <= length ts) /\
    (forall ts t rest, pcond f ts = Ok (t, rest) -> length rest < length ts).
  Proof.
    induction f as [|f (IHe & IHo & IHa & IHl & IHc)].
    { repeat split; intros; cbn in *; congruence. }
    repeat split.
    - intros ts t rest H. rewrite pexpr_S in H. cbn [bind] in H. destruct (pand f ts) as [[u ts1]|e] eqn:E; cbn [bind] in H; [|discriminate].
      apply IHa in E. apply IHo in H. lia.
    - intros u ts t rest H. rewrite por_S in H. cbn [bind] in H. destruct ts as [|x ts1]; [injection H as _ <-; lia|].
      destruct (ttype_beq (label x) OR); [|injection H as _ <-; lia].
      destruct (pand f ts1) as [[v ts2]|e] eqn:E; cbn [bind] in H; [|discriminate]. apply IHa in E. apply IHo in H. cbn; lia.
    - intros ts t rest H. rewrite pand_S in H. cbn [bind] in H. destruct (pcond f ts) as [[u ts1]|e] eqn:E; cbn [bind] in H; [|discriminate].
      apply IHc in E. apply IHl in H. lia.
    - intros u ts t rest H. rewrite pandl_S in H. cbn [bind] in H. destruct ts as [|x ts1]; [injection H as _ <-; lia|].
      destruct (ttype_beq (label x) AND); [|injection H as _ <-; lia].
      destruct (pcond f ts1) as [[v ts2]|e] eqn:E; cbn [bind] in H; [|discriminate]. apply IHc in E. apply IHl in H. cbn; lia.
    - intros ts t rest H. rewrite pcond_S in H.
      destruct (match ts with tok :: _ => ttype_beq (label tok) NOT | [] => false end) eqn:En.
      + destruct ts as [|x ts1]; [discriminate|]. cbn [tl] in H.
        destruct (pcond f ts1) as [[u r]|e] eqn:E; cbn [bind] in H; [|discriminate]. injection H as _ <-.
        apply IHc in E. cbn; lia.
      + destruct (parse_call float_of date_of ts) as [[o ts1]|e] eqn:E; cbn [bind] in H; [|discriminate].
        apply parse_call_rest in E.
        destruct (match ts1 with tok :: _ => ttype_beq (label tok) LEFTPAREN | [] => false end) eqn:Ep.
        * destruct ts1 as [|x ts1]; [discriminate|]. cbn [tl] in H.
          destruct (pexpr f ts1) as [[u r]|e] eqn:E2; cbn [bind] in H; [|discriminate]. apply IHe in E2.
          destruct r as [|y r]; [discriminate|]. destruct (ttype_beq _ RIGHTPAREN); [|discriminate].
          injection H as _ <-. cbn in *; lia.
        * apply parse_comparison_rest in H. lia.
  Qed.

  (** the fuel is enough *)
  Lemma enough f :
    (forall ts, 4 * length ts + 4 <= f -> pexpr f ts <> Raise OutOfFuel) /\
    (forall u ts, 4 * length ts + 1 <= f -> ploop_or f u ts <> Raise OutOfFuel) /\
    (forall ts, 4 * length ts + 3 <= f -> pand f ts <> Raise OutOfFuel) /\
    (forall u ts, 4 * length ts + 1 <= f -> ploop_and f u ts <> Raise OutOfFuel) /\
    (forall ts, 4 * length ts + 2 <= f -> pcond f ts <> Raise OutOfFuel).
  Proof.
    induction f as [|f (IHe & IHo & IHa & IHl & IHc)].
    { repeat split; intros; lia. }
    repeat split.
    - intros ts Hf. rewrite pexpr_S. destruct (pand f ts) as [[u ts1]|e] eqn:E; cbn [bind].
      + apply (rests f) in E. apply IHo. lia.
      + intro H; injection H as ->. revert E. apply IHa. lia.
    - intros u ts Hf. rewrite por_S. destruct ts as [|x ts1]; [discriminate|].
      destruct (ttype_beq (label x) OR); [|discriminate]. cbn in Hf.
      destruct (pand f ts1) as [[v ts2]|e] eqn:E; cbn [bind].
      + apply (rests f) in E. apply IHo. lia.
      + intro H; injection H as ->. revert E. apply IHa. lia.
    - intros ts Hf. rewrite pand_S. destruct (pcond f ts) as [[u ts1]|e] eqn:E; cbn [bind].
      + apply (rests f) in E. apply IHl. lia.
      + intro H; injection H as ->. revert E. apply IHc. lia.
    - intros u ts Hf. rewrite pandl_S. destruct ts as [|x ts1]; [discriminate|].
      destruct (ttype_beq (label x) AND); [|discriminate]. cbn in Hf.
      destruct (pcond f ts1) as [[v ts2]|e] eqn:E; cbn [bind].
      + apply (rests f) in E. apply IHl. lia.
      + intro H; injection H as ->. revert E. apply IHc. lia.
    - intros ts Hf. rewrite pcond_S.
      destruct (match ts with tok :: _ => ttype_beq (label tok) NOT | [] => false end) eqn:En.
      + destruct ts as [|x ts1]; [discriminate|]. cbn [tl]. cbn in Hf.
        destruct (pcond f ts1) as [[u r]|e] eqn:E; cbn [bind]; [discriminate|].
        intro H; injection H as ->. revert E. apply IHc. lia.
      + destruct (parse_call float_of date_of ts) as [[o ts1]|e] eqn:E; cbn [bind].
        * apply parse_call_rest in E.
          destruct (match ts1 with tok :: _ => ttype_beq (label tok) LEFTPAREN | [] => false end) eqn:Ep.
          -- destruct ts1 as [|x ts1]; [discriminate|]. cbn [tl]. cbn in E.
             destruct (pexpr f ts1) as [[u r]|e] eqn:E2; cbn [bind].
             ++ destruct r as [|y r]; [discriminate|]. destruct (ttype_beq _ RIGHTPAREN); discriminate.
             ++ intro H; injection H as ->. revert E2. apply IHe. lia.
          -- apply parse_comparison_not_fuel.
        * intro H; injection H as ->. now apply parse_call_not_fuel in E.
  Qed.

  Lemma parse_ends ts : parse float_of date_of ts <> Raise OutOfFuel.
  Proof.
    unfold parse. intro H. destruct (enough (4 * length ts + 4)) as [He _].
    apply (He ts); [lia|]. destruct (pexpr _ ts) as [[t r]|e]; cbn in H; [discriminate|congruence].
  Qed.

  (** ** Completeness *)
  Definition ev_expr ts r := exists f, pexpr f ts = r.
  Definition ev_or t ts r := exists f, ploop_or f t ts = r.
  Definition ev_and ts r := exists f, pand f ts = r.
  Definition ev_andl t ts r := exists f, ploop_and f t ts = r.
  Definition ev_cond ts r := exists f, pcond f ts = r.

  Lemma ev_expr_i ts t ts1 t' rest : ev_and ts (Ok (t, ts1)) -> ev_or t ts1 (Ok (t', rest)) -> ev_expr ts (Ok (t', rest)).
  Proof.
    intros [f Hf] [g Hg]. exists (S (f + g)). rewrite pexpr_S.
    rewrite (mono_and f (f + g) ts _ ltac:(lia) Hf) by discriminate. cbn [bind].
    apply (mono_or g); [lia|auto|discriminate].
  Qed.
  Lemma ev_or_stop t ts : (forall x r, ts = x :: r -> label x <> OR) -> ev_or t ts (Ok (t, ts)).
  Proof.
    intro H. exists 1. rewrite por_S. destruct ts as [|x r]; auto. specialize (H x r eq_refl).
    apply beq_false in H. now rewrite H.
  Qed.
  Lemma ev_or_more t o ts u ts1 t' rest :
    label o = OR -> ev_and ts (Ok (u, ts1)) -> ev_or (TOr t u) ts1 (Ok (t', rest)) ->
    ev_or t (o :: ts) (Ok (t', rest)).
  Proof.
    intros Ho [f Hf] [g Hg]. exists (S (f + g)). rewrite por_S, Ho. cbn [ttype_beq].
    rewrite (mono_and f (f + g) ts _ ltac:(lia) Hf) by discriminate. cbn [bind].
    apply (mono_or g); [lia|auto|discriminate].
  Qed.
  Lemma ev_and_i ts t ts1 t' rest : ev_cond ts (Ok (t, ts1)) -> ev_andl t ts1 (Ok (t', rest)) -> ev_and ts (Ok (t', rest)).
  Proof.
    intros [f Hf] [g Hg]. exists (S (f + g)). rewrite pand_S.
    rewrite (mono_cond f (f + g) ts _ ltac:(lia) Hf) by discriminate. cbn [bind].
    apply (mono_andl g); [lia|auto|discriminate].
  Qed.
  Lemma ev_andl_stop t ts : (forall x r, ts = x :: r -> label x <> AND) -> ev_andl t ts (Ok (t, ts)).
  Proof.
    intro H. exists 1. rewrite pandl_S. destruct ts as [|x r]; auto. specialize (H x r eq_refl).
    apply beq_false in H. now rewrite H.
  Qed.
  Lemma ev_andl_more t o ts u ts1 t' rest :
    label o = AND -> ev_cond ts (Ok (u, ts1)) -> ev_andl (TAnd t u) ts1 (Ok (t', rest)) ->
    ev_andl t (o :: ts) (Ok (t', rest)).
  Proof.
    intros Ho [f Hf] [g Hg]. exists (S (f + g)). rewrite pandl_S, Ho. cbn [ttype_beq].
    rewrite (mono_cond f (f + g) ts _ ltac:(lia) Hf) by discriminate. cbn [bind].
    apply (mono_andl g); [lia|auto|discriminate].
  Qed.

  Notation Operand := (operand label float_of date_of).
  Notation Items := (items label item).
  Notation Balanced := (balanced label).
  Notation Left := (left_operand label float_of date_of).
  Notation Right := (right_operand label item float_of date_of).
  Notation Either := (either label item float_of date_of).
  Notation Both := (both label item float_of date_of).
  Notation Single := (single label item float_of date_of).

  Lemma operand_parses ts t rest : Operand ts t -> pterm (ts ++ rest) = Ok (t, rest).
  Proof.
    inversion 1 as [s n H1 H2|s v H1 H2|s H1|s H1|s H1|s d H1 H2]; subst; cbn; rewrite H1; try rewrite H2; reflexivity.
  Qed.

  Lemma operand_first ts t : Operand ts t -> exists s, ts = [s] /\ label s <> NOT /\ label s <> FUNCTION /\
    label s <> AGGREGATOR /\ label s <> LEFTPAREN.
  Proof. inversion 1; subst; eexists; split; eauto; repeat split; congruence. Qed.

  Lemma items_parse ts vs acc z rest : Items ts vs -> label z = RIGHTPAREN ->
    parse_list float_of date_of acc (ts ++ z :: rest) = Ok (acc ++ vs, rest).
  Proof.
    intros H Hz. revert acc; induction H as [|c ts vs Hc _ IH|s ts vs H1 H2 _ IH]; intro acc; cbn.
    - rewrite Hz. cbn. now rewrite app_nil_r.
    - rewrite Hc. cbn. apply IH.
    - apply beq_false in H1, H2. rewrite H1, H2. rewrite IH. now rewrite <- app_assoc.
  Qed.

  Lemma right_parses ts t rest : Right ts t -> pterm (ts ++ rest) = Ok (t, rest).
  Proof.
    inversion 1 as [? ? Ho|a ts' vs z Ha Hi Hz]; subst; [now apply operand_parses|].
    cbn. rewrite Ha. rewrite <- app_assoc. cbn [app].
    rewrite (items_parse _ _ [] z rest Hi Hz). reflexivity.
  Qed.

  Lemma balanced_collect args : Balanced args -> forall n acc z rest, label z = RIGHTPAREN ->
    collect_call float_of date_of (S n) acc (args ++ z :: rest) =
    collect_call float_of date_of (S n) (acc ++ concat args) (z :: rest).
  Proof.
    induction 1 as [|s ts H1 H2 _ IH|a ts1 z1 ts2 Ha Hz1 _ IH1 _ IH2]; intros n acc z rest Hz.
    - cbn [app concat]. now rewrite app_nil_r.
    - cbn [app concat]. cbn [collect_call]. pose proof (proj2 (beq_false _ _) H1) as E1.
      pose proof (proj2 (beq_false _ _) H2) as E2. rewrite E1, E2.
      rewrite IH by auto. now rewrite <- app_assoc.
    - cbn [app concat]. rewrite <- app_assoc. cbn [app].
      set (tail := ts2 ++ z :: rest).
      change (collect_call float_of date_of (S n) acc (a :: ts1 ++ z1 :: tail)) with
        (if ttype_beq (label a) RIGHTPAREN then
           match n with O => Ok (acc ++ a, ts1 ++ z1 :: tail)
                      | S _ => collect_call float_of date_of n (acc ++ a) (ts1 ++ z1 :: tail) end
         else if ttype_beq (label a) LEFTPAREN then collect_call float_of date_of (S (S n)) (acc ++ a) (ts1 ++ z1 :: tail)
         else collect_call float_of date_of (S n) (acc ++ a) (ts1 ++ z1 :: tail)).
      rewrite Ha. cbn [ttype_beq]. rewrite IH1 by auto.
      change (collect_call float_of date_of (S (S n)) ((acc ++ a) ++ concat ts1) (z1 :: tail)) with
        (if ttype_beq (label z1) RIGHTPAREN then collect_call float_of date_of (S n) (((acc ++ a) ++ concat ts1) ++ z1) tail
         else if ttype_beq (label z1) LEFTPAREN
              then collect_call float_of date_of (S (S (S n))) (((acc ++ a) ++ concat ts1) ++ z1) tail
              else collect_call float_of date_of (S (S n)) (((acc ++ a) ++ concat ts1) ++ z1) tail).
      rewrite Hz1. cbn [ttype_beq]. unfold tail. rewrite IH2 by auto.
      rewrite concat_app. cbn [concat]. now rewrite <- !app_assoc.
  Qed.

  Lemma call_parses f a args z rest :
    label f = FUNCTION \/ label f = AGGREGATOR -> label a = LEFTPAREN -> Balanced args -> label z = RIGHTPAREN ->
    parse_call float_of date_of ((f :: a :: args ++ [z]) ++ rest) = Ok (Some (TVar (f ++ $"(" ++ concat args ++ z)), rest).
  Proof.
    intros Hf Ha Hb Hz. cbn [app]. rewrite <- app_assoc. cbn [app].
    unfold parse_call.
    replace (ttype_beq (label f) FUNCTION || ttype_beq (label f) AGGREGATOR) with true
      by (destruct Hf as [->| ->]; reflexivity).
    rewrite Ha. cbn [ttype_beq]. rewrite balanced_collect by auto. cbn [collect_call]. rewrite Hz. cbn [ttype_beq bind].
    now rewrite <- !app_assoc.
  Qed.

  Lemma single_test_parses ts1 t1 o ts2 t2 rest : Left ts1 t1 -> label o = OPERATOR -> Right ts2 t2 ->
    ev_cond ((ts1 ++ o :: ts2) ++ rest) (Ok (TOp (upper o) t1 t2, rest)).
  Proof.
    intros Hl Ho Hr. exists 1. rewrite <- app_assoc. cbn [app].
    inversion Hl as [? ? Hop|f a args z Hf Ha Hb Hz]; subst.
    - destruct (operand_first _ _ Hop) as (s & -> & N1 & N2 & N3 & N4).
      pose proof (operand_parses _ _ (o :: ts2 ++ rest) Hop) as P. cbn [app] in *.
      apply beq_false in N1, N2, N3, N4. rewrite pcond_S.
      rewrite N1. cbn [parse_call]. rewrite N2, N3. cbn [orb bind]. rewrite N4.
      unfold parse_comparison. rewrite P. cbn [bind]. rewrite Ho. cbn [ttype_beq].
      rewrite (right_parses _ _ rest Hr). reflexivity.
    - pose proof (call_parses f a args z (o :: ts2 ++ rest) Hf Ha Hb Hz) as P.
      assert (N1 : ttype_beq (label f) NOT = false) by (apply beq_false; destruct Hf as [H|H]; rewrite H; discriminate).
      cbn [app] in *. rewrite pcond_S. rewrite N1. rewrite P. cbn [bind]. rewrite Ho. cbn [ttype_beq].
      unfold parse_comparison. cbn [bind]. rewrite Ho. cbn [ttype_beq].
      rewrite (right_parses _ _ rest Hr). reflexivity.
  Qed.

  Lemma cond_not n ts t rest : label n = NOT -> ev_cond ts (Ok (t, rest)) -> ev_cond (n :: ts) (Ok (TNot t, rest)).
  Proof. intros Hn [f Hf]. exists (S f). rewrite pcond_S. rewrite Hn. cbn [ttype_beq tl]. rewrite Hf. reflexivity. Qed.

  Lemma cond_paren a ts t z rest : label a = LEFTPAREN -> label z = RIGHTPAREN ->
    ev_expr ts (Ok (t, z :: rest)) -> ev_cond (a :: ts) (Ok (t, rest)).
  Proof.
    intros Ha Hz [f Hf]. exists (S f). rewrite pcond_S. rewrite Ha. cbn [ttype_beq parse_call].
    rewrite Ha. cbn [ttype_beq orb bind]. rewrite Ha. cbn [ttype_beq tl]. rewrite Hf. cbn [bind]. now rewrite Hz.
  Qed.

  Scheme either_mind := Minimality for either Sort Prop
    with both_mind := Minimality for both Sort Prop
    with single_mind := Minimality for single Sort Prop.
  Combined Scheme grammar_mind from either_mind, both_mind, single_mind.

  Lemma grammar_parses :
    (forall ts t, Either ts t ->
       forall rest t' r', (forall x r, rest = x :: r -> label x <> AND) ->
       ev_or t rest (Ok (t', r')) -> ev_expr (ts ++ rest) (Ok (t', r'))) /\
    (forall ts t, Both ts t ->
       forall rest t' r', ev_andl t rest (Ok (t', r')) -> ev_and (ts ++ rest) (Ok (t', r'))) /\
    (forall ts t, Single ts t -> forall rest, ev_cond (ts ++ rest) (Ok (t, rest))).
  Proof.
    apply grammar_mind.
    - intros ts t _ IH rest t' r' Hr Hor. eapply ev_expr_i; [|exact Hor]. apply IH. now apply ev_andl_stop.
    - intros ts1 t1 o ts2 t2 _ IH1 Ho _ IH2 rest t' r' Hr Hor.
      rewrite <- app_assoc. cbn [app]. apply IH1.
      + intros x r E. injection E as <- _. congruence.
      + eapply ev_or_more; [exact Ho| |exact Hor]. apply IH2. now apply ev_andl_stop.
    - intros ts t _ IH rest t' r' Hand. eapply ev_and_i; [|exact Hand]. apply IH.
    - intros ts1 t1 o ts2 t2 _ IH1 Ho _ IH2 rest t' r' Hand.
      rewrite <- app_assoc. cbn [app]. apply IH1.
      eapply ev_andl_more; [exact Ho| |exact Hand]. apply IH2.
    - intros n ts t Hn _ IH rest. cbn [app]. apply cond_not; auto.
    - intros a ts t z Ha _ IH Hz rest. cbn [app]. rewrite <- app_assoc. cbn [app].
      eapply cond_paren; eauto. apply IH.
      + intros x r E. injection E as <- _. congruence.
      + apply ev_or_stop. intros x r E. injection E as <- _. congruence.
    - intros ts1 t1 o ts2 t2 Hl Ho Hr rest. now apply single_test_parses.
  Qed.

  Lemma ev_expr_parse ts t rest : ev_expr ts (Ok (t, rest)) -> parse float_of date_of ts = Ok t.
  Proof.
    intros [f Hf]. unfold parse.
    destruct (le_ge_dec f (4 * length ts + 4)) as [Hle|Hge].
    - rewrite (mono_expr f _ ts _ Hle Hf) by discriminate. reflexivity.
    - destruct (pexpr (4 * length ts + 4) ts) as [[t' r']|e] eqn:E.
      + apply (mono_expr _ f) in E; [|lia|discriminate]. rewrite Hf in E. injection E as -> ->. reflexivity.
      + assert (Raise e <> Raise OutOfFuel :> result (tree * list str)).
        { rewrite <- E. apply enough. lia. }
        apply (mono_expr _ f) in E; [congruence|lia|auto].
  Qed.

  Lemma grammar_complete ts t : Either ts t -> parse float_of date_of ts = Ok t.
  Proof.
    intro H. apply (ev_expr_parse ts t []). rewrite <- (app_nil_r ts). apply (proj1 grammar_parses ts t H).
    - discriminate.
    - apply ev_or_stop. discriminate.
  Qed.

  Lemma grammar_unambiguous ts t t' : Either ts t -> Either ts t' -> t = t'.
  Proof. intros H H'. apply grammar_complete in H, H'. congruence. Qed.

  Lemma trees_have_texts t : label $"(" = LEFTPAREN -> label $")" = RIGHTPAREN -> label $"AND" = AND ->
    label $"OR" = OR -> label $"NOT" = NOT ->
    writable label item float_of date_of t -> exists ts, Single ts t.
  Proof.
    intros La Lz Land Lor Lnot. induction t as [| | |op l _ r _|l IH|l IHl r IHr|l IHl r IHr]; cbn [writable]; try tauto.
    - intros (ts1 & o & ts2 & H1 & H2 & -> & H3). exists (ts1 ++ o :: ts2). now constructor.
    - intro H. destruct (IH H) as [ts Hts]. exists ($"NOT" :: ts). now constructor.
    - intros [Hl Hr]. destruct (IHl Hl) as [ts1 H1]. destruct (IHr Hr) as [ts2 H2].
      exists ($"(" :: (ts1 ++ $"AND" :: ts2) ++ [$")"]). apply single_paren; auto. apply either_one, both_and; auto. now apply both_one.
    - intros [Hl Hr]. destruct (IHl Hl) as [ts1 H1]. destruct (IHr Hr) as [ts2 H2].
      exists ($"(" :: (ts1 ++ $"OR" :: ts2) ++ [$")"]). apply single_paren; auto.
      apply either_or; auto; [apply either_one|]; now apply both_one.
  Qed.

  (** ** Soundness *)
  Notation plain_token := (plain_token label).

  Lemma parse_list_items ts : forall acc l rest, parse_list float_of date_of acc ts = Ok (l, rest) ->
    exists body vs z, ts = body ++ z :: rest /\ Items body vs /\ label z = RIGHTPAREN /\ l = acc ++ vs.
  Proof.
    induction ts as [|x ts IH]; intros acc l rest; cbn; [discriminate|].
    destruct (ttype_beq (label x) RIGHTPAREN) eqn:E1.
    - intro H; injection H as <- <-. apply beq_true in E1. exists [], [], x. rewrite app_nil_r. repeat split; auto. constructor.
    - apply beq_false in E1. destruct (ttype_beq (label x) COMMA) eqn:E2.
      + apply beq_true in E2. intro H. apply IH in H as (b & vs & z & -> & Hb & Hz & ->).
        exists (x :: b), vs, z. repeat split; auto. now constructor.
      + apply beq_false in E2. intro H. apply IH in H as (b & vs & z & -> & Hb & Hz & ->).
        exists (x :: b), (item x :: vs), z. rewrite <- app_assoc. repeat split; auto. now constructor.
  Qed.

  Lemma pterm_sound ts t rest : Forall plain_token ts -> pterm ts = Ok (t, rest) -> t <> TBareNot ->
    exists ts1, ts = ts1 ++ rest /\ Right ts1 t /\
                (forall x r, ts = x :: r -> label x <> LEFTPAREN -> Operand ts1 t).
  Proof.
    intros Hp H Ht. destruct ts as [|x ts']; cbn in H; [discriminate|].
    inversion Hp as [|? ? (Hs & Hn & _) _]; subst.
    assert (G : forall t, Operand [x] t -> exists ts1, x :: ts' = ts1 ++ ts' /\ Right ts1 t /\
                (forall x0 r, x :: ts' = x0 :: r -> label x0 <> LEFTPAREN -> Operand ts1 t)).
    { intros t' Ho. exists [x]. repeat split; auto. now constructor. }
    destruct (label x) eqn:E; try discriminate; try congruence.
    - destruct (py_int x) as [n|e] eqn:E2; cbn in H; [|discriminate]. injection H as <- <-. apply G. now constructor.
    - destruct (float_of x) eqn:E2; [|discriminate]. injection H as <- <-. apply G. now constructor.
    - injection H as <- <-. apply G. now constructor.
    - injection H as <- <-. apply G. now constructor.
    - injection H as <- <-. apply G. now constructor.
    - destruct (date_of (unquoted x)) eqn:E2.
      + injection H as <- <-. apply G. now constructor.
      + exfalso. revert E. unfold get_token_type. cbv zeta. rewrite Hs, E2.
        destruct (Nat.eqb (length x) 0); [discriminate|]. destruct (wrapped "`" x); [discriminate|].
        destruct (str_eqb x $"*"); [discriminate|]. destruct (str_mem (upper x) function_names); [discriminate|].
        destruct (str_mem (upper x) operator_names); [discriminate|].
        destruct (str_mem (upper x) aggregator_names); [discriminate|].
        destruct (_ || _); [discriminate|]. destruct (py_int x); [discriminate|]. destruct (float_of x); [discriminate|].
        destruct (str_mem x [$"("; $"["]); [discriminate|]. destruct (str_mem x [$")"; $"]"]); [discriminate|].
        destruct (str_eqb x $","); [discriminate|]. destruct (starts_word x); [|discriminate].
        repeat (match goal with |- (if ?b then _ else _) = _ -> _ => destruct b; [discriminate|] end). discriminate.
    - destruct (parse_list _ _ [] ts') as [[l r]|e] eqn:E2; cbn in H; [|discriminate]. injection H as <- <-.
      apply parse_list_items in E2 as (b & vs & z & -> & Hb & Hz & ->).
      exists (x :: b ++ [z]). rewrite <- app_comm_cons, <- app_assoc. repeat split.
      + now constructor.
      + intros x0 r0 Hx. injection Hx as <- _. congruence.
  Qed.

  Definition stops_and (ts : list str) : Prop := forall x r, ts = x :: r -> label x <> AND.
  Definition stops_or (ts : list str) : Prop := forall x r, ts = x :: r -> label x <> OR.

  Lemma loop_or_proper f : forall t ts t' rest, ploop_or f t ts = Ok (t', rest) -> proper t' -> proper t.
  Proof.
    induction f as [|f IH]; intros t ts t' rest; [discriminate|]. rewrite por_S.
    destruct ts as [|x ts1]; [intro H; injection H as <- _; auto|].
    destruct (ttype_beq (label x) OR); [|intro H; injection H as <- _; auto].
    destruct (pand f ts1) as [[u ts2]|e]; cbn [bind]; [|discriminate].
    intros H Hp. apply IH in H; auto. now destruct H.
  Qed.

  Lemma loop_and_proper f : forall t ts t' rest, ploop_and f t ts = Ok (t', rest) -> proper t' -> proper t.
  Proof.
    induction f as [|f IH]; intros t ts t' rest; [discriminate|]. rewrite pandl_S.
    destruct ts as [|x ts1]; [intro H; injection H as <- _; auto|].
    destruct (ttype_beq (label x) AND); [|intro H; injection H as <- _; auto].
    destruct (pcond f ts1) as [[u ts2]|e]; cbn [bind]; [|discriminate].
    intros H Hp. apply IH in H; auto. now destruct H.
  Qed.

  Lemma parse_call_plain ts : Forall plain_token ts -> parse_call float_of date_of ts = Ok (None, ts).
  Proof.
    intros [|x l (_ & _ & H1 & H2) _]; auto. unfold parse_call. apply beq_false in H1, H2. rewrite H1, H2. reflexivity.
  Qed.

  Lemma comparison_sound ts t rest : Forall plain_token ts -> (forall x r, ts = x :: r -> label x <> LEFTPAREN) ->
    parse_comparison float_of date_of None ts = Ok (t, rest) -> proper t -> exists ts1, ts = ts1 ++ rest /\ Single ts1 t.
  Proof.
    intros Hp Hh H Ht. unfold parse_comparison in H.
    destruct (pterm ts) as [[t1 r1]|e] eqn:E1; cbn [bind] in H; [|discriminate].
    destruct r1 as [|o r2]; [discriminate|]. destruct (ttype_beq (label o) OPERATOR) eqn:Eo; [|discriminate].
    apply beq_true in Eo. destruct (pterm r2) as [[t2 r3]|e] eqn:E2; cbn [bind] in H; [|discriminate].
    injection H as <- <-. destruct Ht as [P1 P2].
    apply pterm_sound in E1 as (a & -> & _ & Ha); [|auto|intros ->; exact P1].
    apply pterm_sound in E2 as (b & -> & Hb & _); [| |intros ->; exact P2].
    - assert (Operand a t1).
      { destruct a as [|x a'].
        - exfalso. specialize (Ha o (b ++ r3) eq_refl ltac:(congruence)). inversion Ha.
        - apply (Ha x (a' ++ o :: b ++ r3) eq_refl). eapply Hh. reflexivity. }
      exists (a ++ o :: b). rewrite <- app_assoc. split; auto. constructor; auto. now constructor.
    - apply Forall_app in Hp as [_ Hp]. now inversion Hp.
  Qed.

  Lemma sound f :
    (forall ts t rest, pexpr f ts = Ok (t, rest) -> Forall plain_token ts -> proper t ->
       exists ts1, ts = ts1 ++ rest /\ Either ts1 t /\ stops_and rest /\ stops_or rest) /\
    (forall t ts t' rest, ploop_or f t ts = Ok (t', rest) -> Forall plain_token ts -> proper t' -> stops_and ts ->
       exists ts1, ts = ts1 ++ rest /\ stops_and rest /\ stops_or rest /\
         forall ts0, Either ts0 t -> Either (ts0 ++ ts1) t') /\
    (forall ts t rest, pand f ts = Ok (t, rest) -> Forall plain_token ts -> proper t ->
       exists ts1, ts = ts1 ++ rest /\ Both ts1 t /\ stops_and rest) /\
    (forall t ts t' rest, ploop_and f t ts = Ok (t', rest) -> Forall plain_token ts -> proper t' ->
       exists ts1, ts = ts1 ++ rest /\ stops_and rest /\ forall ts0, Both ts0 t -> Both (ts0 ++ ts1) t') /\
    (forall ts t rest, pcond f ts = Ok (t, rest) -> Forall plain_token ts -> proper t ->
       exists ts1, ts = ts1 ++ rest /\ Single ts1 t).
  Proof.
    induction f as [|f (IHe & IHo & IHa & IHl & IHc)].
    { repeat split; intros; discriminate. }
    repeat split.
    - intros ts t rest H Hp Ht. rewrite pexpr_S in H.
      destruct (pand f ts) as [[u ts1]|e] eqn:E; cbn [bind] in H; [|discriminate].
      pose proof (loop_or_proper _ _ _ _ _ H Ht) as Hu.
      apply IHa in E as (a & -> & Ha & Hs); auto.
      apply Forall_app in Hp as [_ Hp].
      apply IHo in H as (b & -> & S1 & S2 & G); auto.
      exists (a ++ b). rewrite <- app_assoc. split; [reflexivity|]. split; [|now split]. apply G. now apply either_one.
    - intros t ts t' rest H Hp Ht Hs. rewrite por_S in H.
      destruct ts as [|x ts1].
      { injection H as <- <-. exists []. split; [reflexivity|]. repeat split; try discriminate.
        intros ts0. now rewrite app_nil_r. }
      destruct (ttype_beq (label x) OR) eqn:Ex.
      + apply beq_true in Ex. inversion Hp as [|? ? Hx Hp']; subst.
        destruct (pand f ts1) as [[u ts2]|e] eqn:E; cbn [bind] in H; [|discriminate].
        pose proof (loop_or_proper _ _ _ _ _ H Ht) as [_ Hu].
        apply IHa in E as (a & -> & Ha & Hsa); auto.
        apply Forall_app in Hp' as [_ Hp'].
        apply IHo in H as (b & -> & S1 & S2 & G); auto.
        exists (x :: a ++ b). cbn [app]. rewrite <- app_assoc. split; [reflexivity|]. split; [auto|]. split; [auto|].
        intros ts0 H0. specialize (G (ts0 ++ x :: a)). rewrite <- app_assoc in G. apply G. now apply either_or.
      + apply beq_false in Ex. injection H as <- <-. exists []. split; [reflexivity|]. split; [auto|]. split.
        * intros y r Hy. injection Hy as <- _. exact Ex.
        * intros ts0. now rewrite app_nil_r.
    - intros ts t rest H Hp Ht. rewrite pand_S in H.
      destruct (pcond f ts) as [[u ts1]|e] eqn:E; cbn [bind] in H; [|discriminate].
      pose proof (loop_and_proper _ _ _ _ _ H Ht) as Hu.
      apply IHc in E as (a & -> & Ha); auto.
      apply Forall_app in Hp as [_ Hp].
      apply IHl in H as (b & -> & S1 & G); auto.
      exists (a ++ b). rewrite <- app_assoc. split; [reflexivity|]. split; [|auto]. apply G. now apply both_one.
    - intros t ts t' rest H Hp Ht. rewrite pandl_S in H.
      destruct ts as [|x ts1].
      { injection H as <- <-. exists []. split; [reflexivity|]. split; [discriminate|].
        intros ts0. now rewrite app_nil_r. }
      destruct (ttype_beq (label x) AND) eqn:Ex.
      + apply beq_true in Ex. inversion Hp as [|? ? Hx Hp']; subst.
        destruct (pcond f ts1) as [[u ts2]|e] eqn:E; cbn [bind] in H; [|discriminate].
        pose proof (loop_and_proper _ _ _ _ _ H Ht) as [_ Hu].
        apply IHc in E as (a & -> & Ha); auto.
        apply Forall_app in Hp' as [_ Hp'].
        apply IHl in H as (b & -> & S1 & G); auto.
        exists (x :: a ++ b). cbn [app]. rewrite <- app_assoc. split; [reflexivity|]. split; [auto|].
        intros ts0 H0. specialize (G (ts0 ++ x :: a)). rewrite <- app_assoc in G. apply G. now apply both_and.
      + apply beq_false in Ex. injection H as <- <-. exists []. split; [reflexivity|]. split.
        * intros y r Hy. injection Hy as <- _. exact Ex.
        * intros ts0. now rewrite app_nil_r.
    - intros ts t rest H Hp Ht. rewrite pcond_S in H.
      destruct ts as [|x ts1].
      { cbn in H. discriminate. }
      destruct (ttype_beq (label x) NOT) eqn:Ex.
      + apply beq_true in Ex. cbn [tl] in H. inversion Hp as [|? ? Hx Hp']; subst.
        destruct (pcond f ts1) as [[u r]|e] eqn:E; cbn [bind] in H; [|discriminate]. injection H as <- <-.
        apply IHc in E as (a & -> & Ha); auto. exists (x :: a). split; [reflexivity|]. now apply single_not.
      + rewrite (parse_call_plain _ Hp) in H. cbn [bind] in H.
        destruct (ttype_beq (label x) LEFTPAREN) eqn:Ep.
        * apply beq_true in Ep. cbn [tl] in H. inversion Hp as [|? ? Hx Hp']; subst.
          destruct (pexpr f ts1) as [[u r]|e] eqn:E; cbn [bind] in H; [|discriminate].
          destruct r as [|z r]; [discriminate|]. destruct (ttype_beq (label z) RIGHTPAREN) eqn:Ez; [|discriminate].
          apply beq_true in Ez. injection H as <- <-. apply IHe in E as (a & -> & Ha & _); auto.
          exists (x :: a ++ [z]). cbn [app]. rewrite <- app_assoc. split; [reflexivity|]. now apply single_paren.
        * apply beq_false in Ep. apply comparison_sound; auto.
          intros y r Hy. injection Hy as <- _. exact Ep.
  Qed.

  Lemma grammar_sound ts t : Forall plain_token ts -> parse float_of date_of ts = Ok t -> proper t ->
    exists ts1 rest, ts = ts1 ++ rest /\ Either ts1 t /\
      forall x r, rest = x :: r -> label x <> AND /\ label x <> OR.
  Proof.
    intros Hp H Ht. unfold parse in H. destruct (pexpr _ ts) as [[t' rest]|e] eqn:E; cbn [bind] in H; [|discriminate].
    injection H as ->. apply sound in E as (a & -> & Ha & S1 & S2); auto. exists a, rest. repeat split; auto.
    - eapply S1; eauto.
    - eapply S2; eauto.
  Qed.
End E.

Lemma satisfied_ext p q t : (forall c, In c (comparisons t) -> (p c <-> q c)) -> (satisfied p t <-> satisfied q t).
Proof.
  induction t as [| | | |a IHa|a IHa b IHb|a IHa b IHb]; cbn [satisfied comparisons]; intro H;
    try (apply H; now left).
  - now rewrite IHa.
  - rewrite IHa, IHb; [tauto| |]; intros; apply H; apply in_or_app; auto.
  - rewrite IHa, IHb; [tauto| |]; intros; apply H; apply in_or_app; auto.
Qed.

Section Eval.
  Context (float_of date_of : str -> option value).
  Context (py_is : value -> value -> bool) (matches : value -> value -> result bool).
  Notation ev := (evaluate_recursive float_of date_of py_is matches).

  Definition is_true (r : record) (c : tree) : Prop := exists w, ev c r = Ok w /\ truthy w = true.

  Lemma eval_satisfied r t : forall v, ev t r = Ok v -> (truthy v = true <-> satisfied (is_true r) t).
  Proof.
    assert (G : forall t v, ev t r = Ok v -> (truthy v = true <-> is_true r t)).
    { intros c v E. unfold is_true. rewrite E. split; [intro; eauto|]. intros (w & Ew & Hw). congruence. }
    induction t as [ty c|n| |op a _ b _|a IHa|a IHa b IHb|a IHa b IHb]; intros v E; try (apply G; exact E); cbn in E.
    - destruct (ev a r) as [x|e] eqn:Ea; cbn in E; [|discriminate]. injection E as <-. cbn.
      rewrite <- (IHa x eq_refl). destruct (truthy x); cbn; intuition congruence.
    - destruct (ev a r) as [x|e] eqn:Ea; cbn in E; [|discriminate].
      destruct (ev b r) as [y|e] eqn:Eb; cbn in E; [|discriminate]. injection E as <-. cbn [satisfied].
      rewrite <- (IHa x eq_refl), <- (IHb y eq_refl). destruct (truthy x) eqn:Tx; [intuition congruence|].
      rewrite Tx. intuition congruence.
    - destruct (ev a r) as [x|e] eqn:Ea; cbn in E; [|discriminate].
      destruct (ev b r) as [y|e] eqn:Eb; cbn in E; [|discriminate]. injection E as <-. cbn [satisfied].
      rewrite <- (IHa x eq_refl), <- (IHb y eq_refl). destruct (truthy x) eqn:Tx; [rewrite Tx|]; intuition congruence.
  Qed.

  Lemma eval_returns r t : (forall c, In c (comparisons t) -> exists v, ev c r = Ok v) -> exists v, ev t r = Ok v.
  Proof.
    induction t as [ty c|n| |op a _ b _|a IHa|a IHa b IHb|a IHa b IHb]; intro H;
      try (apply H; now left); cbn [comparisons] in H; cbn [evaluate_recursive].
    - destruct (IHa H) as [x ->]. cbn. eauto.
    - destruct IHa as [x ->]; [intros; apply H; apply in_or_app; auto|].
      destruct IHb as [y ->]; [intros; apply H; apply in_or_app; auto|]. cbn. eauto.
    - destruct IHa as [x ->]; [intros; apply H; apply in_or_app; auto|].
      destruct IHb as [y ->]; [intros; apply H; apply in_or_app; auto|]. cbn. eauto.
  Qed.

  Lemma eval_raises r t e : ev t r = Raise e -> exists c, In c (comparisons t) /\ ev c r = Raise e.
  Proof.
    induction t as [ty c|n| |op a _ b _|a IHa|a IHa b IHb|a IHa b IHb]; intro E;
      try (eexists; split; [now left|exact E]); cbn [evaluate_recursive] in E; cbn [comparisons].
    - destruct (ev a r); cbn in E; [discriminate|]. auto.
    - destruct (ev a r) as [x|e1]; cbn in E.
      + destruct (ev b r) as [y|e2]; cbn in E; [discriminate|]. destruct (IHb E) as (c & Hc & Ec).
        exists c. split; auto. apply in_or_app; auto.
      + destruct (IHa E) as (c & Hc & Ec). exists c. split; auto. apply in_or_app; auto.
    - destruct (ev a r) as [x|e1]; cbn in E.
      + destruct (ev b r) as [y|e2]; cbn in E; [discriminate|]. destruct (IHb E) as (c & Hc & Ec).
        exists c. split; auto. apply in_or_app; auto.
      + destruct (IHa E) as (c & Hc & Ec). exists c. split; auto. apply in_or_app; auto.
  Qed.

  (** ** Comparisons *)
  Notation interpret := (interpret_value float_of date_of).
  Notation Reads := (reads float_of date_of).

  Lemma interpret_reads v : Reads v (interpret v).
  Proof.
    destruct v; cbn [interpret_value]; try (apply reads_other; discriminate).
    destruct (str_mem (upper s) [$"TRUE"; $"FALSE"]) eqn:E.
    - unfold str_mem, mem in E. cbn [existsb] in E. destruct (str_eqb (upper s) $"TRUE") eqn:E1.
      + apply reads_true. now apply str_eqb_eq.
      + apply reads_false. destruct (str_eqb (upper s) $"FALSE") eqn:E2; [|discriminate]. now apply str_eqb_eq.
    - unfold str_mem, mem in E. cbn [existsb] in E.
      destruct (str_eqb (upper s) $"TRUE") eqn:E1; [discriminate|].
      destruct (str_eqb (upper s) $"FALSE") eqn:E2; [discriminate|].
      apply str_eqb_neq in E1, E2.
      destruct (py_int s) as [n|e] eqn:Ei; [now constructor|].
      pose proof (py_int_raises _ _ Ei) as ->.
      destruct (float_of s) eqn:Ef; [now apply reads_float|].
      destruct (date_of s) eqn:Ed; [now apply reads_date|now apply reads_text].
  Qed.

  Lemma py_int_bool s : upper s = $"TRUE" \/ upper s = $"FALSE" -> py_int s = Raise ValueError.
  Proof.
    assert (L : forall c, In (upper_c c) $"TRUEFALSE" -> In c $"TRUEFALSEtruefalse").
    { intros c. destruct c as [[] [] [] [] [] [] [] []]; cbn; intuition (try discriminate; auto 30). }
    intros H. assert (Hs : forall c, In c s -> In c $"TRUEFALSEtruefalse").
    { intros c Hc. apply L. assert (In (upper_c c) (upper s)) by (now apply in_map).
      destruct H as [H|H]; rewrite H in *; cbn in *; intuition. }
    destruct s as [|c s]; [reflexivity|].
    unfold py_int, ustrip.
    assert (Hn : forall l, (forall c, In c l -> In c $"TRUEFALSEtruefalse") -> ulstrip l = l).
    { intros [|d l] Hl; auto. cbn. specialize (Hl d (or_introl eq_refl)). cbn in Hl.
      decompose [or] Hl; subst; try reflexivity; contradiction. }
    rewrite (Hn (c :: s) Hs), Hn, rev_involutive.
    - specialize (Hs c (or_introl eq_refl)). cbn in Hs. decompose [or] Hs; subst; try reflexivity; contradiction.
    - intros d Hd. apply Hs. now apply in_rev.
  Qed.

  Lemma reads_interpret x v : Reads x v -> v = interpret x.
  Proof.
    inversion 1 as [? H1|s H1|s H1|s n H1|s w H1 H2 H3 H4|s w H1 H2 H3 H4 H5|s H1 H2 H3 H4 H5]; subst.
    - destruct v; auto. now destruct (H1 s).
    - cbn [interpret_value]. now rewrite H1.
    - cbn [interpret_value]. now rewrite H1.
    - cbn [interpret_value]. destruct (str_mem (upper s) [$"TRUE"; $"FALSE"]) eqn:E; [|now rewrite H1].
      rewrite py_int_bool in H1; [discriminate|]. unfold str_mem, mem in E. cbn [existsb] in E.
      destruct (str_eqb (upper s) $"TRUE") eqn:E1; [left; now apply str_eqb_eq|].
      destruct (str_eqb (upper s) $"FALSE") eqn:E2; [right; now apply str_eqb_eq|discriminate].
    - cbn [interpret_value]. unfold str_mem, mem. cbn [existsb]. apply str_eqb_neq in H2, H3. rewrite H2, H3. cbn [orb]. now rewrite H1, H4.
    - cbn [interpret_value]. unfold str_mem, mem. cbn [existsb]. apply str_eqb_neq in H2, H3. rewrite H2, H3. cbn [orb]. now rewrite H1, H4, H5.
    - cbn [interpret_value]. unfold str_mem, mem. cbn [existsb]. apply str_eqb_neq in H2, H3. rewrite H2, H3. cbn [orb]. now rewrite H1, H4, H5.
  Qed.

  Lemma wrapped_true q s : wrapped q s = true <-> s = [q] \/ exists m, s = q :: m ++ [q].
  Proof.
    unfold wrapped. split.
    - destruct s as [|a s]; [discriminate|]. destruct (rev (a :: s)) as [|z l] eqn:E; [discriminate|].
      intro H. apply andb_true_iff in H as [H1 H2]. apply Ascii.eqb_eq in H1, H2. subst a z.
      destruct s as [|b s]; [now left|]. right.
      assert (E2 : q :: b :: s = rev l ++ [q]) by (rewrite <- (rev_involutive (q :: b :: s)), E; reflexivity).
      destruct (rev l) as [|x m]; [discriminate|]. injection E2 as -> E2. exists m. now rewrite E2.
    - intros [-> |[m ->]]; cbn.
      + now rewrite Ascii.eqb_refl.
      + rewrite rev_app_distr. cbn. now rewrite Ascii.eqb_refl.
  Qed.

  Lemma unquoted_wrap q m : unquoted (q :: m ++ [q]) = m.
  Proof. unfold unquoted. cbn [tl]. apply removelast_last. Qed.

  Lemma names_wrapped s : names_column s (if wrapped "`" s then unquoted s else s).
  Proof.
    destruct (wrapped "`" s) eqn:E.
    - apply wrapped_true in E as [-> |[m ->]]; [apply names_tick|]. rewrite unquoted_wrap.
      exact (names_quoted m).
    - apply names_plain.
      + intros m ->. assert (wrapped "`" ($"`" ++ m ++ $"`") = true); [|congruence].
        apply wrapped_true. right. now exists m.
      + intros ->. discriminate.
  Qed.

  Lemma names_column_fun s n : names_column s n -> n = if wrapped "`" s then unquoted s else s.
  Proof.
    inversion 1 as [? H1 H2|? |]; subst.
    - destruct (wrapped "`" n) eqn:E; auto. apply wrapped_true in E as [-> |[m ->]]; [now destruct H2|].
      now destruct (H1 m).
    - replace (wrapped "`" ($"`" ++ n ++ $"`")) with true; [exact (eq_sym (unquoted_wrap "`" n))|].
      symmetry. apply wrapped_true. right. now exists n.
    - reflexivity.
  Qed.

  Notation Side := (side_value float_of date_of).

  Lemma side_eval r a x : NoDup (map fst r) -> atom a -> (ev a r = Ok x <-> Side r a x).
  Proof.
    intros Hr Ha. destruct a as [ty v|n| |op a b|a|a b|a b]; try contradiction.
    - cbn. split; [intro H; injection H as <-; constructor|]. inversion 1; reflexivity.
    - cbn [evaluate_recursive]. set (m := if wrapped "`" n then unquoted n else n). split.
      + intro H. injection H as <-. destruct (dget str_eqb m r) as [y|] eqn:E.
        * apply (side_column _ _ r n m y); [apply names_wrapped| |apply interpret_reads].
          eapply dget_Some_In; [|exact E]. exact str_keqb.
        * apply (side_missing _ _ r n m); [apply names_wrapped|]. now apply (dget_None str_eqb str_keqb) in E.
      + inversion 1 as [|? k y ? Hk Hin Hrd|? k Hk Hin]; subst.
        * apply names_column_fun in Hk. subst k. fold m in Hin.
          rewrite (In_dget str_eqb str_keqb m y r Hr Hin). now rewrite (reads_interpret _ _ Hrd).
        * apply names_column_fun in Hk. subst k. fold m in Hin.
          change (map fst r) with (dkeys r) in Hin. apply (dget_None str_eqb str_keqb) in Hin. now rewrite Hin.
    - cbn. split; [discriminate|]. inversion 1.
  Qed.

  Notation Compares := (compares float_of date_of py_is matches).
  Notation apply_op := (apply_operator float_of date_of py_is matches).

  Lemma in_list_spec x l :
    existsb (py_eq x) (map (interpret_quoted float_of date_of)
      (filter (fun i => negb (str_eqb (strip (py_str i)) $",")) l)) = true <-> in_list float_of date_of x l.
  Proof.
    rewrite existsb_exists. unfold in_list. split.
    - intros (y & Hy & E). apply in_map_iff in Hy as (m & <- & Hm). apply filter_In in Hm as [Hm N].
      exists m. split; auto. split; auto. apply negb_true_iff in N. now apply str_eqb_neq.
    - intros (m & Hm & N & E). exists (interpret_quoted float_of date_of m). split; auto. apply in_map, filter_In.
      split; auto. apply negb_true_iff. now apply str_eqb_neq.
  Qed.

  Lemma compares_apply op x y : Compares op x y <-> apply_op op x y = Ok true.
  Proof.
    split.
    - inversion 1 as [? ? ? Hop E|? ? ? Hop E| | | | | | |? p L|? p L| |? l L|? s L|? d L| ]; subst;
        try (match goal with H : _ = Ok true |- _ => exact H | H : py_is _ _ = true |- _ => exact (f_equal Ok H) end).
      + cbn [In] in Hop. destruct Hop as [<-|[<-|[]]]; unfold apply_operator; cbn; congruence.
      + cbn [In] in Hop. destruct Hop as [<-|[<-|[]]]; unfold apply_operator; cbn; now rewrite E.
      + unfold apply_operator; cbn. match goal with H : py_is _ _ = false |- _ => now rewrite H end.
      + destruct (Filters.like_lines x p) as (b & E1 & E2 & Hb). unfold apply_operator. cbn -[like_values not_like_values].
        rewrite E1. f_equal. now apply Hb.
      + destruct (Filters.like_lines x p) as (b & E1 & E2 & Hb). unfold apply_operator. cbn -[like_values not_like_values].
        rewrite E2. f_equal. destruct b; auto. exfalso. apply L. now apply Hb.
      + change (apply_op $"IN" x (VList l)) with (function_in float_of date_of x (VList l)). cbn [function_in].
        f_equal. now apply in_list_spec.
      + change (apply_op $"IN" x (VStr s)) with (function_in float_of date_of x (VStr s)). cbn [function_in].
        f_equal. now apply in_list_spec.
      + change (apply_op $"IN" x (VDict d)) with (function_in float_of date_of x (VDict d)). cbn [function_in].
        f_equal. now apply in_list_spec.
    - unfold apply_operator.
      repeat match goal with
      | |- (if str_eqb ?a ?b then _ else _) = _ -> _ => destruct (str_eqb a b) eqn:?E; [apply str_eqb_eq in E; subst op|clear E]
      end; intro H; try discriminate.
      + apply c_ne; [now left|]. injection H as H. now apply negb_true_iff in H.
      + now constructor.
      + now constructor.
      + now constructor.
      + now constructor.
      + apply c_eq; [right; now left|]. congruence.
      + apply c_ne; [right; now left|]. injection H as H. now apply negb_true_iff in H.
      + apply c_eq; [now left|]. congruence.
      + apply c_is_not. injection H as H. now apply negb_true_iff in H.
      + apply c_is. congruence.
      + destruct y as [| | |p| |]; try discriminate H. apply c_not_like.
        destruct (Filters.like_lines x p) as (b & E1 & E2 & Hb). rewrite E2 in H. injection H as H.
        intro L. apply Hb in L. subst b. discriminate.
      + destruct y as [| | |p| |]; try discriminate H. apply c_like.
        destruct (Filters.like_lines x p) as (b & E1 & E2 & Hb). rewrite E1 in H. injection H as H. now apply Hb.
      + now constructor.
      + destruct y as [| | |s|l|d]; try discriminate H; cbn [function_in] in H; injection H as H;
          apply in_list_spec in H; now constructor.
      + now constructor.
  Qed.

  Lemma test_eval r op a b w : NoDup (map fst r) -> atom a -> atom b -> ev (TOp op a b) r = Ok w ->
    (truthy w = true <-> test float_of date_of py_is matches r (TOp op a b)).
  Proof.
    intros Hr Ha Hb E. cbn [evaluate_recursive] in E.
    destruct (ev a r) as [x|e] eqn:Ea; cbn [bind] in E; [|discriminate].
    destruct (ev b r) as [y|e] eqn:Eb; cbn [bind] in E; [|discriminate].
    assert (T : test float_of date_of py_is matches r (TOp op a b) <-> apply_op op x y = Ok true).
    { rewrite <- compares_apply. split.
      - inversion 1 as [? ? ? x' y' H1 H2 H3]; subst. apply side_eval in H1, H2; auto.
        rewrite Ea in H1. rewrite Eb in H2. congruence.
      - intro H. apply (test_op _ _ _ _ r op a b x y); auto; now apply side_eval. }
    rewrite T. destruct (apply_op op x y) as [v|e].
    - injection E as <-. cbn. destruct v; intuition congruence.
    - destruct e; try discriminate E; injection E as <-; cbn; intuition discriminate.
  Qed.

  Lemma comparisons_simple t c : simple t -> In c (comparisons t) -> exists op a b, c = TOp op a b /\ atom a /\ atom b.
  Proof.
    induction t as [| | |op a _ b _|a IHa|a IHa b IHb|a IHa b IHb]; cbn [simple comparisons]; try contradiction.
    - intros [Ha Hb] [<-|[]]. eauto 7.
    - auto.
    - intros [Ha Hb] H. apply in_app_or in H as [H|H]; auto.
    - intros [Ha Hb] H. apply in_app_or in H as [H|H]; auto.
  Qed.

  Lemma comparisons_eval r t v : ev t r = Ok v -> forall c, In c (comparisons t) -> exists w, ev c r = Ok w.
  Proof.
    revert v; induction t as [ty k|n| |op a _ b _|a IHa|a IHa b IHb|a IHa b IHb]; intros v E c; cbn [comparisons];
      try (intros [<-|[]]; eauto); cbn [evaluate_recursive] in E.
    - destruct (ev a r) as [x|e] eqn:Ea; cbn in E; [|discriminate]. eauto.
    - destruct (ev a r) as [x|e] eqn:Ea; cbn in E; [|discriminate].
      destruct (ev b r) as [y|e] eqn:Eb; cbn in E; [|discriminate]. intro H. apply in_app_or in H as [H|H]; eauto.
    - destruct (ev a r) as [x|e] eqn:Ea; cbn in E; [|discriminate].
      destruct (ev b r) as [y|e] eqn:Eb; cbn in E; [|discriminate]. intro H. apply in_app_or in H as [H|H]; eauto.
  Qed.

  Lemma eval_meaning r t v : NoDup (map fst r) -> simple t -> ev t r = Ok v ->
    (truthy v = true <-> satisfied (test float_of date_of py_is matches r) t).
  Proof.
    intros Hr Ht E. rewrite (eval_satisfied r t v E). apply satisfied_ext. intros c Hc.
    destruct (comparisons_simple t c Ht Hc) as (op & a & b & -> & Ha & Hb).
    destruct (comparisons_eval r t v E _ Hc) as [w Ew].
    rewrite <- (test_eval r op a b w Hr Ha Hb Ew). unfold is_true. rewrite Ew. split.
    - intros (w' & E' & Hw). congruence.
    - intro. eauto.
  Qed.

  (** what the parser returns is made of comparisons *)
  Notation label := (get_token_type float_of date_of).

  Lemma pterm_atom ts t rest : parse_terminal float_of date_of ts = Ok (t, rest) -> atom t.
  Proof.
    destruct ts as [|x ts]; cbn; [discriminate|].
    destruct (label x); try discriminate; try (intro H; injection H as <- _; exact I).
    - destruct (py_int x); cbn; [|discriminate]. intro H; injection H as <- _; exact I.
    - destruct (float_of x); [|discriminate]. intro H; injection H as <- _; exact I.
    - destruct (parse_list _ _ [] ts) as [[l r]|e]; cbn; [|discriminate]. intro H; injection H as <- _; exact I.
  Qed.

  Lemma parse_call_atom ts t rest : parse_call float_of date_of ts = Ok (Some t, rest) -> atom t.
  Proof.
    destruct ts as [|x [|y ts]]; cbn; try discriminate; destruct (_ || _); try discriminate.
    destruct (ttype_beq _ LEFTPAREN); [|discriminate].
    destruct (collect_call _ _ _ _ ts) as [[s r]|e]; cbn; [|discriminate]. intro H; injection H as <- _; exact I.
  Qed.

  Lemma parser_simple f :
    (forall ts t rest, parse_expression float_of date_of f ts = Ok (t, rest) -> simple t) /\
    (forall u ts t rest, or_loop float_of date_of f u ts = Ok (t, rest) -> simple u -> simple t) /\
    (forall ts t rest, parse_and_term float_of date_of f ts = Ok (t, rest) -> simple t) /\
    (forall u ts t rest, and_loop float_of date_of f u ts = Ok (t, rest) -> simple u -> simple t) /\
    (forall ts t rest, parse_condition float_of date_of f ts = Ok (t, rest) -> simple t).
  Proof.
    induction f as [|f (IHe & IHo & IHa & IHl & IHc)].
    { repeat split; intros; discriminate. }
    repeat split.
    - intros ts t rest H. rewrite pexpr_S in H.
      destruct (parse_and_term _ _ f ts) as [[u ts1]|e] eqn:E; cbn [bind] in H; [|discriminate]. eauto.
    - intros u ts t rest H Hu. rewrite por_S in H. destruct ts as [|x ts1]; [injection H as <- _; auto|].
      destruct (ttype_beq (label x) OR); [|injection H as <- _; auto].
      destruct (parse_and_term _ _ f ts1) as [[w ts2]|e] eqn:E; cbn [bind] in H; [|discriminate].
      eapply IHo; [exact H|]. split; eauto.
    - intros ts t rest H. rewrite pand_S in H.
      destruct (parse_condition _ _ f ts) as [[u ts1]|e] eqn:E; cbn [bind] in H; [|discriminate]. eauto.
    - intros u ts t rest H Hu. rewrite pandl_S in H. destruct ts as [|x ts1]; [injection H as <- _; auto|].
      destruct (ttype_beq (label x) AND); [|injection H as <- _; auto].
      destruct (parse_condition _ _ f ts1) as [[w ts2]|e] eqn:E; cbn [bind] in H; [|discriminate].
      eapply IHl; [exact H|]. split; eauto.
    - intros ts t rest H. rewrite pcond_S in H.
      destruct (match ts with tok :: _ => ttype_beq (label tok) NOT | [] => false end).
      + destruct (parse_condition _ _ f (tl ts)) as [[u r]|e] eqn:E; cbn [bind] in H; [|discriminate].
        injection H as <- _. cbn. eauto.
      + destruct (parse_call float_of date_of ts) as [[o ts1]|e] eqn:E; cbn [bind] in H; [|discriminate].
        destruct (match ts1 with tok :: _ => ttype_beq (label tok) LEFTPAREN | [] => false end).
        * destruct (parse_expression _ _ f (tl ts1)) as [[u r]|e] eqn:E2; cbn [bind] in H; [|discriminate].
          destruct r as [|z r]; [discriminate|]. destruct (ttype_beq _ RIGHTPAREN); [|discriminate].
          injection H as <- _. eauto.
        * unfold parse_comparison in H.
          destruct (match o with Some t => Ok (t, ts1) | None => parse_terminal float_of date_of ts1 end)
            as [[t1 r1]|e] eqn:E1; cbn [bind] in H; [|discriminate].
          destruct r1 as [|y r2]; [discriminate|]. destruct (ttype_beq _ OPERATOR); [|discriminate].
          destruct (parse_terminal float_of date_of r2) as [[t2 r3]|e] eqn:E2; cbn [bind] in H; [|discriminate].
          injection H as <- _. cbn. split; [|now apply pterm_atom in E2].
          destruct o; [injection E1 as <- _; now apply parse_call_atom in E|now apply pterm_atom in E1].
  Qed.

  Lemma parse_simple ts t : parse float_of date_of ts = Ok t -> simple t.
  Proof.
    unfold parse. destruct (parse_expression _ _ _ ts) as [[u r]|e] eqn:E; cbn [bind]; [|discriminate].
    intro H. injection H as <-. now apply parser_simple in E.
  Qed.

  Lemma where_picks exp rows out : Forall (fun r => NoDup (map fst r)) rows ->
    filter_where float_of date_of py_is matches exp rows = Ok out ->
    exists t, init_expression float_of date_of exp = Ok t /\
              picks (fun r => satisfied (test float_of date_of py_is matches r) t) rows out.
  Proof.
    intros Hr H. unfold filter_where in H. destruct (init_expression float_of date_of exp) as [t|e] eqn:E; cbn [bind] in H; [|discriminate].
    exists t. split; auto. eapply Filters.filterM_picks; [|exact H]. intros r b Hin Hb. cbn in Hb.
    destruct (ev t r) as [v|e] eqn:Ev; cbn in Hb; [|discriminate]. injection Hb as <-.
    apply eval_meaning; auto.
    - rewrite Forall_forall in Hr. now apply Hr.
    - unfold init_expression in E. now apply parse_simple in E.
  Qed.

  Lemma where_returns exp rows t : init_expression float_of date_of exp = Ok t ->
    (forall r c, In r rows -> In c (comparisons t) -> exists v, ev c r = Ok v) ->
    exists out, filter_where float_of date_of py_is matches exp rows = Ok out.
  Proof.
    intros E H. unfold filter_where. rewrite E. cbn [bind]. apply Filters.filterM_total. intros r Hr.
    destruct (eval_returns r t (fun c Hc => H r c Hr Hc)) as [v ->]. cbn. eauto.
  Qed.

  (** *** comparisons raise nothing but TypeError and ValueError *)
  Definition mild {A} (x : result A) : Prop := match x with Ok _ | Raise TypeError | Raise ValueError => True | Raise _ => False end.
  Lemma lt_mild : forall a b, mild (py_lt a b).
  Proof.
    fix IH 1. intros a b. destruct a, b; cbn [py_lt]; try exact I; try (cbn [num_of]; exact I).
    revert l0. induction l as [|x l IHl]; intros [|y m]; try exact I. destruct (py_eq x y); [apply IHl|apply IH].
  Qed.
  Lemma le_mild : forall a b, mild (py_le a b).
  Proof.
    fix IH 1. intros a b. destruct a, b; cbn [py_le]; try exact I; try (cbn [num_of]; exact I).
    revert l0. induction l as [|x l IHl]; intros [|y m]; try exact I. destruct (py_eq x y); [apply IHl|apply IH].
  Qed.
  Lemma answer_mild op x y : In op [$"="; $"=="; $"<>"; $"!="; $"<"; $"<="; $">"; $">="; $"IS"; $"IS NOT"; $"IN"; $"CONTAINS"] ->
    mild (apply_operator float_of date_of py_is matches op x y).
  Proof.
    intros H. cbn in H. repeat (destruct H as [<-|H]; [|]); try contradiction; try exact I; try apply lt_mild; try apply le_mild.
    - change (mild (function_in float_of date_of x y)). destruct y; exact I.
    - change (mild (py_in y x)). destruct x, y; exact I.
  Qed.
  Lemma like_mild op x p : In op [$"LIKE"; $"NOT LIKE"] -> mild (apply_operator float_of date_of py_is matches op x (VStr p)).
  Proof.
    intros [<-|[<-|[]]].
    - change (mild (like_values x (VStr p))). unfold like_values. destruct (like (py_str x) p); exact I.
    - change (mild (not_like_values x (VStr p))). unfold not_like_values, like_values. destruct (like (py_str x) p); exact I.
  Qed.
  Lemma answers_all c r : has_answer c -> exists v, ev c r = Ok v.
  Proof.
    destruct c as [| | |op a b| | |]; try contradiction. intros [Hop Hs].
    assert (G : forall x, In x [a; b] -> exists v, ev x r = Ok v).
    { intros x Hx. destruct (Hs x Hx) as [(ty & v & ->)|(name & ->)]; cbn [evaluate_recursive]; eauto. }
    destruct (G a) as [x Ex]; [now left|]. destruct (G b) as [y Ey]; [right; now left|].
    cbn [evaluate_recursive]. rewrite Ex, Ey. cbn [bind].
    assert (Mi : mild (apply_operator float_of date_of py_is matches op x y)).
    { destruct Hop as [Hop|[Hop (ty & p & ->)]]; [now apply answer_mild|]. cbn [evaluate_recursive] in Ey. injection Ey as <-. now apply like_mild. }
    destruct (apply_operator float_of date_of py_is matches op x y) as [v|e]; [eauto|]. destruct e; try contradiction; eauto.
  Qed.
  Lemma where_always_returns exp rows t : init_expression float_of date_of exp = Ok t ->
    (forall c, In c (comparisons t) -> has_answer c) ->
    exists out, filter_where float_of date_of py_is matches exp rows = Ok out.
  Proof. intros E H. apply (where_returns exp rows t E). intros r c _ Hc. apply answers_all. now apply H. Qed.
End Eval.
