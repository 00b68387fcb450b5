(** Proofs: filter expressions as texts. *)
From Verif.Base Require Import Py PyFacts Value.
From Verif.Model Require Import Dates Tokens Expression.
From Verif.Spec Require Import DictSet Tokens Expression.
From Verif.Proofs Require Import Tokens Labels Expression.

Section T.
  Context (float_of date_of : str -> option value).
  Notation label := (get_token_type float_of date_of).
  Notation item := (fun s => interpret_value float_of date_of (VStr s)).

  Lemma token_case x t : reads_floats float_of -> token_for float_of date_of x t ->
    case_correction float_of date_of (text x) = t.
  Proof.
    intros HF H. destruct H as [x ty H Hty|x ty H H1 H2]; unfold case_correction; rewrite (labels_spec _ _ _ _ HF H).
    - destruct Hty as [-> | ->]; reflexivity.
    - destruct ty; congruence.
  Qed.

  Lemma texts_tokens first l ts : reads_floats float_of -> well_written first l ->
    Forall2 (token_for float_of date_of) (first :: map snd l) ts ->
    tokenize float_of date_of (whole_text first l) = ts.
  Proof.
    intros HF Hw H. rewrite tokens_of_text by auto. rewrite map_map.
    induction H as [|x t xs ts' Hx _ IH]; [reflexivity|]. cbn [map]. f_equal; [now apply token_case|exact IH].
  Qed.

  Lemma texts_parse first l ts t : reads_floats float_of -> well_written first l ->
    Forall2 (token_for float_of date_of) (first :: map snd l) ts ->
    either label item float_of date_of ts t ->
    init_expression float_of date_of (whole_text first l) = Ok t.
  Proof.
    intros HF Hw H He. unfold init_expression. rewrite (texts_tokens first l ts) by auto. now apply grammar_complete.
  Qed.

  Lemma text_filter py_is matches first l ts t rows out : reads_floats float_of -> well_written first l ->
    Forall2 (token_for float_of date_of) (first :: map snd l) ts ->
    either label item float_of date_of ts t ->
    Forall (fun r => NoDup (map fst r)) rows ->
    filter_where float_of date_of py_is matches (whole_text first l) rows = Ok out ->
    picks (fun r => satisfied (test float_of date_of py_is matches r) t) rows out.
  Proof.
    intros HF Hw H He Hn E. destruct (where_picks _ _ _ _ _ _ _ Hn E) as (t' & E' & Hp).
    rewrite (texts_parse first l ts t) in E' by auto. injection E' as <-. exact Hp.
  Qed.

  Lemma every_tree_has_tokens t : reads_floats float_of -> writable label item float_of date_of t ->
    exists ts, parse float_of date_of ts = Ok t.
  Proof.
    intros HF Hw. destruct (trees_have_texts float_of date_of t) as [ts Hts]; auto;
      try (apply (labels_spec float_of date_of _ _ HF)).
    - apply lab_open. now left.
    - apply lab_close. now left.
    - now apply lab_and.
    - now apply lab_or.
    - now apply lab_not.
    - exists ts. apply grammar_complete. apply either_one. now apply both_one.
  Qed.

  (** members of lists *)
  Lemma upper_quoted q s w : In q [""""%char; "'"%char] -> In w [$"TRUE"; $"FALSE"] -> upper (q :: s ++ [q]) <> w.
  Proof.
    intros Hq Hw E. assert (Eq : upper_c q = q) by (destruct Hq as [<-|[<-|[]]]; reflexivity).
    unfold upper in E. cbn [map] in E. rewrite Eq in E.
    destruct Hw as [<-|[<-|[]]]; injection E as -> _; destruct Hq as [Hq|[Hq|[]]]; discriminate.
  Qed.

  Lemma quoted_float q s : reads_floats float_of -> In q [""""%char; "'"%char] -> float_of (q :: s ++ [q]) = None.
  Proof.
    intros HF Hq. destruct (float_of (q :: s ++ [q])) as [v|] eqn:E; auto. exfalso.
    destruct (HF _ _ E) as [(c & r & Es & Hc) _].
    rewrite firm_strip in Es by (apply firm_ends; destruct Hq as [<-|[<-|[]]]; reflexivity).
    injection Es as <- _. assert (F : forallb (fun c => negb (is_quote c)) $"+-.0123456789nNiI" = true) by reflexivity.
    rewrite forallb_forall in F. specialize (F q Hc). destruct Hq as [<-|[<-|[]]]; discriminate.
  Qed.

  Lemma quoted_int q s : In q [""""%char; "'"%char] -> py_int (q :: s ++ [q]) = Raise ValueError.
  Proof. intro Hq. apply py_int_first; destruct Hq as [<-|[<-|[]]]; try reflexivity; discriminate. Qed.

  Lemma str_mem_no s l : (forall w, In w l -> s <> w) -> str_mem s l = false.
  Proof. intro H. destruct (str_mem s l) eqn:E; auto. apply str_mem_In in E. now destruct (H s E). Qed.

  Lemma member_integer n : interpret_quoted float_of date_of (item (decZ n)) = VInt n.
  Proof.
    cbn [interpret_value]. destruct (decZ_first n) as (c & r & E & Hc & _).
    rewrite str_mem_no.
    - rewrite py_int_decZ. reflexivity.
    - intros w Hw Ew. rewrite E in Ew. unfold upper in Ew. cbn [map] in Ew.
      destruct Hw as [<-|[<-|[]]]; injection Ew as Ec _;
        (destruct Hc as [Hc| ->]; [|discriminate]); apply (f_equal is_digit) in Ec; rewrite digit_upper_c, Hc in Ec; discriminate.
  Qed.

  Lemma member_text q s : reads_floats float_of -> In q [""""%char; "'"%char] -> date_of (q :: s ++ [q]) = None ->
    interpret_quoted float_of date_of (item (q :: s ++ [q])) = match date_of s with Some d => d | None => VStr s end.
  Proof.
    intros HF Hq Hd. cbn [interpret_value].
    rewrite str_mem_no by (intros w Hw; now apply upper_quoted).
    rewrite quoted_int, quoted_float, Hd by auto. cbn [interpret_quoted].
    rewrite str_mem_no by (intros w Hw; now apply upper_quoted).
    rewrite quoted_int, quoted_float by auto. now rewrite unquoted_both.
  Qed.
End T.

(** ** Every tree has a text *)
Definition spaced (l : list lexeme) : list (bool * lexeme) := map (fun x => (true, x)) l.
Definition lexes (l : list lexeme) : Prop := Forall good_lexeme l.
Fixpoint adjacent (l : list lexeme) : Prop :=
  match l with
  | x :: ((y :: _) as l') => may_follow true x y /\ adjacent l'
  | _ => True
  end.

Lemma adjacent_cons2 x y l : adjacent (x :: y :: l) <-> may_follow true x y /\ adjacent (y :: l).
Proof. reflexivity. Qed.

Lemma adjacent_written l : forall x, lexes l -> adjacent (x :: l) -> rest_well_written x (spaced l).
Proof.
  induction l as [|y l IH]; intros x Hg Ha; [exact I|]. cbn [spaced map rest_well_written]. inversion Hg as [|? ? Hg1 Hg2]; subst.
  apply adjacent_cons2 in Ha as [H1 H2]. repeat split; auto.
Qed.

Lemma adjacent_app a : forall x y b, adjacent (a ++ [x]) -> adjacent (y :: b) -> may_follow true x y ->
  adjacent ((a ++ [x]) ++ y :: b).
Proof.
  induction a as [|z a IH]; intros x y b H1 H2 H3.
  - cbn [app]. apply adjacent_cons2. auto.
  - destruct a as [|w a].
    + cbn [app] in *. apply adjacent_cons2 in H1 as [H1 _]. apply adjacent_cons2. split; [exact H1|]. apply adjacent_cons2. auto.
    + cbn [app] in *. apply adjacent_cons2 in H1 as [H1 H4]. apply adjacent_cons2. split; [exact H1|]. now apply IH.
Qed.

Notation lp := (Bracket $"(").
Notation rp := (Bracket $")").

(** lexemes in parentheses *)
Definition block (l : list lexeme) : Prop := lexes l /\ adjacent l /\ exists m, l = lp :: m ++ [rp].

Lemma block_app_word l1 w l2 : block l1 -> block l2 -> In (upper w) separating_words ->
  block (lp :: l1 ++ Word w :: l2 ++ [rp]).
Proof.
  intros (G1 & A1 & m1 & E1) (G2 & A2 & m2 & E2) Hw. split; [|split].
  - constructor; [now left|]. apply Forall_app. split; auto. constructor; auto. apply Forall_app. split; auto.
    constructor; [right; now left|constructor].
  - assert (B2 : adjacent (l2 ++ [rp])).
    { subst l2. change (lp :: m2 ++ [rp]) with ((lp :: m2) ++ [rp]) in *. apply adjacent_app; auto; exact I. }
    assert (C2 : adjacent (Word w :: l2 ++ [rp])).
    { subst l2. cbn [app]. apply adjacent_cons2. split; [exact I|]. exact B2. }
    assert (D : adjacent (l1 ++ Word w :: l2 ++ [rp])).
    { rewrite E1 in *. change (lp :: m1 ++ [rp]) with ((lp :: m1) ++ [rp]) in *. apply adjacent_app; auto; exact I. }
    destruct l1 as [|x l1]; [discriminate|]. cbn [app] in *. apply adjacent_cons2. split; [|exact D]. exact I.
  - exists (l1 ++ Word w :: l2). now rewrite <- app_assoc.
Qed.

Lemma block_not l w : block l -> upper w = $"NOT" -> block (lp :: Word w :: l ++ [rp]).
Proof.
  intros (G & A & m & E) Hw. split; [|split].
  - constructor; [now left|]. constructor; [|apply Forall_app; split; auto; constructor; [right; now left|constructor]].
    change (In (upper w) separating_words). rewrite Hw. apply str_mem_In. reflexivity.
  - assert (B : adjacent (l ++ [rp])).
    { subst l. change (lp :: m ++ [rp]) with ((lp :: m) ++ [rp]) in *. apply adjacent_app; auto; exact I. }
    apply adjacent_cons2. split; [exact I|]. subst l. cbn [app]. apply adjacent_cons2. split; [exact I|]. exact B.
  - exists (Word w :: l). reflexivity.
Qed.

Section Trees.
  Context (float_of date_of : str -> option value).
  Notation label := (get_token_type float_of date_of).
  Notation item := (fun s => interpret_value float_of date_of (VStr s)).
  Notation Tok := (token_for float_of date_of).
  Hypothesis HF : reads_floats float_of.

  Lemma tok_lp : Tok lp $"(".
  Proof. apply (token_raised _ _ lp LEFTPAREN); try discriminate. apply lab_open. now left. Qed.
  Lemma tok_rp : Tok rp $")".
  Proof. apply (token_raised _ _ rp RIGHTPAREN); try discriminate. apply lab_close. now left. Qed.
  Lemma tok_comma : Tok (Bracket $",") $",".
  Proof. apply (token_raised _ _ (Bracket $",") COMMA); try discriminate. apply lab_comma. Qed.
  Lemma tok_and : Tok (Word $"AND") $"AND".
  Proof. apply (token_raised _ _ (Word $"AND") AND); try discriminate. now apply lab_and. Qed.
  Lemma tok_or : Tok (Word $"OR") $"OR".
  Proof. apply (token_raised _ _ (Word $"OR") OR); try discriminate. now apply lab_or. Qed.
  Lemma tok_not : Tok (Word $"NOT") $"NOT".
  Proof. apply (token_raised _ _ (Word $"NOT") NOT); try discriminate. now apply lab_not. Qed.

  Lemma label_lp : label $"(" = LEFTPAREN.
  Proof. apply (labels_spec _ _ _ _ HF). apply lab_open. now left. Qed.
  Lemma label_rp : label $")" = RIGHTPAREN.
  Proof. apply (labels_spec _ _ _ _ HF). apply lab_close. now left. Qed.
  Lemma label_comma : label $"," = COMMA.
  Proof. apply (labels_spec _ _ _ _ HF). apply lab_comma. Qed.

  (** operators *)
  Lemma operator_lexeme op : In op operators ->
    exists x, good_lexeme x /\ Tok x op /\ label op = OPERATOR /\ upper op = op /\
      (forall p, (match p with Plain _ | Quoted _ _ | Bracket _ => True | _ => False end) ->
                 may_follow true p x /\ may_follow true x p).
  Proof.
    intro H. assert (Hu : upper op = op).
    { assert (F : forallb (fun o => str_eqb (upper o) o) operators = true) by (vm_compute; reflexivity).
      rewrite forallb_forall in F. apply str_eqb_eq. now apply F. }
    assert (HL : labelled float_of date_of op OPERATOR) by (apply lab_operator; now rewrite Hu).
    pose proof (labels_spec _ _ _ _ HF HL) as Hl.
    unfold operators in H. apply in_app_or in H as [H|H].
    - exists (Sign op). split; [exact H|]. split.
      { pose proof (token_raised float_of date_of (Sign op) OPERATOR HL) as T. cbn [text] in T. rewrite Hu in T.
        apply T; discriminate. }
      repeat split; auto; destruct p; try contradiction; exact I.
    - exists (Word op). split.
      { change (In (upper op) separating_words). rewrite Hu. apply str_mem_In. revert op H Hu HL Hl.
        assert (F : forallb (fun o => str_mem o separating_words)
          [$"IS NOT"; $"IS"; $"NOT LIKE"; $"LIKE"; $"MATCHES"; $"IN"; $"CONTAINS"] = true) by (vm_compute; reflexivity).
        rewrite forallb_forall in F. intros op H _ _ _. now apply F. }
      split.
      { pose proof (token_raised float_of date_of (Word op) OPERATOR HL) as T. cbn [text] in T. rewrite Hu in T.
        apply T; discriminate. }
      repeat split; auto; destruct p; try contradiction; reflexivity || exact I.
  Qed.

  (** members of a list, between commas, and the closing parenthesis *)
  Lemma members_lexemes vs : Forall (plain_member label item float_of date_of) vs ->
    exists l ts, lexes l /\ adjacent (lp :: l ++ [rp]) /\ Forall2 Tok l ts /\ items label item ts vs.
  Proof.
    induction 1 as [|v vs (x & tok & (Hg & Hp & Ht) & Hc & Hr & ->) _ (l & ts & G & A & T & I0)].
    - exists [], []. repeat split; try constructor.
    - exists (x :: Bracket $"," :: l), (tok :: $"," :: ts). split; [|split; [|split]].
      + constructor; auto. constructor; auto. cbn. tauto.
      + cbn [app]. apply adjacent_cons2. split; [destruct x; try contradiction; exact I|]. apply adjacent_cons2.
        split; [destruct x; try contradiction; exact I|].
        destruct l as [|y l]; cbn [app] in *; apply adjacent_cons2; apply adjacent_cons2 in A as [_ A]; (split; [exact I|exact A]).
      + constructor; auto. constructor; auto. apply tok_comma.
      + apply items_cons; auto. apply items_comma; auto. apply label_comma.
  Qed.

  Lemma comparison_block op l r : In op operators -> plain_operand label float_of date_of l ->
    plain_right label item float_of date_of r ->
    exists xs ts, block xs /\ Forall2 Tok xs ts /\ single label item float_of date_of ts (TOp op l r).
  Proof.
    intros Hop (x & tx & (Gx & Px & Tx) & Ox) Hr. destruct (operator_lexeme op Hop) as (o & Go & To & Lo & Uo & Fo).
    assert (S : forall ys tys, lexes ys -> adjacent (o :: ys ++ [rp]) -> Forall2 Tok ys tys ->
                right_operand label item float_of date_of tys r ->
                exists xs ts, block xs /\ Forall2 Tok xs ts /\ single label item float_of date_of ts (TOp op l r)).
    { intros ys tys Gy Ay Ty Ry. exists (lp :: x :: o :: ys ++ [rp]), ($"(" :: ([tx] ++ op :: tys) ++ [$")"]).
      split; [split; [|split]|split].
      - constructor; [now left|]. constructor; auto. constructor; auto. apply Forall_app. split; auto.
        constructor; [right; now left|constructor].
      - apply adjacent_cons2. split; [exact I|]. apply adjacent_cons2. split; auto.
        apply Fo. destruct x; try contradiction; exact I.
      - exists (x :: o :: ys). reflexivity.
      - constructor; [apply tok_lp|]. cbn [app]. constructor; auto. constructor; auto. apply Forall2_app; auto.
        constructor; [apply tok_rp|constructor].
      - apply single_paren; [apply label_lp| |apply label_rp]. apply either_one, both_one. rewrite <- Uo at 2.
        apply single_test; auto. now apply left_simple. }
    destruct Hr as [(y & ty & (Gy & Py & Ty) & Oy)|(vs & Hvs & ->)].
    - apply (S [y] [ty]); auto.
      + constructor; auto.
      + cbn [app]. apply adjacent_cons2. split; [apply Fo; destruct y; try contradiction; exact I|].
        apply adjacent_cons2. split; [destruct y; try contradiction; exact I|exact I].
      + now apply right_simple.
    - destruct (members_lexemes vs Hvs) as (ys & tys & Gy & Ay & Ty & Iy).
      apply (S (lp :: ys ++ [rp]) ($"(" :: tys ++ [$")"])).
      + constructor; [now left|]. apply Forall_app. split; auto. constructor; [right; now left|constructor].
      + change ((lp :: ys ++ [rp]) ++ [rp]) with (lp :: (ys ++ [rp]) ++ [rp]). apply adjacent_cons2.
        split; [now apply Fo|]. change (lp :: (ys ++ [rp]) ++ [rp]) with (((lp :: ys) ++ [rp]) ++ [rp]).
        apply adjacent_app; auto; exact I.
      + constructor; [apply tok_lp|]. apply Forall2_app; auto. constructor; [apply tok_rp|constructor].
      + apply right_list; auto; [apply label_lp|apply label_rp].
  Qed.

  Lemma tree_block t : plain_tree label item float_of date_of t ->
    exists xs ts, block xs /\ Forall2 Tok xs ts /\ single label item float_of date_of ts t.
  Proof.
    induction t as [| | |op l _ r _|a IH|a IHa b IHb|a IHa b IHb]; cbn [plain_tree]; try contradiction.
    - intros (H1 & H2 & H3). now apply comparison_block.
    - intro H. destruct (IH H) as (xs & ts & B & T & S).
      exists (lp :: Word $"NOT" :: xs ++ [rp]), ($"(" :: ($"NOT" :: ts) ++ [$")"]). split; [now apply block_not|]. split.
      + constructor; [apply tok_lp|]. cbn [app]. constructor; [apply tok_not|]. apply Forall2_app; auto.
        constructor; [apply tok_rp|constructor].
      + apply single_paren; [apply label_lp| |apply label_rp]. apply either_one, both_one. apply single_not; auto.
        apply (labels_spec _ _ _ _ HF). now apply lab_not.
    - intros [Ha Hb]. destruct (IHa Ha) as (xs & ts & B & T & S). destruct (IHb Hb) as (xs' & ts' & B' & T' & S').
      exists (lp :: xs ++ Word $"AND" :: xs' ++ [rp]), ($"(" :: (ts ++ $"AND" :: ts') ++ [$")"]).
      split; [apply block_app_word; auto; apply str_mem_In; reflexivity|]. split.
      + constructor; [apply tok_lp|]. rewrite <- app_assoc. apply Forall2_app; auto. cbn [app]. constructor; [apply tok_and|].
        apply Forall2_app; auto. constructor; [apply tok_rp|constructor].
      + apply single_paren; [apply label_lp| |apply label_rp]. apply either_one. apply both_and; auto; [now apply both_one|].
        apply (labels_spec _ _ _ _ HF). now apply lab_and.
    - intros [Ha Hb]. destruct (IHa Ha) as (xs & ts & B & T & S). destruct (IHb Hb) as (xs' & ts' & B' & T' & S').
      exists (lp :: xs ++ Word $"OR" :: xs' ++ [rp]), ($"(" :: (ts ++ $"OR" :: ts') ++ [$")"]).
      split; [apply block_app_word; auto; apply str_mem_In; reflexivity|]. split.
      + constructor; [apply tok_lp|]. rewrite <- app_assoc. apply Forall2_app; auto. cbn [app]. constructor; [apply tok_or|].
        apply Forall2_app; auto. constructor; [apply tok_rp|constructor].
      + apply single_paren; [apply label_lp| |apply label_rp]. apply either_or; auto.
        * now apply either_one, both_one.
        * apply (labels_spec _ _ _ _ HF). now apply lab_or.
        * now apply both_one.
  Qed.

  Lemma every_tree_has_a_text t : plain_tree label item float_of date_of t ->
    exists text, init_expression float_of date_of text = Ok t.
  Proof.
    intro H. destruct (tree_block t H) as (xs & ts & (G & A & m & E) & T & S). subst xs.
    exists (whole_text lp (spaced (m ++ [rp]))). inversion G as [|? ? G1 G2]; subst.
    apply (texts_parse float_of date_of lp (spaced (m ++ [rp])) ts); auto.
    - split; auto. now apply adjacent_written.
    - unfold spaced. rewrite map_map, map_id. exact T.
    - now apply either_one, both_one.
  Qed.
End Trees.
