(** Cases for the theorems on filter expressions. *)
From Coq Require Import Lia.
From Verif.Base Require Import Py Value.
From Verif.Model Require Import Tokens Expression.
From Verif.Spec Require Import DictSet Tokens Expression.
From Verif.Proofs Require Expression Labels Texts.

Notation member float_of date_of := (fun s => interpret_value float_of date_of (VStr s)).
Definition none_of (_ : str) : option value := None.
Definition same (x y : value) : bool := py_eq x y.
Definition no_matches (_ _ : value) : result bool := Ok false.
Notation rows_where := (filter_where none_of none_of same no_matches).

Lemma none_reads : reads_floats none_of. Proof. discriminate. Qed.

(** age >= 18 and not (name = 'Dora (and Jo)' or `size`<>2) *)
Definition ex_first : lexeme := Plain $"age".
Definition ex_rest : list (bool * lexeme) :=
  [(true, Sign $">="); (true, Plain $"18"); (true, Word $"and"); (true, Word $"not"); (true, Bracket $"(");
   (false, Plain $"name"); (true, Sign $"="); (true, Quoted "'" $"Dora (and Jo)"); (true, Word $"or");
   (true, Quoted "`" $"size"); (false, Sign $"<>"); (false, Plain $"2"); (false, Bracket $")")].
Definition ex_text : str := $"age >= 18 and not (name = 'Dora (and Jo)' or `size`<>2)".
Definition ex_tokens : list str :=
  [$"age"; $">="; $"18"; $"AND"; $"NOT"; $"("; $"name"; $"="; $"'Dora (and Jo)'"; $"OR"; $"`size`"; $"<>"; $"2"; $")"].
Definition ex_tree : tree :=
  TAnd (TOp $">=" (TVar $"age") (TLeaf INTEGER (VInt 18)))
       (TNot (TOr (TOp $"=" (TVar $"name") (TLeaf LITERAL (VStr $"Dora (and Jo)")))
                  (TOp $"<>" (TVar $"`size`") (TLeaf INTEGER (VInt 2))))).

Example ex_is_text : whole_text ex_first ex_rest = ex_text.
Proof. reflexivity. Qed.

Ltac refute_in := let H := fresh in intro H; cbn in H; repeat (destruct H as [H|H]; [discriminate H|]); destruct H.

Lemma quiet_word w : forallb (fun c => is_alpha c || is_digit c) w = true ->
  negb (str_mem (upper w) reserved) = true -> quiet w.
Proof.
  intros H1 H2. rewrite forallb_forall in H1. split.
  - intros c Hc Hs. specialize (H1 c Hc). unfold sign_char in Hs. cbn in Hs.
    repeat (destruct Hs as [<-|Hs]; [discriminate H1|]). destruct Hs.
  - assert (E : forall s acc, (forall c, In c s -> is_alpha c || is_digit c = true) -> words_from acc s = [rev acc ++ s]).
    { induction s as [|c s IH]; intros acc H; cbn [words_from]; [now rewrite app_nil_r|].
      rewrite H by now left. cbn [orb]. rewrite IH by (intros d Hd; apply H; now right). cbn [rev]. now rewrite <- app_assoc. }
    unfold words. rewrite E by auto. intros w' [<-|[]] Hin. cbn [rev app] in Hin.
    apply Bool.negb_true_iff in H2. apply Tokens.str_mem_In in Hin. congruence.
Qed.

Lemma plain_word w : forallb (fun c => is_alpha c || is_digit c) w = true -> w <> [] ->
  negb (str_mem (upper w) reserved) = true -> good_lexeme (Plain w).
Proof.
  intros H1 H2 H3. repeat split; auto; try (now apply quiet_word). intros c Hc. left. unfold word_char.
  rewrite forallb_forall in H1. specialize (H1 c Hc). apply Bool.orb_true_iff in H1. tauto.
Qed.

(** a test for texts in quotes *)
Definition splits (s : str) : list (str * str) := map (fun i => (firstn i s, skipn i s)) (seq 0 (S (length s))).
Definition ends_word (s : str) : bool := match rev s with c :: _ => is_word c | [] => false end.
Definition begins_word (s : str) : bool := match s with c :: _ => is_word c | [] => false end.
Definition stands_b (a w b : str) : bool :=
  str_mem (upper w) separators && negb (ends_word a && begins_word w) && negb (ends_word w && begins_word b).
Definition kept_b (q : ascii) (body : str) : bool :=
  negb (mem Ascii.eqb q body) && Tokens.spaced_b false body &&
  forallb (fun e => forallb (fun f => negb (stands_b (fst e) (fst f) (snd f)) ||
      match snd f with
      | [] => true
      | c :: r => negb (is_quote c) && (negb (Ascii.eqb c " ") ||
          negb (match r with d :: _ => is_quote d | [] => false end) &&
          forallb (fun g => negb (stands_b (fst e ++ fst f ++ $" ") (fst g) (snd g))) (splits r))
      end) (splits (snd e))) (splits body).

Lemma in_splits a b : In (a, b) (splits (a ++ b)).
Proof.
  unfold splits. apply in_map_iff. exists (length a). split.
  - f_equal; [rewrite firstn_app, Nat.sub_diag, firstn_all; apply app_nil_r|
              rewrite skipn_app, Nat.sub_diag, skipn_all; reflexivity].
  - apply in_seq. rewrite app_length. cbn. lia.
Qed.

Lemma stands_b_spec a w b : stands_between a w b -> stands_b a w b = true.
Proof.
  intros (H1 & H2 & H3). unfold stands_b. apply Tokens.str_mem_In in H1. rewrite H1. cbn [andb].
  apply andb_true_iff. split; apply negb_true_iff, not_true_is_false; intro F; apply andb_true_iff in F as [F1 F2];
    unfold ends_word, begins_word in F1, F2.
  - destruct (rev a) as [|c p] eqn:E; [discriminate|]. destruct w as [|d r]; [discriminate|].
    apply (f_equal (@rev _)) in E. rewrite rev_involutive in E. apply (H2 (rev p) c d r); auto.
    split; now apply Tokens.word_char_spec.
  - destruct (rev w) as [|d p] eqn:E; [discriminate|]. destruct b as [|c r]; [discriminate|].
    apply (f_equal (@rev _)) in E. rewrite rev_involutive in E. apply (H3 (rev p) d c r); auto.
    split; now apply Tokens.word_char_spec.
Qed.

Lemma kept_b_spec q body : kept_b q body = true -> kept_in_quotes q body.
Proof.
  unfold kept_b. intro H. apply andb_true_iff in H as [H H3]. apply andb_true_iff in H as [H1 H2].
  rewrite forallb_forall in H3.
  assert (G : forall a v r, body = a ++ v ++ r -> stands_between a v r -> match r with
      | [] => true
      | c :: r => negb (is_quote c) && (negb (Ascii.eqb c " ") ||
          negb (match r with d :: _ => is_quote d | [] => false end) &&
          forallb (fun g => negb (stands_b (a ++ v ++ $" ") (fst g) (snd g))) (splits r))
      end = true).
  { intros a v r E Hs. subst body. specialize (H3 _ (in_splits a (v ++ r))). cbn [fst snd] in H3.
    rewrite forallb_forall in H3. specialize (H3 _ (in_splits v r)). cbn [fst snd] in H3.
    rewrite (stands_b_spec _ _ _ Hs) in H3. exact H3. }
  split; [|split; [|split]].
  - intro Hi. apply negb_true_iff in H1. assert (E : mem Ascii.eqb q body = true).
    { unfold mem. apply existsb_exists. exists q. split; auto. apply Ascii.eqb_refl. }
    congruence.
  - now apply Tokens.spaced_b_spec.
  - intros a v w b E S1 S2. specialize (G a v _ E S1). cbn [app] in G.
    apply andb_true_iff in G as [_ G]. rewrite Ascii.eqb_refl in G. cbn [negb orb] in G.
    apply andb_true_iff in G as [_ G]. rewrite forallb_forall in G. specialize (G _ (in_splits w b)). cbn [fst snd] in G.
    rewrite (stands_b_spec _ _ _ S2) in G. discriminate.
  - intros a v sp c b E S1 Hsp Hc. specialize (G a v _ E S1). apply Tokens.quotes_spec in Hc.
    destruct Hsp as [<-|[<-|[]]]; cbn [app] in G; apply andb_true_iff in G as [G1 G2].
    + rewrite Hc in G1. discriminate.
    + rewrite Ascii.eqb_refl in G2. cbn [negb orb] in G2. rewrite Hc in G2. discriminate.
Qed.

Example ex_well_written : well_written ex_first ex_rest.
Proof.
  assert (W : forall w, str_mem (upper w) separating_words = true -> good_lexeme (Word w))
    by (intros w H; apply Tokens.str_mem_In in H; exact H).
  assert (B : forall w, str_mem w brackets = true -> good_lexeme (Bracket w))
    by (intros w H; apply Tokens.str_mem_In in H; exact H).
  assert (S : forall w, str_mem w comparison_signs = true -> good_lexeme (Sign w))
    by (intros w H; apply Tokens.str_mem_In in H; exact H).
  assert (Q : forall q w, In q quotes -> kept_b q w = true -> good_lexeme (Quoted q w))
    by (intros q w Hq Hk; split; [exact Hq|now apply kept_b_spec]).
  unfold well_written, ex_first, ex_rest. cbn [rest_well_written may_follow].
  repeat match goal with
  | |- _ /\ _ => split
  | |- good_lexeme (Plain _) => apply plain_word; [reflexivity|discriminate|reflexivity]
  | |- good_lexeme (Word _) => apply W; reflexivity
  | |- good_lexeme (Bracket _) => apply B; reflexivity
  | |- good_lexeme (Sign _) => apply S; reflexivity
  | |- good_lexeme (Quoted _ _) => apply Q; [cbn; tauto|vm_compute; reflexivity]
  | |- True => exact I
  | |- _ = _ => reflexivity
  end.
  refute_in.
Qed.

Example ex_token_for : Forall2 (token_for none_of none_of) (ex_first :: map snd ex_rest) ex_tokens.
Proof.
  assert (C : forall w, (exists c r, w = c :: r /\ is_alpha c = true /\ forallb (fun c => is_alpha c) r = true) ->
     str_mem (upper w) (functions ++ aggregations ++ operators ++ constants ++ [$"AND"; $"OR"; $"NOT"]) = false ->
     token_for none_of none_of (Plain w) w).
  { intros w (c & r & -> & Hc & Hr) H. apply (token_kept _ _ (Plain (c :: r)) VARIABLE); auto. apply lab_column; [|intro Hin; apply Tokens.str_mem_In in Hin; cbn [text] in Hin; congruence|reflexivity].
    exists c, r. repeat split; auto. intros d Hd. rewrite forallb_forall in Hr. left. left. now apply Hr. }
  assert (N : forall n w, w = decZ n -> token_for none_of none_of (Plain w) (upper w)).
  { intros n w ->. apply (token_raised _ _ (Plain (decZ n)) INTEGER); try discriminate. apply lab_integer. }
  assert (S : forall w, str_mem (upper w) operators = true -> token_for none_of none_of (Sign w) (upper w)).
  { intros w H. apply (token_raised _ _ (Sign w) OPERATOR); try discriminate. apply lab_operator. now apply Tokens.str_mem_In. }
  unfold ex_first, ex_rest, ex_tokens. cbn [map snd].
  constructor; [apply C; [eexists _, _; repeat split|]; reflexivity|].
  constructor; [exact (S $">=" eq_refl)|].
  constructor; [exact (N 18%Z $"18" eq_refl)|].
  constructor; [apply (token_raised _ _ (Word $"and") AND); try discriminate; now apply lab_and|].
  constructor; [apply (token_raised _ _ (Word $"not") NOT); try discriminate; now apply lab_not|].
  constructor; [apply Texts.tok_lp|].
  constructor; [apply C; [eexists _, _; repeat split|]; reflexivity|].
  constructor; [exact (S $"=" eq_refl)|].
  constructor; [apply (token_kept _ _ (Quoted "'" $"Dora (and Jo)") LITERAL); auto; apply lab_text; [cbn; tauto|reflexivity]|].
  constructor; [apply (token_raised _ _ (Word $"or") OR); try discriminate; now apply lab_or|].
  constructor; [apply (token_kept _ _ (Quoted "`" $"size") VARIABLE); auto; apply (lab_back_quoted _ _ $"size")|].
  constructor; [exact (S $"<>" eq_refl)|].
  constructor; [exact (N 2%Z $"2" eq_refl)|].
  constructor; [apply Texts.tok_rp|constructor].
Qed.

Example ex_grammar : either (get_token_type none_of none_of) (member none_of none_of) none_of none_of ex_tokens ex_tree.
Proof.
  set (L := get_token_type none_of none_of).
  assert (T : forall a ta o b tb, operand L none_of none_of [a] ta -> L o = OPERATOR -> operand L none_of none_of [b] tb ->
              single L (member none_of none_of) none_of none_of [a; o; b] (TOp (upper o) ta tb)).
  { intros a ta o b tb Ha Ho Hb. apply (single_test L (member none_of none_of) none_of none_of [a] ta o [b] tb); auto.
    - now apply left_simple.
    - now apply right_simple. }
  apply either_one.
  apply (both_and L (member none_of none_of) none_of none_of [$"age"; $">="; $"18"] _ $"AND"
           [$"NOT"; $"("; $"name"; $"="; $"'Dora (and Jo)'"; $"OR"; $"`size`"; $"<>"; $"2"; $")"]); [|reflexivity|].
  - apply both_one. apply (T $"age" _ $">=" $"18"); [|reflexivity|].
    + now apply operand_column.
    + now apply operand_integer.
  - apply single_not; [reflexivity|].
    apply (single_paren L (member none_of none_of) none_of none_of $"("
             ([$"name"; $"="; $"'Dora (and Jo)'"] ++ $"OR" :: [$"`size`"; $"<>"; $"2"]) _ $")"); [reflexivity| |reflexivity].
    apply either_or; [|reflexivity|].
    + apply either_one, both_one. apply (T $"name" _ $"=" $"'Dora (and Jo)'"); [|reflexivity|].
      * now apply operand_column.
      * now apply (operand_text L none_of none_of $"'Dora (and Jo)'").
    + apply both_one. apply (T $"`size`" _ $"<>" $"2"); [|reflexivity|].
      * now apply operand_column.
      * now apply operand_integer.
Qed.

Example ex_parses : init_expression none_of none_of ex_text = Ok ex_tree.
Proof. exact (Texts.texts_parse _ _ _ _ _ _ none_reads ex_well_written ex_token_for ex_grammar). Qed.

Example ex_filters :
  let keep := [($"age", VInt 20); ($"name", VStr $"Ann"); ($"size", VInt 2)] in
  let young := [($"age", VInt 17); ($"name", VStr $"Ann"); ($"size", VInt 2)] in
  let dora := [($"age", VInt 20); ($"name", VStr $"Dora (and Jo)"); ($"size", VInt 2)] in
  rows_where ex_text [young; keep; dora; keep] = Ok [keep; keep].
Proof. vm_compute. reflexivity. Qed.

(** trees: not ((a = 1 or b in (1, 'x')) and c like '%z') *)
Example ex_plain_tree : exists t,
  plain_tree (get_token_type none_of none_of) (member none_of none_of) none_of none_of t /\
  t = TNot (TAnd (TOr (TOp $"=" (TVar $"a") (TLeaf INTEGER (VInt 1)))
                      (TOp $"IN" (TVar $"b") (TLeaf LITERAL (VList [VInt 1; VStr $"'x'"]))))
                 (TOp $"LIKE" (TVar $"c") (TLeaf LITERAL (VStr $"%z")))).
Proof.
  eexists. split; [|reflexivity].
  assert (C : forall c, is_alpha c = true -> str_mem (upper [c]) reserved = false ->
     plain_operand (get_token_type none_of none_of) none_of none_of (TVar [c])).
  { intros c Hc Hr. assert (Hg : good_lexeme (Plain [c])).
    { apply plain_word; [cbn; now rewrite Hc|discriminate|now rewrite Hr]. }
    assert (HL : labelled none_of none_of [c] VARIABLE).
    { apply lab_column; [|intro Hin|reflexivity].
      - exists c, []. repeat split; auto. intros ? [].
      - assert (F : forallb (fun w => Nat.ltb 1 (length w) || str_mem w comparison_signs)
          (functions ++ aggregations ++ operators ++ constants ++ [$"AND"; $"OR"; $"NOT"]) = true) by (vm_compute; reflexivity).
        rewrite forallb_forall in F. specialize (F _ Hin). cbn -[str_mem comparison_signs] in F. apply Tokens.str_mem_In in F.
        clear - F Hc. unfold comparison_signs in F. cbn in F.
        repeat (destruct F as [F|F]; [try discriminate F; injection F as F; revert Hc F;
          destruct c as [[] [] [] [] [] [] [] []]; discriminate|]). destruct F. }
    exists (Plain [c]), [c]. split; [split; [exact Hg|split; [exact I|]]|].
    - apply (token_kept _ _ (Plain [c]) VARIABLE); auto.
    - apply operand_column. now apply (Labels.labels_spec _ _ _ _ none_reads). }
  assert (N : one_lexeme none_of none_of (Plain $"1") $"1").
  { split; [apply plain_word; [reflexivity|discriminate|reflexivity]|]. split; [exact I|].
    apply (token_raised _ _ (Plain (decZ 1)) INTEGER); try discriminate. apply lab_integer. }
  assert (Q : forall w, kept_b "'" w = true -> one_lexeme none_of none_of (Quoted "'" w) ("'"%char :: w ++ ["'"%char])).
  { intros w H. split; [split; [cbn; tauto|now apply kept_b_spec]|]. split; [exact I|].
    apply (token_kept _ _ (Quoted "'" w) LITERAL); auto. apply lab_text; [cbn; tauto|reflexivity]. }
  assert (Qx : one_lexeme none_of none_of (Quoted "'" $"x") $"'x'") by (apply (Q $"x"); vm_compute; reflexivity).
  assert (Qz : one_lexeme none_of none_of (Quoted "'" $"%z") $"'%z'") by (apply (Q $"%z"); vm_compute; reflexivity).
  cbn [plain_tree]. repeat split.
  - apply Tokens.str_mem_In. reflexivity.
  - now apply C.
  - left. exists (Plain $"1"), $"1". split; auto. now apply operand_integer.
  - apply Tokens.str_mem_In. reflexivity.
  - now apply C.
  - right. eexists. split; [|reflexivity]. constructor.
    + exists (Plain $"1"), $"1". repeat split; try discriminate; apply N.
    + constructor; [|constructor]. exists (Quoted "'" $"x"), $"'x'". repeat split; try discriminate; apply Qx.
  - apply Tokens.str_mem_In. reflexivity.
  - now apply C.
  - left. exists (Quoted "'" $"%z"), $"'%z'". split; auto. now apply (operand_text _ none_of none_of $"'%z'").
Qed.

