(** Proofs: which SQL statements are read to their end. *)
From Coq Require Import Lia.
From Verif.Base Require Import Py Value PyFacts.
From Verif.Model Require Import Dates Tokens Splitter Evaluator Sql.
From Verif.Spec Require Import Tokens Evaluator Sql.
From Verif.Proofs Require Import Tokens Labels Splitter Sql SqlParse SqlText SqlStatement.
From Verif.Proofs Require Evaluator Functions.

Lemma part_some prev s n : part_at sql_splits prev s = Some n -> n <> 0.
Proof.
  unfold part_at. destruct (find _ _) as [[k w]|] eqn:E; [|discriminate]. apply find_some in E as [Hin _]. cbn. intros G. injection G as <-.
  assert (F : forallb (fun k => negb (Nat.eqb (length (fst k)) 0)) sql_splits = true) by (vm_compute; reflexivity).
  rewrite forallb_forall in F. specialize (F _ Hin). cbn in F. intros Z. rewrite Z in F. discriminate.
Qed.
Lemma concat_cut s : forall skip prev cur, concat (scut skip prev cur s) = rev cur ++ skipn skip s.
Proof.
  induction s as [|c s IH]; intros skip prev cur; cbn [cut].
  - cbn. destruct skip; cbn; now rewrite ?app_nil_r.
  - destruct skip as [|k]; [|now rewrite IH]. destruct (part_at sql_splits prev (c :: s)) as [n|] eqn:E.
    + pose proof (part_some _ _ _ E). cbn [concat]. rewrite IH. destruct n as [|n]; [congruence|]. cbn [firstn Nat.pred rev app].
      cbn [skipn app]. f_equal. f_equal. apply firstn_skipn.
    + rewrite IH. cbn [rev skipn]. now rewrite <- app_assoc.
Qed.
Lemma concat_ne (l : list str) : concat (ne l) = concat l.
Proof. induction l as [|t l IH]; auto. cbn [filter concat]. destruct t; cbn; now rewrite IH. Qed.
Lemma sql_parts_concat s : concat (sql_parts s) = s.
Proof. unfold sql_parts. rewrite concat_ne, concat_cut. reflexivity. Qed.
Lemma sql_parts_full s t : In t (sql_parts s) -> t <> [].
Proof. intros H. apply filter_In in H as [_ H]. intros ->. discriminate H. Qed.
Lemma sql_parts_length s : length (sql_parts s) <= length s.
Proof. rewrite <- (sql_parts_concat s) at 2. apply full_shorter. exact (sql_parts_full s). Qed.

Lemma remove_shorter s : forall m, length (remove_from m s) <= length s.
Proof.
  induction s as [|c s IH]; intros m; [cbn; lia|]. cbn [remove_from length].
  destruct m as [|q|[|n]].
  - destruct (_ && _); [cbn [length]; specialize (IH (InQuotes c)); lia|].
    destruct (comment_at _) as [[|n]|]; cbn [length]; [specialize (IH InText)|specialize (IH (InComment n))|specialize (IH InText)]; lia.
  - cbn [length]. specialize (IH (if Ascii.eqb c q then InText else InQuotes q)). lia.
  - destruct (_ && _); [cbn [length]; specialize (IH (InQuotes c)); lia|].
    destruct (comment_at _) as [[|n]|]; cbn [length]; [specialize (IH InText)|specialize (IH (InComment n))|specialize (IH InText)]; lia.
  - specialize (IH (match n with O => InText | S _ => InComment n end)). lia.
Qed.
Lemma squash_shorter s : forall b, length (squash b s) <= length s.
Proof.
  induction s as [|c s IH]; intros b; cbn; [lia|]. destruct (is_space c); [destruct b|]; cbn;
    [specialize (IH true)|specialize (IH true)|specialize (IH false)]; lia.
Qed.
Lemma strip_shorter s : length (strip s) <= length s.
Proof.
  unfold strip, rstrip. rewrite rev_length. destruct (Functions.lstrip_parts s) as (x & _ & E & _).
  destruct (Functions.lstrip_parts (rev (lstrip s))) as (y & _ & E' & _).
  apply (f_equal (@length _)) in E, E'. rewrite app_length in *. rewrite rev_length in E'. lia.
Qed.
Lemma clean_shorter s : length (sql_parts (clean_statement (remove_comments s))) <= length s.
Proof.
  eapply Nat.le_trans; [apply sql_parts_length|]. unfold clean_statement. eapply Nat.le_trans; [apply strip_shorter|].
  eapply Nat.le_trans; [apply squash_shorter|]. apply remove_shorter.
Qed.

Section Ends.
  Context (float_of date_of : str -> option value).
  Notation run_clause := (one_clause float_of date_of).
  Notation run_clauses := (clauses float_of date_of).

  (** ** Getting no further *)
  Lemma one_stall st t ts : strip t <> [] -> ~ In (upper t) clause_words -> run_clause st t ts = Ok (st, t :: ts).
  Proof.
    intros Hs Hn. unfold one_clause.
    assert (E0 : str_eqb (strip t) [] = false) by (destruct (str_eqb (strip t) []) eqn:E; auto; apply str_eqb_eq in E; congruence).
    rewrite E0.
    assert (W : forall w, In w clause_words -> str_eqb (upper t) w = false).
    { intros w Hw. destruct (str_eqb (upper t) w) eqn:E; auto. apply str_eqb_eq in E. now rewrite E in Hn. }
    rewrite !W by (unfold clause_words; cbn [In]; tauto). reflexivity.
  Qed.
  Lemma stalls t ts : strip t <> [] -> ~ In (upper t) clause_words -> forall fuel st, run_clauses fuel st (t :: ts) = Raise OutOfFuel.
  Proof.
    intros Hs Hn. induction fuel as [|f IH]; intros st; [reflexivity|]. cbn [clauses]. rewrite one_stall by auto. cbn [bind]. apply IH.
  Qed.

  (** ** A round either takes tokens, or gets no further for ever *)
  Lemma collector_shorter ts : length (snd (collector ts)) <= length ts.
  Proof.
    unfold collector. assert (H : length (snd (collect_tokens ts)) <= length ts).
    { induction ts as [|t ts IH]; [cbn; lia|]. cbn [collect_tokens]. destruct (is_part t); [cbn; lia|]. destruct (collect_tokens ts). cbn in *. lia. }
    destruct (collect_tokens ts). exact H.
  Qed.
  Lemma skip_shorter ts : length (skip_empty float_of date_of ts) <= length ts.
  Proof. induction ts as [|t ts IH]; cbn; [lia|]. destruct (ttype_beq _ EMPTY); cbn; lia. Qed.
  Lemma query_shorter ts : forall n q rest, query_tokens float_of date_of n ts = Ok (q, rest) -> length rest <= length ts.
  Proof.
    induction ts as [|t ts IH]; intros n q rest H; cbn [query_tokens] in H; [discriminate|].
    destruct (ttype_beq _ RIGHTPAREN).
    - destruct n as [|[|n]]; try (injection H as <- <-; cbn; lia).
      destruct (query_tokens _ _ (S n) ts) as [[q' rest']|] eqn:E; [|discriminate]. injection H as <- <-. apply IH in E. cbn. lia.
    - destruct (query_tokens _ _ _ ts) as [[q' rest']|] eqn:E; [|discriminate]. injection H as <- <-. apply IH in E. cbn. lia.
  Qed.
  Lemma query_raises ts : forall n e, query_tokens float_of date_of n ts = Raise e -> e = InvalidSqlError.
  Proof.
    induction ts as [|t ts IH]; intros n e H; cbn [query_tokens] in H; [congruence|].
    destruct (ttype_beq _ RIGHTPAREN).
    - destruct n as [|[|n]]; try discriminate. destruct (query_tokens _ _ (S n) ts) as [[q' rest']|] eqn:E; [discriminate|].
      injection H as <-. now apply IH in E.
    - destruct (query_tokens _ _ _ ts) as [[q' rest']|] eqn:E; [discriminate|]. injection H as <-. now apply IH in E.
  Qed.
  Lemma py_int_raises s e : py_int s = Raise e -> e <> OutOfFuel.
  Proof.
    assert (D0 : forall n u, length u <= n -> forall a x, int_digits a u = Raise x -> x <> OutOfFuel).
    { induction n as [|n IH]; intros [|c u] L a x H; cbn in L; try lia; try discriminate. cbn [int_digits] in H.
      destruct (digit_val c) as [d|]; [eapply (IH u); [lia|exact H]|]. destruct (Ascii.eqb c "_"%char); [|congruence].
      destruct u as [|c' u]; [congruence|]. destruct (digit_val c'); [|congruence]. cbn in L. eapply (IH u); [lia|exact H]. }
    assert (D : forall u x, int_unsigned u = Raise x -> x <> OutOfFuel).
    { intros [|c u] x H; cbn [int_unsigned] in H; [congruence|]. destruct (digit_val c); [eapply D0; [|exact H]; apply le_n|congruence]. }
    unfold py_int. intros H. destruct (ustrip s) as [|c u]; [eapply D; exact H|].
    destruct c as [[|] [|] [|] [|] [|] [|] [|] [|]]; try (eapply D; exact H).
    destruct (int_unsigned u) eqn:E; cbn in H; [discriminate|]. injection H as ->. eapply D. exact E.
  Qed.

  Lemma one_round st t ts :
    run_clause st t ts = Ok (st, t :: ts) \/
    (exists st' rest, run_clause st t ts = Ok (st', rest) /\ length rest <= length ts) \/
    (exists e, run_clause st t ts = Raise e /\ e <> OutOfFuel).
  Proof.
    unfold one_clause. destruct (str_eqb (strip t) []); [right; left; eexists _, _; split; [reflexivity|lia]|].
    destruct (str_eqb (upper t) $"SELECT").
    { right. pose proof (skip_shorter ts) as S. destruct (skip_empty _ _ ts) as [|t' ts']; [right; eexists; split; [reflexivity|discriminate]|]. left.
      set (x := if str_eqb (upper t') $"DISTINCT" then skip_empty float_of date_of ts' else t' :: ts').
      assert (X : length x <= length ts).
      { unfold x. destruct (str_eqb _ _); auto. pose proof (skip_shorter ts'). cbn in *. lia. }
      pose proof (collector_shorter x). destruct (collector x) as [e rest]. cbn in *. eexists _, _. split; [reflexivity|lia]. }
    destruct (str_eqb (upper t) $"FROM").
    { right. pose proof (skip_shorter ts) as S. destruct (skip_empty _ _ ts) as [|t' ts']; [right; eexists; split; [reflexivity|discriminate]|].
      destruct (ttype_beq _ LEFTPAREN).
      - destruct (query_tokens _ _ 1 ts') as [[q rest]|e] eqn:E; cbn [bind].
        + left. eexists _, _. split; [reflexivity|]. apply query_shorter in E. cbn in S. lia.
        + right. apply query_raises in E. subst e. eexists. split; [reflexivity|discriminate].
      - left. pose proof (collector_shorter (t' :: ts')). destruct (collector (t' :: ts')) as [e rest]. cbn in *. eexists _, _. split; [reflexivity|lia]. }
    pose proof (collector_shorter ts) as C.
    destruct (str_eqb (upper t) $"WHERE"); [right; left; destruct (collector ts); eexists _, _; split; [reflexivity|exact C]|].
    destruct (str_eqb (upper t) $"GROUP BY"); [right; left; destruct (collector ts); eexists _, _; split; [reflexivity|exact C]|].
    destruct (str_eqb (upper t) $"HAVING"); [right; left; destruct (collector ts); eexists _, _; split; [reflexivity|exact C]|].
    destruct (str_eqb (upper t) $"ORDER BY").
    { right. left. destruct (collector ts) as [e [|t' rest]]; eexists _, _; (split; [reflexivity|]); cbn in *; lia. }
    destruct (str_eqb (upper t) $"LIMIT").
    { right. destruct (collector ts) as [e rest]. destruct (py_int e) as [n|x] eqn:E; cbn [bind].
      - left. eexists _, _. split; [reflexivity|exact C].
      - right. eexists. split; [reflexivity|]. now apply py_int_raises in E. }
    left. reflexivity.
  Qed.

  Lemma ends_or_stalls n : forall ts, length ts <= n -> forall st,
    (exists r, r <> Raise OutOfFuel /\ forall fuel, length ts <= fuel -> run_clauses fuel st ts = r) \/
    (forall fuel, run_clauses fuel st ts = Raise OutOfFuel).
  Proof.
    induction n as [|n IH]; intros [|t ts] L st; try (cbn in L; lia); try (left; exists (Ok st); split; [discriminate|intros [|f] _; reflexivity]).
    cbn in L. destruct (one_round st t ts) as [E|[(st' & rest & E & Lr)|(e & E & Ne)]].
    - right. induction fuel as [|f IHf]; [reflexivity|]. cbn [clauses]. rewrite E. cbn [bind]. exact IHf.
    - destruct (IH rest ltac:(lia) st') as [(r & Hr & F)|F].
      + left. exists r. split; auto. intros [|f] Hf; [cbn in Hf; lia|]. cbn in Hf. cbn [clauses]. rewrite E. cbn [bind]. apply F. lia.
      + right. intros [|f]; [reflexivity|]. cbn [clauses]. rewrite E. cbn [bind]. apply F.
    - left. exists (Raise e). split; [congruence|]. intros [|f] Hf; [cbn in Hf; lia|]. cbn [clauses]. rewrite E. reflexivity.
  Qed.

  Lemma validate_raises d e : validate_dataset d = Raise e -> e <> OutOfFuel.
  Proof.
    unfold validate_dataset. intros H ->. destruct d; [discriminate|].
    repeat match type of H with context [if ?x then _ else _] => destruct x; try discriminate end.
  Qed.
  Lemma parse_ends_or_never s :
    (exists r, r <> Raise OutOfFuel /\ forall fuel, length s <= fuel -> parse_statement float_of date_of fuel s = r) \/
    (forall fuel, parse_statement float_of date_of fuel s = Raise OutOfFuel).
  Proof.
    unfold parse_statement. pose proof (clean_shorter s) as L. set (ts := sql_parts (clean_statement (remove_comments s))) in *.
    destruct (ends_or_stalls (length ts) ts (le_n _) empty_statement) as [(r & Hr & F)|F].
    - left. eexists. split; [|intros fuel Hf; rewrite F by lia; reflexivity].
      destruct r as [st|e]; cbn [bind]; [|exact Hr].
      destruct (from st) as [[d|q]|]; cbn [bind].
      + destruct (validate_dataset d) eqn:V; cbn [bind]; [destruct (select_expression st); discriminate|]. apply validate_raises in V. congruence.
      + destruct (select_expression st); discriminate.
      + discriminate.
    - right. intros fuel. now rewrite F.
  Qed.

  (** ** Statements which start with something else *)
  Lemma unknown_never ps ws : good_pieces ps -> spread ws (text_of (without_comments ps)) -> ws <> [] ->
    (forall k rest, In k clause_words -> upper (join $" " ws) <> k ++ rest) ->
    forall fuel, parse_statement float_of date_of fuel (text_of ps) = Raise OutOfFuel.
  Proof.
    intros Hg Hs Hn Hk fuel. unfold parse_statement. rewrite (remove_comments_of ps Hg), (clean_spread ws _ Hs).
    pose proof (sql_parts_concat (join $" " ws)) as C. pose proof (sql_parts_full (join $" " ws)) as N.
    destruct ws as [|w ws]; [congruence|]. pose proof (spread_words _ _ Hs w (or_introl eq_refl)) as [Hw1 Hw2].
    destruct w as [|c w]; [congruence|].
    assert (J : exists r, join $" " ((c :: w) :: ws) = c :: r).
    { destruct ws; [exists w; reflexivity|]. rewrite join_cons by discriminate. cbn [app]. eauto. }
    destruct J as (r & J). rewrite J in *.
    destruct (sql_parts (c :: r)) as [|t ts]; [discriminate C|].
    assert (T : exists t', t = c :: t').
    { destruct t as [|d t]; [destruct (N [] (or_introl eq_refl)); reflexivity|]. cbn in C. injection C as -> _. eauto. }
    destruct T as (t' & ->). rewrite stalls; [reflexivity| |].
    - intros Z. apply strip_nil_blanks in Z. specialize (Z c (or_introl eq_refl)). rewrite Hw2 in Z by now left. discriminate.
    - intros Hin. apply (Hk _ (upper (concat ts)) Hin). rewrite <- upper_app. f_equal. symmetry. exact C.
  Qed.

  Context (HF : reads_floats float_of).
  Lemma before_tokens cs u : parts_before cs u -> forall prev rest, not_word_at_end prev = true ->
    (exists k r, rest = k ++ r /\ is_part k = true /\ nonword_start r) ->
    exists ts prev', ne (scut 0 prev [] (u ++ rest)) = ts ++ ne (scut 0 prev' [] rest) /\ not_word_at_end prev' = true /\
      (u <> [] -> next ts /\ ts <> []) /\ (u = [] -> ts = []) /\
      forall R, next R -> forall st, exists st' n, forall f, run_clauses (n + f) st (ts ++ R) = run_clauses f st' R.
  Proof.
    induction 1 as [|p s ps s' W He Ho Ws IH]; intros prev rest Hp Hr.
    - exists [], prev. repeat split; auto; try congruence. intros R _ st. exists st, 0. reflexivity.
    - rewrite <- app_assoc.
      assert (Hs' : follows s (s' ++ rest)).
      { right. split; auto. destruct Ws as [|p' v ps' v' W' He' Ho' Ws']; [exact Hr|].
        destruct (written_starts [p'] v (parts_last p' v W')) as (k & r & E & Hk & Hr'). exists k, (r ++ v' ++ rest). subst v.
        rewrite <- !app_assoc. repeat split; auto. destruct r as [|c r]; [|exact Hr'].
        rewrite app_nil_r in He'. destruct (part_end k Hk He'). }
      destruct (part_tokens float_of date_of HF p s W prev (s' ++ rest) Hp Hs') as (us & E & Ec & Hn & Hne & D).
      assert (Hs : s <> []) by (intros ->; destruct us as [|x us]; [auto|]; cbn in Hn; destruct x; [discriminate Hn|discriminate Ec]).
      pose proof (last_not_word prev s He Hs) as L. destruct (IH _ rest L Hr) as (ts & prev' & E' & Hp' & N1 & N2 & T).
      exists (us ++ ts), prev'. rewrite E, E', app_assoc. split; auto. split; auto.
      split; [intros _; destruct us as [|x us]; [congruence|]; split; [exact Hn|discriminate]|].
      split; [intros Z; destruct s; [congruence|discriminate]|].
      intros R HR st. rewrite <- app_assoc.
      assert (Nx : next (ts ++ R)).
      { destruct s' as [|c s']; [rewrite N2 by auto; exact HR|]. destruct N1 as [N1 N3]; [discriminate|]. destruct ts; [congruence|exact N1]. }
      destruct (D (ts ++ R) st Nx ltac:(intros (c & ->); destruct (Ho c eq_refl))) as (st1 & n & A & Ln & F).
      destruct (T R HR st1) as (st2 & m & F2). exists st2, (n + m). intros f. rewrite <- Nat.add_assoc, F. apply F2.
  Qed.

  Lemma clauses_never ts st' n st R : (forall f, run_clauses (n + f) st (ts ++ R) = run_clauses f st' R) ->
    (forall f, run_clauses f st' R = Raise OutOfFuel) -> forall f, run_clauses f st (ts ++ R) = Raise OutOfFuel.
  Proof.
    intros F N f. destruct (ends_or_stalls _ (ts ++ R) (le_n _) st) as [(r & Hr & G)|G]; [|apply G].
    exfalso. apply Hr. rewrite <- (G (n + length (ts ++ R)) ltac:(lia)). rewrite F. apply N.
  Qed.

  (** ORDER BY without ASC or DESC, and another part with something in it after it *)
  Lemma order_never ps ws cs u k b k2 b2 : good_pieces ps -> spread ws (text_of (without_comments ps)) ->
    join $" " ws = u ++ (k ++ b) ++ (k2 ++ b2) -> parts_before cs u ->
    upper k = $"ORDER BY" -> body b -> ends_apart (k ++ b) ->
    In (upper k2) [$"SELECT"; $"FROM"; $"WHERE"; $"GROUP BY"; $"HAVING"; $"ORDER BY"; $"LIMIT"] -> body b2 -> strip b2 <> [] ->
    forall fuel, parse_statement float_of date_of fuel (text_of ps) = Raise OutOfFuel.
  Proof.
    intros Hg Hs E Hu Hk Hb He Hk2 Hb2 Hn fuel. unfold parse_statement.
    rewrite (remove_comments_of ps Hg), (clean_spread ws _ Hs), E. unfold sql_parts.
    assert (P : is_part k = true) by (eapply is_part_upper; eauto; reflexivity).
    assert (P2 : is_part k2 = true).
    { repeat match type of Hk2 with _ \/ _ => destruct Hk2 as [Hk2|Hk2] | In _ (_ :: _) => cbn [In] in Hk2 | _ => idtac end;
        try (eapply is_part_upper; [symmetry; exact Hk2|reflexivity]). destruct Hk2. }
    assert (Nb : nonword_start (b ++ k2 ++ b2)).
    { destruct b as [|c b]; [|apply starts_nonword; [apply Hb|discriminate]]. rewrite app_nil_r in He. destruct (part_end k P He). }
    assert (Nb2 : nonword_start b2).
    { destruct b2 as [|c b2]; [exact I|]. rewrite <- (app_nil_r (c :: b2)). apply starts_nonword; [apply Hb2|discriminate]. }
    destruct (before_tokens cs u Hu None ((k ++ b) ++ k2 ++ b2) eq_refl) as (ts & prev & E1 & Hp & _ & _ & T).
    { exists k, (b ++ k2 ++ b2). now rewrite <- app_assoc. }
    rewrite E1.
    destruct (word_body k b prev (k2 ++ b2) P Hp Hb) as (qs & E2 & C2 & Q2).
    { right. split; auto. exists k2, b2. auto. }
    assert (Hl : not_word_at_end (last_or prev (k ++ b)) = true) by (apply last_not_word; auto; destruct k; [discriminate P|discriminate]).
    destruct (word_body k2 b2 (last_or prev (k ++ b)) [] P2 Hl Hb2 (or_introl eq_refl)) as (rs & E3 & C3 & Q3).
    rewrite app_nil_r in E3. rewrite <- (app_assoc k b). rewrite E2, E3. change (ne (scut 0 ?p [] [])) with (@nil str).
    set (R := k :: qs ++ k2 :: rs ++ []).
    destruct (T R P empty_statement) as (st & n & F).
    rewrite (clauses_never ts st n empty_statement R F); [reflexivity|].
    intros f. unfold R. destruct f as [|f]; [reflexivity|]. cbn [clauses]. rewrite one_order by auto.
    rewrite collector_plain by (auto; exact P2). cbn [bind].
    match goal with |- context [run_clauses f ?x] => generalize x end. intros st1. rewrite app_nil_r.
    destruct (ends_or_stalls _ rs (le_n _) st1) as [(r & Hr & G)|G]; [|apply G].
    exfalso. apply Hr. rewrite <- (G (length rs) (le_n _)). clear G Hr.
    assert (Z : forall rs, plain rs -> strip (concat rs) <> [] -> forall f st, run_clauses f st rs = Raise OutOfFuel).
    { clear. induction rs as [|t rs IH]; intros Q Hn f st; [now destruct Hn|]. inversion Q as [|? ? Qt Qr]; subst.
      destruct (list_eq_dec Ascii.ascii_dec (strip t) []) as [B|B].
      - destruct f as [|f]; [reflexivity|]. cbn [clauses]. rewrite one_blank by auto. cbn [bind]. apply IH; auto.
        cbn [concat] in Hn. rewrite strip_before in Hn by now apply strip_nil_blanks. exact Hn.
      - apply stalls; auto. intros Hin. assert (is_part t = true); [|congruence].
        unfold is_part. apply str_mem_In. unfold clause_words in Hin. cbn [In] in Hin. unfold SQL_PARTS. cbn [In]. tauto. }
    apply Z; auto. now rewrite C3.
  Qed.
End Ends.
