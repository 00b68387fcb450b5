(** Proofs: concrete SQL statements. *)
From Coq Require Import Lia.
From Verif.Base Require Import Py Value PyFacts.
From Verif.Model Require Import Dates Tokens Splitter Evaluator DictSet Sql.
From Verif.Spec Require Import Tokens DictSet Evaluator Sql.
From Verif.Proofs Require Import Tokens Labels Splitter Sql SqlParse SqlText SqlStatement SqlEnds SqlReader ExpressionCases EvaluatorCases.

(** ** Texts are words with white space between them *)
Fixpoint text_words (cur s : str) : list str :=
  match s with
  | [] => match cur with [] => [] | _ => [rev cur] end
  | c :: s' => if is_space c then match cur with [] => text_words [] s' | _ => rev cur :: text_words [] s' end
               else text_words (c :: cur) s'
  end.
Lemma spread_pad a ws s : blanks a -> spread ws s -> spread ws (a ++ s).
Proof.
  intros Ha H. assert (B : forall x, blanks x -> blanks (a ++ x)) by (intros x Hx c; rewrite in_app_iff; intros [G|G]; auto).
  destruct H; [apply spread_none; auto| |]; rewrite (app_assoc a a0); [apply spread_one|apply spread_more]; auto.
Qed.
Lemma spread_blank s : spread [] s -> blanks s.
Proof. intros H. now inversion H. Qed.
Lemma rev_nonempty {A} (l : list A) : l <> [] -> rev l <> [].
Proof. intros H E. apply (f_equal (@rev _)) in E. rewrite rev_involutive in E. contradiction. Qed.
Lemma spread_text s : forall cur, (forall c, In c cur -> is_space c = false) -> spread (text_words cur s) (rev cur ++ s).
Proof.
  assert (N : blanks []) by (intros ? []).
  induction s as [|c s IH]; intros cur H; cbn [text_words].
  - destruct cur as [|d cur]; [apply spread_none; exact N|]. apply (spread_one (rev (d :: cur)) [] []); auto.
    + apply rev_nonempty. discriminate. + intros x Hx. apply H. now apply in_rev.
  - destruct (is_space c) eqn:Sc.
    + assert (B : blanks [c]) by (intros x [<-|[]]; exact Sc). specialize (IH [] ltac:(intros ? [])). cbn [rev app] in IH.
      destruct cur as [|d cur]; [exact (spread_pad [c] _ _ B IH)|].
      assert (R : rev (d :: cur) <> []) by (apply rev_nonempty; discriminate).
      assert (Hr : forall x, In x (rev (d :: cur)) -> is_space x = false) by (intros x Hx; apply H; now apply in_rev).
      destruct (text_words [] s) as [|w ws].
      * apply (spread_one _ [] (c :: s)); auto. apply spread_blank in IH. intros x [<-|Hx]; auto.
      * apply (spread_more _ [] [c] _ s); auto; discriminate.
    + replace (rev cur ++ c :: s) with (rev (c :: cur) ++ s) by (cbn [rev]; now rewrite <- app_assoc). apply IH.
      intros x [<-|Hx]; auto.
Qed.

(** ** Checks *)
Lemma without_check part s : part <> [] -> contains part s = false -> without part s.
Proof. intros H. now apply contains_false. Qed.
Definition body_ok (b : str) : bool :=
  match b with c :: _ => negb (is_word c) | [] => true end && forallb (fun w => negb (str_mem (upper w) sql_words)) (words b).
Lemma body_check b : body_ok b = true -> body b.
Proof.
  intros H. apply andb_prop in H as [H1 H2]. split.
  - intros c s ->. apply negb_true_iff in H1. intros W. apply word_char_spec in W. congruence.
  - intros w Hw Hin. rewrite forallb_forall in H2. specialize (H2 w Hw). apply negb_true_iff in H2. apply str_mem_In in Hin. congruence.
Qed.
Lemma ends_check s : not_word_at_end (last_or None s) = true -> ends_apart s.
Proof.
  intros H c s' -> W. apply word_char_spec in W. unfold last_or in H. rewrite rev_app_distr in H. cbn in H. rewrite W in H. discriminate.
Qed.
Lemma pairs_check {A} (P : A -> Prop) (f : A -> bool) l : (forall x, f x = true -> P x) -> forallb f l = true -> forall x, In x l -> P x.
Proof. intros H F x Hx. rewrite forallb_forall in F. auto. Qed.

Ltac not_chars := apply (pairs_check _ (fun c => negb (Ascii.eqb c "'") && negb (Ascii.eqb c """")));
  [intros x Hx; apply andb_prop in Hx as [X1 X2]; apply negb_true_iff in X1, X2; split; now apply Ascii.eqb_neq|vm_compute; reflexivity].
Ltac not_ends := apply (pairs_check _ (fun c => negb (Ascii.eqb c "010") && negb (Ascii.eqb c "013")));
  [intros x Hx; apply andb_prop in Hx as [X1 X2]; apply negb_true_iff in X1, X2; split; now apply Ascii.eqb_neq|vm_compute; reflexivity].
Ltac absent := apply without_check; [discriminate|vm_compute; reflexivity].
Ltac blank_text := unfold blanks; apply (pairs_check (fun c => is_space c = true) is_space); [auto|reflexivity].

(** ** A statement with comments *)
Definition ex_statement : list piece :=
  [PlainText $"SELECT name,  age "; BlockComment $" the 'columns "; PlainText ("010"%char :: $"From tenant.people where name = ");
   QuotedText "'" $"--"; PlainText (" "%char :: $"ORDER BY age desc " ++ "009"%char :: $"LIMIT 2 "); LineComment $" not all"].
Definition ex_words : list str := Eval vm_compute in text_words [] (text_of (without_comments ex_statement)).
Definition ex_parts : list part :=
  [Select false $"name, age"; From $"tenant.people"; Where $"name = '--'"; OrderBy $"age" (Some true); Limit 2].

Lemma ex_good : good_pieces ex_statement.
Proof.
  unfold ex_statement. repeat (apply good_more; [| |]); try apply good_none; cbn [good_piece may_come_before]; auto.
  - split; [not_chars|split; absent].
  - absent.
  - split; [not_chars|split; absent].
  - split; [now left|]. vm_compute. intuition discriminate.
  - split; [not_chars|split; absent].
  - intros s' E. apply (f_equal (@rev _)) in E. rewrite rev_app_distr in E. vm_compute in E. discriminate.
  - not_ends.
Qed.
Lemma ex_spread : spread ex_words (text_of (without_comments ex_statement)).
Proof. exact (spread_text (text_of (without_comments ex_statement)) [] ltac:(intros ? [])). Qed.

Lemma ex_written : written_parts ex_parts (join $" " ex_words).
Proof.
  change (join $" " ex_words) with
    ($"SELECT name, age " ++ $"From tenant.people " ++ $"where name = '--' " ++ $"ORDER BY age desc " ++ $"LIMIT 2").
  unfold ex_parts.
  apply parts_more; [|apply ends_check; reflexivity|discriminate|].
  { apply (written_select $"SELECT" $" name, age "); [reflexivity|apply body_check; vm_compute; reflexivity|discriminate]. }
  apply parts_more; [|apply ends_check; reflexivity|discriminate|].
  { apply (written_from $"From" $" tenant.people "); [reflexivity|apply body_check; vm_compute; reflexivity|discriminate|].
    intros c s E. vm_compute in E. injection E as <- _. vm_compute. intuition discriminate. }
  apply parts_more; [|apply ends_check; reflexivity|discriminate|].
  { apply (written_where $"where" $" name = '--' "); [reflexivity|apply body_check; vm_compute; reflexivity]. }
  apply parts_more; [|apply ends_check; reflexivity|discriminate|].
  { apply (written_ordered $"ORDER BY" $" age " $"desc" $" "); [reflexivity|apply body_check; vm_compute; reflexivity|apply ends_check; reflexivity|
      discriminate|vm_compute; tauto|blank_text]. }
  apply parts_last. apply (written_limit $"LIMIT" $" 2"); [reflexivity|apply body_check; vm_compute; reflexivity|vm_compute; reflexivity].
Qed.

Lemma ex_safe : safe_name (dots_to_slashes $"tenant.people").
Proof. apply validate_spec. vm_compute. reflexivity. Qed.

(** ** A sub-query *)
Definition sub_statement : list piece := [PlainText $"SELECT a FROM (SELECT a FROM t) WHERE a = 1"].
Definition sub_parts : list part := [Select false $"a"; FromQuery $"SELECT a FROM t"; Where $"a = 1"].
Definition sub_without : list piece := [PlainText $"SELECT a FROM (SELECT a FROM t) "].

Lemma plain_good s : forallb (fun c => negb (Ascii.eqb c "'") && negb (Ascii.eqb c """")) s = true -> contains $"--" s = false -> contains $"/*" s = false ->
  good_pieces [PlainText s].
Proof.
  intros H1 H2 H3. apply good_more; [|exact I|apply good_none]. split; [|split; apply without_check; auto; discriminate].
  intros x Hx. rewrite forallb_forall in H1. specialize (H1 x Hx). apply andb_prop in H1 as [X1 X2]. apply negb_true_iff in X1, X2.
  split; now apply Ascii.eqb_neq.
Qed.
Lemma sub_balanced : balanced $"SELECT a FROM t".
Proof. cbn. repeat (apply balanced_char; [vm_compute; intuition discriminate|]). apply balanced_none. Qed.
Lemma sub_written : written_parts sub_parts (join $" " (text_words [] (text_of (without_comments sub_statement)))).
Proof.
  change (join $" " (text_words [] (text_of (without_comments sub_statement)))) with
    ($"SELECT a " ++ $"FROM (SELECT a FROM t) " ++ $"WHERE a = 1").
  apply parts_more; [|apply ends_check; reflexivity|discriminate|].
  { apply (written_select $"SELECT" $" a "); [reflexivity|apply body_check; vm_compute; reflexivity|discriminate]. }
  apply parts_more; [|apply ends_check; reflexivity|discriminate|].
  { apply (written_query $"FROM" $" " $"SELECT a FROM t" $" "); [reflexivity|blank_text|exact sub_balanced|blank_text]. }
  apply parts_last. apply (written_where $"WHERE" $" a = 1"); [reflexivity|apply body_check; vm_compute; reflexivity].
Qed.
Lemma sub_without_written : written_parts (filter (fun p => negb (is_where p)) sub_parts)
    (join $" " (text_words [] (text_of (without_comments sub_without)))).
Proof.
  change (join $" " (text_words [] (text_of (without_comments sub_without)))) with ($"SELECT a " ++ $"FROM (SELECT a FROM t)").
  cbn [filter sub_parts is_where negb].
  apply parts_more; [|apply ends_check; reflexivity|discriminate|].
  { apply (written_select $"SELECT" $" a "); [reflexivity|apply body_check; vm_compute; reflexivity|discriminate]. }
  apply parts_last. apply (written_query $"FROM" $" " $"SELECT a FROM t" []); [reflexivity|blank_text|exact sub_balanced|intros ? []].
Qed.

(** ** A reader which has two records *)
Definition people : list record :=
  [[($"name", VStr $"Ann"); ($"age", VInt 30); ($"*", VStr $"*")]; [($"name", VStr $"Bob"); ($"age", VInt 41); ($"*", VStr $"*")];
   [($"name", VStr $"Cy"); ($"age", VInt 12); ($"*", VStr $"*")]].
Definition people_reader (select d : str) (w : option str) : result (list record) := Ok people.
Definition ones : list record := [[($"a", VInt 1)]; [($"a", VInt 2)]].
Definition ones_reader (select d : str) (w : option str) : result (list record) := Ok ones.

Definition ex_columns : list (expr * option str) := [(Atom $"name", None); (Atom $"age", None)].
Lemma ex_columns_written : written_list (get_token_type none_of none_of) ex_columns $"name, age".
Proof.
  apply (list_more (get_token_type none_of none_of) _ $"name" _ $" age").
  - apply entry_plain. apply (written_atom (get_token_type none_of none_of) $"name" [] []); try blanks_tac. atom_tac.
  - apply list_one, entry_plain. apply (written_atom (get_token_type none_of none_of) $"age" $" " []); try blanks_tac. atom_tac.
Qed.

(** ORDER BY and LIMIT, without ASC or DESC *)
Definition order_statement : str := $"SELECT a FROM b ORDER BY a LIMIT 5".
Lemma order_good : good_pieces [PlainText order_statement].
Proof. apply plain_good; vm_compute; reflexivity. Qed.
Lemma order_before : parts_before [Select false $"a"; From $"b"] $"SELECT a FROM b ".
Proof.
  apply (before_more _ $"SELECT a " _ $"FROM b "); [|apply ends_check; reflexivity|discriminate|].
  { apply (written_select $"SELECT" $" a "); [reflexivity|apply body_check; vm_compute; reflexivity|discriminate]. }
  apply (before_more _ $"FROM b " _ []); [|apply ends_check; reflexivity|discriminate|apply before_none].
  apply (written_from $"FROM" $" b "); [reflexivity|apply body_check; vm_compute; reflexivity|discriminate|].
  intros c s E. vm_compute in E. injection E as <- _. vm_compute. intuition discriminate.
Qed.
