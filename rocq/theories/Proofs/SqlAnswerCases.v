(** Proofs: concrete answers. *)
From Coq Require Import Lia.
From Verif.Base Require Import Py Value PyFacts.
From Verif.Model Require Import Dates Tokens Splitter Evaluator DictSet GroupBy Sql.
From Verif.Spec Require Import Tokens DictSet Evaluator Sql SqlAnswer.
From Verif.Spec Require GroupBy.
From Verif.Proofs Require Import Tokens Labels Splitter Sql SqlText SqlStatement ExpressionCases EvaluatorCases SqlCases.

Notation none_label := (get_token_type none_of none_of).
(** hashes without collisions: the bytes of the text as a number *)
Definition text_code (s : str) : N := fold_left (fun a c => a * 257 + N_of_ascii c + 1)%N s 0%N.
Definition text_codez (s : str) : Z := Z.of_N (text_code s).
(** a condition: all but the first *)
Definition not_first (h : str) (rows : list record) : result (list record) := Ok (tl rows).

Definition staff : list record :=
  [[($"name", VStr $"Ann"); ($"dept", VStr $"x"); ($"pay", VInt 30)]; [($"name", VStr $"Bob"); ($"dept", VStr $"y"); ($"pay", VInt 41)];
   [($"name", VStr $"Cy"); ($"dept", VStr $"x"); ($"pay", VInt 12)]; [($"name", VStr $"Bob"); ($"dept", VStr $"x"); ($"pay", VNull)]].
Definition staff_reader (select d : str) (w : option str) : result (list record) := Ok staff.

(** ** AS and DISTINCT *)
Definition as_statement : list piece := [PlainText $"SELECT DISTINCT name AS who FROM staff HAVING some ORDER BY who DESC LIMIT 2"].
Definition as_parts : list part :=
  [Select true $"name AS who"; From $"staff"; Having $"some"; OrderBy $"who" (Some true); Limit 2].
Definition as_columns : list (expr * option str) := [(Atom $"name", Some $"who")].

Lemma as_good : good_pieces as_statement.
Proof. apply plain_good; vm_compute; reflexivity. Qed.
Lemma as_written : written_parts as_parts (join $" " (text_words [] (text_of (without_comments as_statement)))).
Proof.
  change (join $" " (text_words [] (text_of (without_comments as_statement)))) with
    ($"SELECT DISTINCT name AS who " ++ $"FROM staff " ++ $"HAVING some " ++ $"ORDER BY who DESC " ++ $"LIMIT 2").
  apply parts_more; [|apply ends_check; reflexivity|discriminate|].
  { apply (written_distinct $"SELECT" $" " $"DISTINCT" $" name AS who "); [reflexivity|blank_text|discriminate|reflexivity|apply body_check; vm_compute; reflexivity]. }
  apply parts_more; [|apply ends_check; reflexivity|discriminate|].
  { apply (written_from $"FROM" $" staff "); [reflexivity|apply body_check; vm_compute; reflexivity|discriminate|].
    intros c s E. vm_compute in E. injection E as <- _. vm_compute. intuition discriminate. }
  apply parts_more; [|apply ends_check; reflexivity|discriminate|].
  { apply (written_having $"HAVING" $" some "); [reflexivity|apply body_check; vm_compute; reflexivity]. }
  apply parts_more; [|apply ends_check; reflexivity|discriminate|].
  { apply (written_ordered $"ORDER BY" $" who " $"DESC" $" "); [reflexivity|apply body_check; vm_compute; reflexivity|apply ends_check; reflexivity|
      discriminate|vm_compute; tauto|blank_text]. }
  apply parts_last. apply (written_limit $"LIMIT" $" 2"); [reflexivity|apply body_check; vm_compute; reflexivity|vm_compute; reflexivity].
Qed.
Lemma trimmed_name s : s <> [] -> strip s = s -> trimmed s. Proof. now split. Qed.
Lemma as_columns_written : written_list none_label as_columns $"name AS who".
Proof.
  apply list_one. apply (entry_as none_label (Atom $"name") $"name " $"AS" $" " $"who" []).
  - apply (written_atom none_label $"name" [] $" "); try blanks_tac. atom_tac.
  - exists $"name", " "%char. split; [reflexivity|]. intros W. apply word_char_spec in W. discriminate W.
  - reflexivity.
  - blanks_tac.
  - discriminate.
  - blanks_tac.
  - split; [discriminate|reflexivity].
  - split.
    + intros c H. vm_compute in H. vm_compute. intuition congruence.
    + intros w H. vm_compute in H. destruct H as [<-|[]]. discriminate.
Qed.
Lemma as_source : source_gives staff_reader (fun _ _ => Raise TypeError) as_parts $"name AS who" staff.
Proof. split; [apply validate_spec; vm_compute; reflexivity|reflexivity]. Qed.
Lemma as_list : good_list none_label as_columns (tl staff).
Proof.
  right. split; [repeat constructor; vm_compute; intuition discriminate|]. split; [repeat constructor; vm_compute; tauto|].
  split; [vm_compute; intuition discriminate|]. intros r H. cbn [tl staff In] in H.
  repeat match type of H with _ \/ _ => destruct H as [H|H] end; try contradiction; subst r;
    (split; [repeat constructor; vm_compute; intuition discriminate|]; split; [repeat constructor; vm_compute; tauto|];
     intros x n [<-|[]] E; injection E as <-; vm_compute; intuition discriminate).
Qed.
Lemma as_apart : told_apart text_codez (columns_of as_columns (tl staff)).
Proof.
  split; [|split].
  - intros a b Ha Hb. vm_compute in Ha, Hb.
    repeat match type of Ha with _ \/ _ => destruct Ha as [Ha|Ha] end; repeat match type of Hb with _ \/ _ => destruct Hb as [Hb|Hb] end;
      try contradiction; subst a b; reflexivity.
  - intros a b v w Ha Hb. vm_compute in Ha, Hb.
    repeat match type of Ha with _ \/ _ => destruct Ha as [Ha|Ha] end; repeat match type of Hb with _ \/ _ => destruct Hb as [Hb|Hb] end;
      try contradiction; subst a b; intros [<-|[]] [<-|[]]; vm_compute; congruence.
  - intros a b Ha Hb. vm_compute in Ha, Hb.
    repeat match type of Ha with _ \/ _ => destruct Ha as [Ha|Ha] end; repeat match type of Hb with _ \/ _ => destruct Hb as [Hb|Hb] end;
      try contradiction; subst a b; vm_compute; congruence.
Qed.
Lemma as_orderable : orderable as_parts (columns_of as_columns (tl staff)).
Proof.
  intros column E _. injection E as <-. right. intros r H. vm_compute in H.
  repeat match type of H with _ \/ _ => destruct H as [H|H] end; try contradiction; subst r; vm_compute; eauto.
Qed.

(** ** GROUP BY *)
Definition group_statement : list piece := [PlainText $"SELECT dept, COUNT(*), SUM(pay) AS cost FROM staff GROUP BY dept"].
Definition group_parts : list part := [Select false $"dept, COUNT(*), SUM(pay) AS cost"; From $"staff"; GroupBy $"dept"].
Definition group_columns : list (expr * option str) :=
  [(Atom $"dept", None); (Call $"COUNT" [Atom $"*"], None); (Call $"SUM" [Atom $"pay"], Some $"cost")].
Definition group_requests : list (func * str) := [(COUNT, $"*"); (SUM, $"pay")].

Lemma group_good : good_pieces group_statement.
Proof. apply plain_good; vm_compute; reflexivity. Qed.
Lemma group_written : written_parts group_parts (join $" " (text_words [] (text_of (without_comments group_statement)))).
Proof.
  change (join $" " (text_words [] (text_of (without_comments group_statement)))) with
    ($"SELECT dept, COUNT(*), SUM(pay) AS cost " ++ $"FROM staff " ++ $"GROUP BY dept").
  apply parts_more; [|apply ends_check; reflexivity|discriminate|].
  { apply (written_select $"SELECT" $" dept, COUNT(*), SUM(pay) AS cost "); [reflexivity|apply body_check; vm_compute; reflexivity|discriminate]. }
  apply parts_more; [|apply ends_check; reflexivity|discriminate|].
  { apply (written_from $"FROM" $" staff "); [reflexivity|apply body_check; vm_compute; reflexivity|discriminate|].
    intros c s E. vm_compute in E. injection E as <- _. vm_compute. intuition discriminate. }
  apply parts_last. apply (written_group $"GROUP BY" $" dept"); [reflexivity|apply body_check; vm_compute; reflexivity].
Qed.
Lemma group_columns_written : written_list none_label group_columns $"dept, COUNT(*), SUM(pay) AS cost".
Proof.
  apply (list_more none_label _ $"dept" _ $" COUNT(*), SUM(pay) AS cost").
  { apply entry_plain. apply (written_atom none_label $"dept" [] []); try blanks_tac. atom_tac. }
  apply (list_more none_label _ $" COUNT(*)" _ $" SUM(pay) AS cost").
  { apply entry_plain. apply (written_call none_label $"COUNT" [Atom $"*"] $"*" $" " [] []); try blanks_tac; [vm_compute; tauto|].
    apply args_one. apply (written_atom none_label $"*" [] []); try blanks_tac. atom_tac. }
  apply list_one. apply (entry_as none_label _ $" SUM(pay) " $"AS" $" " $"cost" []).
  - apply (written_call none_label $"SUM" [Atom $"pay"] $"pay" $" " [] $" "); try blanks_tac; [vm_compute; tauto|].
    apply args_one. apply (written_atom none_label $"pay" [] []); try blanks_tac. atom_tac.
  - exists $" SUM(pay)", " "%char. split; [reflexivity|]. intros W. apply word_char_spec in W. discriminate W.
  - reflexivity.
  - blanks_tac.
  - discriminate.
  - blanks_tac.
  - split; [discriminate|reflexivity].
  - split.
    + intros c H. vm_compute in H. vm_compute. intuition congruence.
    + intros w H. vm_compute in H. destruct H as [<-|[]]. discriminate.
Qed.
Lemma group_source : source_gives staff_reader (fun _ _ => Raise TypeError) group_parts $"dept, COUNT(*), SUM(pay) AS cost" staff.
Proof. split; [apply validate_spec; vm_compute; reflexivity|reflexivity]. Qed.
Lemma group_by_columns : grouping_columns group_parts [$"dept"].
Proof.
  split; [discriminate|]. exists [$"dept"]. split; [reflexivity|]. split.
  - constructor; [|constructor]. exists [], []. repeat split; intros ? [].
  - constructor; [|constructor]. split; [split; [discriminate|reflexivity]|vm_compute; intuition discriminate].
Qed.
Lemma group_entries : Forall (grouped_entry none_label [$"dept"]) group_columns.
Proof.
  repeat constructor.
  - exists COUNT, $"*". split; reflexivity.
  - exists SUM, $"pay". split; reflexivity.
Qed.
Lemma group_requested : requests group_columns group_requests.
Proof. apply requests_column. apply (requests_aggregate COUNT); [reflexivity|]. apply (requests_aggregate SUM); [reflexivity|]. apply requests_none. Qed.
Lemma group_faithful a b : In a staff -> In b staff -> (group_key text_code [$"dept"] a = group_key text_code [$"dept"] b <-> agree_on [$"dept"] a b).
Proof.
  intros Ha Hb. unfold staff in Ha, Hb. cbn [In] in Ha, Hb.
  repeat match type of Ha with _ \/ _ => destruct Ha as [Ha|Ha] end; repeat match type of Hb with _ \/ _ => destruct Hb as [Hb|Hb] end;
    try contradiction; subst a b; (split; intros H; [|try reflexivity]);
    try (intros c [<-|[]]; reflexivity); try (vm_compute in H; discriminate H);
    exfalso; specialize (H $"dept" (or_introl eq_refl)); vm_compute in H; discriminate H.
Qed.
Lemma group_suitable f c : In (f, c) group_requests -> GroupBy.suitable staff f c.
Proof.
  intros [E|[E|[]]]; injection E as <- <-; [exact I|]. split; [discriminate|]. split; [|vm_compute; reflexivity].
  intros r H. unfold staff in H. cbn [In] in H. repeat match type of H with _ \/ _ => destruct H as [H|H] end; try contradiction; subst r; vm_compute; eauto.
Qed.
