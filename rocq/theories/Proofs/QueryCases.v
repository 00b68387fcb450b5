(** Concrete queries over stored records. *)
From Coq Require Import Lia.
From Verif.Base Require Import Py Value PyFacts.
From Verif.Model Require Import Dates Filters Tokens Splitter Evaluator Expression DictSet GroupBy Storage Reader Sql Query.
From Verif.Spec Require Import Tokens DictSet Expression Evaluator Json Reader Sql SqlAnswer Query.
From Verif.Spec Require GroupBy.
From Verif.Proofs Require Import Tokens Labels Splitter Sql SqlText SqlStatement ExpressionCases EvaluatorCases SqlCases SqlAnswerCases.

Definition crew : list record :=
  [[($"name", VStr $"Ann"); ($"dept", VStr $"x"); ($"pay", VInt 30); ($"age", VInt 20)];
   [($"name", VStr $"Cy"); ($"dept", VStr $"x"); ($"pay", VInt 12); ($"age", VInt 17)];
   [($"name", VStr $"Bob"); ($"dept", VStr $"y"); ($"pay", VInt 41); ($"age", VInt 33)];
   [($"name", VStr $"Dee"); ($"dept", VStr $"x"); ($"pay", VNull); ($"age", VInt 50)]].
(** a reader which has these under data/crew *)
Definition crew_open (d : str) (columns : value -> result value) (filters : value -> result bool) (n : nat) : result (list value) :=
  if str_eqb d $"data/crew"
  then let* vs := mapM columns (map VDict crew) in let* vs := filterM filters vs in Ok (firstn n vs)
  else Raise StorageError.
Lemma crew_gives : gives (crew_open $"data/crew") (map VDict crew).
Proof.
  intros columns filters c p n H. unfold crew_open. rewrite str_eqb_refl.
  assert (M : forall l, (forall r, In r l -> applies columns filters c p r) -> mapM columns l = Ok (map c l) /\ filterM filters (map c l) = Ok (filter p (map c l))).
  { induction l as [|v l IH]; intros Hl; [split; reflexivity|]. destruct (Hl v (or_introl eq_refl)) as (H1 & H2).
    destruct IH as [I1 I2]; [intros; apply Hl; now right|]. cbn [mapM map filterM filter]. rewrite H1. cbn [bind]. rewrite I1. cbn [bind].
    split; [reflexivity|]. rewrite H2. cbn [bind]. rewrite I2. cbn [bind]. destruct (p (c v)); reflexivity. }
  destruct (M _ H) as [-> M2]. cbn [bind]. rewrite M2. reflexivity.
Qed.
Lemma crew_rows r : In r crew -> r <> [] /\ NoDup (map fst r).
Proof.
  intros H. unfold crew in H. cbn [In] in H. repeat match type of H with _ \/ _ => destruct H as [H|H] end; try contradiction; subst r;
    (split; [discriminate|]; repeat constructor; vm_compute; intuition discriminate).
Qed.

Lemma crew_safe : safe_name (dots_to_slashes $"data.crew").
Proof. apply validate_spec. vm_compute. reflexivity. Qed.

(** functions: only UPPER *)
Definition some_functions (f : str) (vs : list value) : result value :=
  match vs with [VStr s] => if str_eqb f $"UPPER" then Ok (VStr (upper s)) else Raise TypeError | _ => Raise TypeError end.

(** the condition *)
Definition adult : str := $"age >= 18".
Definition adult_tree : tree := TOp $">=" (TVar $"age") (TLeaf INTEGER (VInt 18)).
Lemma adult_condition : condition_of none_of none_of (Some adult) (Some adult_tree).
Proof. split; [vm_compute; reflexivity|]. vm_compute. tauto. Qed.
Lemma adult_comparable r : In r crew -> comparable none_of none_of same no_matches (Some adult_tree) r.
Proof.
  intros H t c [= <-] [<-|[]]. unfold crew in H. cbn [In] in H.
  repeat match type of H with _ \/ _ => destruct H as [H|H] end; try contradiction; subst r; vm_compute; eauto.
Qed.

(** ** Columns *)
Definition who_statement : list piece := [PlainText $"SELECT UPPER(name) AS who, pay FROM data.crew WHERE age >= 18 ORDER BY who DESC LIMIT 2"].
Definition who_parts : list part :=
  [Select false $"UPPER(name) AS who, pay"; From $"data.crew"; Where adult; OrderBy $"who" (Some true); Limit 2].
Definition who_columns : list (expr * option str) := [(Call $"UPPER" [Atom $"name"], Some $"who"); (Atom $"pay", None)].
Definition who_words : list str := text_words [] (text_of (without_comments who_statement)).
Lemma who_good : good_pieces who_statement.
Proof. apply plain_good; vm_compute; reflexivity. Qed.
Lemma who_written : written_parts who_parts (join $" " who_words).
Proof.
  change (join $" " who_words) with
    ($"SELECT UPPER(name) AS who, pay " ++ $"FROM data.crew " ++ $"WHERE age >= 18 " ++ $"ORDER BY who DESC " ++ $"LIMIT 2").
  apply parts_more; [|apply ends_check; reflexivity|discriminate|].
  { apply (written_select $"SELECT" $" UPPER(name) AS who, pay "); [reflexivity|apply body_check; vm_compute; reflexivity|discriminate]. }
  apply parts_more; [|apply ends_check; reflexivity|discriminate|].
  { apply (written_from $"FROM" $" data.crew "); [reflexivity|apply body_check; vm_compute; reflexivity|discriminate|].
    intros c s E. vm_compute in E. injection E as <- _. vm_compute. intuition discriminate. }
  apply parts_more; [|apply ends_check; reflexivity|discriminate|].
  { apply (written_where $"WHERE" $" age >= 18 "); [reflexivity|apply body_check; vm_compute; reflexivity]. }
  apply parts_more; [|apply ends_check; reflexivity|discriminate|].
  { apply (written_ordered $"ORDER BY" $" who " $"DESC" $" "); [reflexivity|apply body_check; vm_compute; reflexivity|apply ends_check; reflexivity|
      discriminate|vm_compute; tauto|blank_text]. }
  apply parts_last. apply (written_limit $"LIMIT" $" 2"); [reflexivity|apply body_check; vm_compute; reflexivity|vm_compute; reflexivity].
Qed.
Lemma who_columns_written : written_list none_label who_columns $"UPPER(name) AS who, pay".
Proof.
  apply (list_more none_label _ $"UPPER(name) AS who" _ $" pay").
  - apply (entry_as none_label _ $"UPPER(name) " $"AS" $" " $"who" []).
    + apply (written_call none_label $"UPPER" [Atom $"name"] $"name" [] [] $" "); try blanks_tac; [vm_compute; tauto|].
      apply args_one. apply (written_atom none_label $"name" [] []); try blanks_tac. atom_tac.
    + exists $"UPPER(name)", " "%char. split; [reflexivity|]. intros W. apply word_char_spec in W. discriminate W.
    + reflexivity.
    + blanks_tac.
    + discriminate.
    + blanks_tac.
    + split; [discriminate|reflexivity].
    + split.
      * intros c H. vm_compute in H. vm_compute. intuition congruence.
      * intros w H. vm_compute in H. destruct H as [<-|[]]. discriminate.
  - apply list_one, entry_plain. apply (written_atom none_label $"pay" $" " []); try blanks_tac. atom_tac.
Qed.
Lemma plain_names n : (forall m, n <> $"`" ++ m ++ $"`") -> n <> $"`" -> names_column n n.
Proof. apply names_plain. Qed.
Ltac column_tac := apply names_plain; [let m := fresh in let E := fresh in intros m E; discriminate E|discriminate].
Lemma who_query : good_query none_of none_of some_functions who_columns (Some adult_tree) crew.
Proof.
  right. split; [repeat constructor; vm_compute; intuition discriminate|]. split; [repeat constructor; vm_compute; intuition discriminate|].
  split; [vm_compute; intuition discriminate|]. intros r H. unfold crew in H. cbn [In] in H.
  assert (N : names_apart none_of none_of who_columns (Some adult_tree) r).
  { split; [repeat constructor; vm_compute; intuition discriminate|]. split.
    - intros x n [<-|[<-|[]]] [= <-]. repeat match type of H with _ \/ _ => destruct H as [H|H] end; try contradiction; subst r;
        vm_compute; intuition discriminate.
    - intros t n [= <-] [M|M]; cbn [mentions adult_tree] in M; [|destruct M].
      assert (n = $"age") as -> by (inversion M as [s H1 H2 E1| |]; reflexivity).
      split; [discriminate|]. intros x [<-|[<-|[]]] E; discriminate E. }
  split; [exact N|]. clear N. intros x Hx. repeat match type of H with _ \/ _ => destruct H as [H|H] end; try contradiction; subst r;
    (destruct Hx as [<-|[<-|[]]]; cbn [fst];
     [eexists; eapply (means_call _ _ _ _ _ $"UPPER"); [vm_compute; tauto| |];
       [constructor; [|constructor]; apply (means_column _ _ _ _ _ $"name" $"name"); [vm_compute; reflexivity|column_tac|cbn; eauto]|vm_compute; reflexivity]
     |eexists; apply (means_column _ _ _ _ _ $"pay" $"pay"); [vm_compute; reflexivity|column_tac|cbn; eauto]]).
Qed.

(** ** Groups *)
Definition cost_statement : list piece := [PlainText $"SELECT dept, COUNT(*), SUM(pay) AS cost FROM data.crew WHERE age >= 18 GROUP BY dept"].
Definition cost_parts : list part := [Select false $"dept, COUNT(*), SUM(pay) AS cost"; From $"data.crew"; Where adult; GroupBy $"dept"].
Definition cost_words : list str := text_words [] (text_of (without_comments cost_statement)).
Definition adults : list record := filter (fun r => match rget $"age" r with VInt z => (18 <=? z)%Z | _ => false end) crew.
Lemma cost_good : good_pieces cost_statement.
Proof. apply plain_good; vm_compute; reflexivity. Qed.
Lemma cost_written : written_parts cost_parts (join $" " cost_words).
Proof.
  change (join $" " cost_words) with
    ($"SELECT dept, COUNT(*), SUM(pay) AS cost " ++ $"FROM data.crew " ++ $"WHERE age >= 18 " ++ $"GROUP BY dept").
  apply parts_more; [|apply ends_check; reflexivity|discriminate|].
  { apply (written_select $"SELECT" $" dept, COUNT(*), SUM(pay) AS cost "); [reflexivity|apply body_check; vm_compute; reflexivity|discriminate]. }
  apply parts_more; [|apply ends_check; reflexivity|discriminate|].
  { apply (written_from $"FROM" $" data.crew "); [reflexivity|apply body_check; vm_compute; reflexivity|discriminate|].
    intros c s E. vm_compute in E. injection E as <- _. vm_compute. intuition discriminate. }
  apply parts_more; [|apply ends_check; reflexivity|discriminate|].
  { apply (written_where $"WHERE" $" age >= 18 "); [reflexivity|apply body_check; vm_compute; reflexivity]. }
  apply parts_last. apply (written_group $"GROUP BY" $" dept"); [reflexivity|apply body_check; vm_compute; reflexivity].
Qed.
Lemma cost_columns : grouping_columns cost_parts [$"dept"].
Proof. exact group_by_columns. Qed.
Lemma cost_apart r : In r crew -> groups_apart [$"dept"] group_requests (Some adult_tree) r.
Proof.
  intros H. split; [|split; [|split]].
  - unfold crew in H. cbn [In] in H. repeat match type of H with _ \/ _ => destruct H as [H|H] end; try contradiction; subst r; vm_compute; intuition discriminate.
  - intros c [<-|[]]. right. split; [|column_tac].
    unfold crew in H. cbn [In] in H. repeat match type of H with _ \/ _ => destruct H as [H|H] end; try contradiction; subst r; vm_compute; tauto.
  - intros t n [= <-] [M|M]; cbn [mentions adult_tree] in M; [|destruct M]. intros ->. inversion M.
  - intros n [[<-|[]]|[[f [E|[E|[]]]]|[t [[= <-] [M|M]]]]]; cbn [mentions adult_tree] in M || idtac.
    + vm_compute. intuition discriminate.
    + injection E as <- <-. vm_compute. intuition discriminate.
    + injection E as <- <-. vm_compute. intuition discriminate.
    + assert (n = $"age") as -> by (inversion M as [s H1 H2 E1| |]; reflexivity). vm_compute. intuition discriminate.
    + destruct M.
Qed.
Lemma cost_faithful a b : In a (map with_star adults) -> In b (map with_star adults) ->
  (group_key text_code [$"dept"] a = group_key text_code [$"dept"] b <-> agree_on [$"dept"] a b).
Proof.
  intros Ha Hb. vm_compute in Ha, Hb.
  repeat match type of Ha with _ \/ _ => destruct Ha as [Ha|Ha] end; repeat match type of Hb with _ \/ _ => destruct Hb as [Hb|Hb] end;
    try contradiction; subst a b; (split; intros H; [|try reflexivity]);
    try (intros c [<-|[]]; reflexivity); try (vm_compute in H; discriminate H);
    exfalso; specialize (H $"dept" (or_introl eq_refl)); vm_compute in H; discriminate H.
Qed.
Lemma cost_suitable f c : In (f, c) group_requests -> GroupBy.suitable (map with_star adults) f c.
Proof.
  intros [E|[E|[]]]; injection E as <- <-; [exact I|]. split; [discriminate|]. split; [|vm_compute; reflexivity].
  intros r H. vm_compute in H. repeat match type of H with _ \/ _ => destruct H as [H|H] end; try contradiction; subst r; vm_compute; eauto.
Qed.

(** ** A column of the condition which is computed *)
Lemma computed_column :
  exists r t, In r crew /\ condition_of none_of none_of (Some $"dept = 'x'") (Some t) /\
    wanted none_of none_of same no_matches (Some t) r /\
    forall quotient hash xxh,
      sql_reader none_of none_of (query_reader none_of none_of same no_matches some_functions crew_open 10) rows_where
        quotient hash xxh 200 false $"SELECT UPPER(name) AS dept FROM data.crew WHERE dept = 'x'" = Ok [].
Proof.
  exists (hd [] crew), (TOp $"=" (TVar $"dept") (TLeaf LITERAL (VStr $"x"))).
  split; [now left|]. split; [split; [vm_compute; reflexivity|vm_compute; tauto]|]. split; [|intros; vm_compute; reflexivity].
  apply (proj1 (Expression.eval_meaning none_of none_of same no_matches (hd [] crew) (TOp $"=" (TVar $"dept") (TLeaf LITERAL (VStr $"x"))) (VBool true)
                 ltac:(repeat constructor; vm_compute; intuition discriminate) ltac:(vm_compute; tauto) ltac:(vm_compute; reflexivity))). reflexivity.
Qed.
