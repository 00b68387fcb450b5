(** A query with a condition which raises for one of the records. *)
From Verif.Base Require Import Py Value PyFacts.
From Verif.Model Require Import Filters Tokens Evaluator Expression Cursor Storage Reader Sql Query.
From Verif.Model Require Json.
From Verif.Spec Require Import Tokens DictSet Expression Evaluator Json Cursor Reader Sql SqlAnswer System Query QueryUntil.
From Verif.Proofs Require Import Tokens Labels Splitter Sql SqlText SqlStatement ExpressionCases EvaluatorCases SqlCases SqlAnswerCases QueryCases ReaderCases.
From Verif.Proofs Require Expression QueryUntil.

Definition pair (a b : value) : record := [($"a", a); ($"b", b)].
Definition pairs : list (list record) :=
  [[pair (VStr $"x") (VStr $"x%"); pair (VStr $"y") (VStr $"x%"); pair (VStr $"x") (VInt 5); pair (VStr $"z") (VStr $"z")];
   [pair (VStr $"q") (VStr $"q")]].
(** those before the first for which the condition raises *)
Definition pairs_read : list (list record) :=
  [[pair (VStr $"x") (VStr $"x%"); pair (VStr $"y") (VStr $"x%")]; [pair (VStr $"q") (VStr $"q")]].
Definition pair_blobs : list str := [$"data/pairs/1.jsonl"; $"data/pairs/2.jsonl"].
Definition pair_lines (b : str) : list str :=
  map (fun r => Json.dumps (VDict r)) (if str_eqb b $"data/pairs/1.jsonl" then nth 0 pairs [] else nth 1 pairs []).
Definition pair_records (b : str) : list value := map VDict (if str_eqb b $"data/pairs/1.jsonl" then nth 0 pairs [] else nth 1 pairs []).
Definition pair_open (d : str) (columns : value -> result value) (filters : value -> result bool) (n : nat) : result (list value) :=
  records_read (read_records (fun _ => 0%Z) (fun _ => Raise ValueError) (fun _ => Ok pair_blobs) 0
    (blob_records Json.loads unz no_other (fun b => Ok (lines_text (pair_lines b))) columns filters None) NoCursor n).

Lemma pair_file b : In b pair_blobs -> file_with_extension $".jsonl" b.
Proof.
  intros [<-|[<-|[]]]; [exists $"data/pairs", $"1", $"jsonl"|exists $"data/pairs", $"2", $"jsonl"];
    (split; [reflexivity|]; split; [reflexivity|]; split; [discriminate|]; split; [discriminate|]; split; [cbn; intuition discriminate|];
     split; [cbn; intuition discriminate|]; split; [cbn; intuition discriminate|]; split; [intros r; discriminate|];
     exists "d"%char; split; [left; auto|]; split; discriminate).
Qed.
Lemma pair_content b : In b pair_blobs ->
  Forall one_line (pair_lines b) /\ until_damage Json.loads (pair_lines b) (pair_records b) /\
  ((file_with_extension $".jsonl" b /\ Ok (lines_text (pair_lines b)) = Ok (lines_text (pair_lines b))) \/
   (file_with_extension $".zstd" b /\ exists data, Ok (lines_text (pair_lines b)) = Ok data /\ unz data = Ok (lines_text (pair_lines b)))).
Proof.
  intros H. split; [|split; [|left; split; [now apply pair_file|reflexivity]]].
  - apply Forall_forall. intros l Hl c Hc.
    assert (E : forallb (forallb (fun c => negb (line_end c))) (pair_lines b) = true) by (destruct H as [<-|[<-|[]]]; vm_compute; reflexivity).
    apply negb_true_iff. exact (proj1 (forallb_forall _ _) (proj1 (forallb_forall _ _) E l Hl) c Hc).
  - exists (pair_lines b), []. split; [now rewrite app_nil_r|]. split; [|now left].
    destruct H as [<-|[<-|[]]]; [change (pair_lines $"data/pairs/1.jsonl") with (map (fun r => Json.dumps (VDict r)) (nth 0 pairs []))
                                |change (pair_lines $"data/pairs/2.jsonl") with (map (fun r => Json.dumps (VDict r)) (nth 1 pairs []))];
      cbn [map nth pairs]; repeat (apply Forall2_cons; [vm_compute; reflexivity|]); apply Forall2_nil.
Qed.
Lemma pair_ascending : ascending_names pair_blobs pair_blobs.
Proof. split; [repeat constructor; vm_compute; reflexivity|]. tauto. Qed.
Lemma pairs_given : gives_blobs (pair_open (dots_to_slashes $"data.pairs")) (map (map VDict) pairs).
Proof.
  exact (QueryUntil.blobs_are_given Json.loads unz no_other (fun b => Ok (lines_text (pair_lines b))) (fun _ => 0%Z) (fun _ => Raise ValueError)
           pair_blobs (fun b => Some (pair_lines b)) pair_records pair_blobs pair_content ltac:(discriminate) pair_ascending).
Qed.

Definition alike : str := $"a LIKE b".
Definition alike_tree : tree := TOp $"LIKE" (TVar $"a") (TVar $"b").
Lemma alike_condition : condition_of none_of none_of (Some alike) (Some alike_tree).
Proof. split; [vm_compute; reflexivity|]. vm_compute. tauto. Qed.
Lemma pairs_before : Forall2 (before_error none_of none_of same no_matches (Some alike_tree)) pairs pairs_read.
Proof.
  constructor; [|constructor; [|constructor]].
  - exists [pair (VStr $"x") (VInt 5); pair (VStr $"z") (VStr $"z")]. split; [reflexivity|]. split.
    + intros r H t [= <-]. destruct H as [<-|[<-|[]]]; vm_compute; eauto.
    + exists alike_tree. eexists. split; [reflexivity|]. vm_compute. reflexivity.
  - exists []. split; [reflexivity|]. split; [|exact I]. intros r H t [= <-]. destruct H as [<-|[]]; vm_compute; eauto.
Qed.
Lemma pairs_rows r : In r (concat pairs) -> r <> [] /\ NoDup (map fst r).
Proof.
  intros H. cbn in H. repeat (destruct H as [<-|H]; [split; [discriminate|]; repeat constructor; cbv; intuition discriminate|]). destruct H.
Qed.
Definition alike_statement : list piece := [PlainText $"SELECT * FROM data.pairs WHERE a LIKE b"].
Definition alike_parts : list part := [Select false $"*"; From $"data.pairs"; Where alike].
Definition alike_words : list str := text_words [] (text_of (without_comments alike_statement)).
Lemma alike_good : good_pieces alike_statement.
Proof. apply plain_good; vm_compute; reflexivity. Qed.
Lemma alike_written : written_parts alike_parts (join $" " alike_words).
Proof.
  change (join $" " alike_words) with ($"SELECT * " ++ $"FROM data.pairs " ++ $"WHERE a LIKE b").
  apply parts_more; [|apply ends_check; reflexivity|discriminate|].
  { apply (written_select $"SELECT" $" * "); [reflexivity|apply body_check; vm_compute; reflexivity|discriminate]. }
  apply parts_more; [|apply ends_check; reflexivity|discriminate|].
  { apply (written_from $"FROM" $" data.pairs "); [reflexivity|apply body_check; vm_compute; reflexivity|discriminate|].
    intros c s E. vm_compute in E. injection E as <- _. vm_compute. intuition discriminate. }
  apply parts_last. apply (written_where $"WHERE" $" a LIKE b"); [reflexivity|apply body_check; vm_compute; reflexivity].
Qed.
Lemma pairs_safe : safe_name (dots_to_slashes $"data.pairs").
Proof. apply validate_spec. vm_compute. reflexivity. Qed.
Lemma alike_answer quotient hash xxh :
  sql_reader none_of none_of (query_reader none_of none_of same no_matches some_functions pair_open 10) rows_where quotient hash xxh 200 false
    (text_of alike_statement) = Ok [pair (VStr $"x") (VStr $"x%"); pair (VStr $"q") (VStr $"q")].
Proof. vm_compute. reflexivity. Qed.

Lemma record_lost : exists r, In r (concat pairs) /\ wanted none_of none_of same no_matches (Some alike_tree) r /\
  forall quotient hash xxh, exists out,
    sql_reader none_of none_of (query_reader none_of none_of same no_matches some_functions pair_open 10) rows_where quotient hash xxh 200 false
      (text_of alike_statement) = Ok out /\ ~ In r out.
Proof.
  exists (pair (VStr $"z") (VStr $"z")). split; [cbn; tauto|]. split.
  - apply (proj1 (Expression.eval_meaning none_of none_of same no_matches (pair (VStr $"z") (VStr $"z")) alike_tree (VBool true)
                   ltac:(repeat constructor; vm_compute; intuition discriminate) ltac:(vm_compute; tauto) ltac:(vm_compute; reflexivity))). reflexivity.
  - intros. eexists. split; [apply alike_answer|]. cbv. intuition discriminate.
Qed.
