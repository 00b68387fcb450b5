(** C46-C49, C63, C64: SQL statements. *)
From Verif.Base Require Import Py Value.
From Verif.Model Require Import Tokens Evaluator DictSet Sql.
From Verif.Spec Require Import Tokens DictSet Evaluator Sql.
From Verif.Proofs Require Sql SqlText SqlStatement SqlEnds SqlReader.
From Verif.Proofs Require Import ExpressionCases SqlCases.   (* cases: none_of, ex_statement, ... *)

(** ** C46 *)
(** The parser either has an answer after at most as many rounds as the statement has characters, or it goes round for
    ever: however many rounds it is given, it doesn't end. *)
Theorem statements_end_early_or_never_partial : forall float_of date_of s,
  (exists r, r <> Raise OutOfFuel /\ forall fuel, length s <= fuel -> parse_statement float_of date_of fuel s = r) \/
  (forall fuel, parse_statement float_of date_of fuel s = Raise OutOfFuel).
Proof. exact SqlEnds.parse_ends_or_never. Qed.
Print Assumptions statements_end_early_or_never_partial.

Example ends_case : parse_statement none_of none_of 30 $"SELECT a FROM b LIMIT x" = Raise ValueError /\
  parse_statement none_of none_of 30 $"SELECT a" = Raise InvalidSqlError.
Proof. split; vm_compute; reflexivity. Qed.

(** It goes round for ever for every text which isn't blank and starts with no word of SQL ... *)
Theorem unknown_statement_never_ends : forall float_of date_of ps ws,
  good_pieces ps -> spread ws (text_of (without_comments ps)) -> ws <> [] ->
  (forall k rest, In k clause_words -> upper (join $" " ws) <> k ++ rest) ->
  forall fuel, parse_statement float_of date_of fuel (text_of ps) = Raise OutOfFuel.
Proof. exact SqlEnds.unknown_never. Qed.
Print Assumptions unknown_statement_never_ends.

Example unknown_case : good_pieces [PlainText $"UPDATE a SET b"] /\ spread [$"UPDATE"; $"a"; $"SET"; $"b"] $"UPDATE a SET b" /\
  forall k rest, In k clause_words -> upper (join $" " [$"UPDATE"; $"a"; $"SET"; $"b"]) <> k ++ rest.
Proof.
  split; [apply plain_good; vm_compute; reflexivity|]. split; [exact (spread_text $"UPDATE a SET b" [] ltac:(intros ? []))|].
  intros k rest H E. vm_compute in H. repeat match type of H with _ \/ _ => destruct H as [H|H] end; try contradiction; subst k; discriminate E.
Qed.

(** ... and for every ORDER BY without ASC or DESC that has another part after it, as in ORDER BY a LIMIT 5. *)
Theorem order_then_part_never_ends : forall float_of date_of, reads_floats float_of ->
  forall ps ws cs u k b k2 b2, good_pieces ps -> spread ws (text_of (without_comments ps)) ->
  join $" " ws = u ++ (k ++ b) ++ (k2 ++ b2) -> parts_before cs u ->
  upper k = $"ORDER BY" -> body b -> ends_apart (k ++ b) ->
  In (upper k2) [$"SELECT"; $"FROM"; $"WHERE"; $"GROUP BY"; $"HAVING"; $"ORDER BY"; $"LIMIT"] -> body b2 -> strip b2 <> [] ->
  forall fuel, parse_statement float_of date_of fuel (text_of ps) = Raise OutOfFuel.
Proof. exact SqlEnds.order_never. Qed.
Print Assumptions order_then_part_never_ends.

Theorem statements_end_refuted : exists s, forall fuel, parse_statement none_of none_of fuel s = Raise OutOfFuel.
Proof.
  exists order_statement. intros fuel. replace order_statement with (text_of [PlainText order_statement]) by reflexivity.
  apply (order_then_part_never_ends none_of none_of none_reads [PlainText order_statement]
           (text_words [] order_statement) [Select false $"a"; From $"b"] $"SELECT a FROM b " $"ORDER BY" $" a " $"LIMIT" $" 5"); try reflexivity.
  - exact order_good.
  - exact (spread_text order_statement [] ltac:(intros ? [])).
  - exact order_before.
  - apply body_check. vm_compute. reflexivity.
  - apply ends_check. reflexivity.
  - vm_compute. tauto.
  - apply body_check. vm_compute. reflexivity.
  - discriminate.
Qed.
Print Assumptions statements_end_refuted.

(** ** C47 *)
(** For every statement made of parts in any order and number, written in any case, with any white space and comments
    between its words, the parser ends and has exactly what the parts say; of several parts of a kind the last one counts.
    Missing for the whole of C47: texts in quotes that have a word of SQL in them (below), and ORDER BY without ASC and
    DESC before other parts (above). *)
Theorem statement_has_its_parts_partial : forall float_of date_of, reads_floats float_of ->
  forall ps ws cs, good_pieces ps -> spread ws (text_of (without_comments ps)) -> written_parts cs (join $" " ws) ->
  last_of select_of cs <> None ->
  match last_of from_of cs with Some (inl d) => safe_name (dots_to_slashes d) | Some (inr _) => True | None => False end ->
  exists st, (forall fuel, length (text_of ps) <= fuel -> parse_statement float_of date_of fuel (text_of ps) = Ok st) /\
    select_expression st = last_of select_of cs /\ distinct_rows st = existsb asks_distinct cs /\
    where_expression st = last_of where_of cs /\ group_by st = last_of group_of cs /\ having st = last_of having_of cs /\
    order_by st = last_of order_of cs /\ order_descending st = match last_of descending_of cs with Some b => b | None => false end /\
    limit st = last_of limit_of cs /\
    match last_of from_of cs with
    | Some (inl d) => from st = Some (Name (dots_to_slashes d))
    | Some (inr q) => exists ts, concat ts = q /\ from st = Some (Query ts)
    | None => False
    end.
Proof. exact SqlStatement.statement_parts. Qed.
Print Assumptions statement_has_its_parts_partial.

Example statement_case : good_pieces ex_statement /\ spread ex_words (text_of (without_comments ex_statement)) /\
  written_parts ex_parts (join $" " ex_words) /\ safe_name (dots_to_slashes $"tenant.people") /\
  last_of select_of ex_parts = Some $"name, age" /\ last_of from_of ex_parts = Some (inl $"tenant.people") /\
  last_of limit_of ex_parts = Some 2%Z.
Proof.
  split; [exact ex_good|]. split; [exact ex_spread|]. split; [exact ex_written|]. split; [exact ex_safe|]. repeat split; reflexivity.
Qed.
Example query_case : good_pieces sub_statement /\
  written_parts sub_parts (join $" " (text_words [] (text_of (without_comments sub_statement)))) /\
  last_of from_of sub_parts = Some (inr $"SELECT a FROM t").
Proof. split; [apply plain_good; vm_compute; reflexivity|]. split; [exact sub_written|reflexivity]. Qed.

(** A statement is cut at a word of SQL even inside a text in quotes: the dataset of this one is taken to be y'. *)
Theorem quoted_words_refuted :
  parse_statement none_of none_of 60 $"SELECT a FROM t WHERE b = 'x FROM y'" = Raise InvalidSqlError /\
  exists st, parse_statement none_of none_of 60 $"SELECT a FROM t WHERE b = 'x LIMIT 5 '" = Raise ValueError /\
    parse_statement none_of none_of 60 $"SELECT a FROM t WHERE b = 'x HAVING y'" = Ok st /\ where_expression st = Some $"b = 'x".
Proof. split; [vm_compute; reflexivity|]. eexists. repeat split; vm_compute; reflexivity. Qed.
Print Assumptions quoted_words_refuted.

(** ** C64 *)
(** Comments and the kind and amount of white space make no difference, for all statements, right or wrong. *)
Theorem comments_and_spaces_do_not_matter : forall float_of date_of ps ps' ws fuel,
  good_pieces ps -> good_pieces ps' ->
  spread ws (text_of (without_comments ps)) -> spread ws (text_of (without_comments ps')) ->
  parse_statement float_of date_of fuel (text_of ps) = parse_statement float_of date_of fuel (text_of ps').
Proof. exact SqlText.comments_spaces. Qed.
Print Assumptions comments_and_spaces_do_not_matter.

Example comments_case : good_pieces ex_statement /\ spread ex_words (text_of (without_comments ex_statement)) /\
  spread ex_words (join $" " ex_words).
Proof.
  split; [exact ex_good|]. split; [exact ex_spread|]. exact (spread_text (join $" " ex_words) [] ltac:(intros ? [])).
Qed.

(** Every text is some words with white space between them, so this is all there is to [spread]. *)
Theorem every_text_is_words : forall s, exists ws, spread ws s.
Proof. intros s. exists (text_words [] s). exact (spread_text s [] (fun c H => match H with end)). Qed.
Print Assumptions every_text_is_words.

(** A line comment before a carriage return is kept. *)
Theorem comments_refuted :
  remove_comments ($"SELECT a -- all" ++ ["013"%char; "010"%char] ++ $"FROM t") = $"SELECT a -- all" ++ ["013"%char; "010"%char] ++ $"FROM t".
Proof. vm_compute. reflexivity. Qed.
Print Assumptions comments_refuted.

(** ** C48 *)
(** With a sub-query the answer doesn't depend on WHERE: it is that of the statement without it. *)
Theorem where_of_query_ignored : forall float_of date_of, reads_floats float_of ->
  forall reader where_ quotient hash xxh ps ws cs ps' ws' q in_memory,
  good_pieces ps -> spread ws (text_of (without_comments ps)) -> written_parts cs (join $" " ws) ->
  good_pieces ps' -> spread ws' (text_of (without_comments ps')) ->
  written_parts (filter (fun p => negb (is_where p)) cs) (join $" " ws') ->
  last_of select_of cs <> None -> last_of from_of cs = Some (inr q) ->
  forall fuel, length (text_of ps) <= fuel -> length (text_of ps') <= fuel ->
    sql_reader float_of date_of reader where_ quotient hash xxh fuel in_memory (text_of ps) =
    sql_reader float_of date_of reader where_ quotient hash xxh fuel in_memory (text_of ps').
Proof. exact SqlReader.query_ignores_where. Qed.
Print Assumptions where_of_query_ignored.

Example where_ignored_case : good_pieces sub_statement /\ good_pieces sub_without /\
  written_parts sub_parts (join $" " (text_words [] (text_of (without_comments sub_statement)))) /\
  written_parts (filter (fun p => negb (is_where p)) sub_parts) (join $" " (text_words [] (text_of (without_comments sub_without)))).
Proof.
  split; [apply plain_good; vm_compute; reflexivity|]. split; [apply plain_good; vm_compute; reflexivity|].
  split; [exact sub_written|exact sub_without_written].
Qed.

Theorem queries_are_filtered_refuted : exists rows r, forall where_ quotient hash xxh,
  sql_reader none_of none_of ones_reader where_ quotient hash xxh 60 false $"SELECT a FROM (SELECT a FROM t) WHERE a = 1" = Ok rows /\
  In r rows /\ rget $"a" r = VInt 2.
Proof. eexists _, _. intros. split; [vm_compute; reflexivity|]. split; [right; left; reflexivity|reflexivity]. Qed.
Print Assumptions queries_are_filtered_refuted.

(** ** C49 *)
(** The name of a dataset that gets through is safe, whatever the statement ... *)
Theorem accepted_names_are_safe : forall float_of date_of fuel s st d,
  parse_statement float_of date_of fuel s = Ok st -> from st = Some (Name d) -> safe_name d /\ ~ In "."%char d.
Proof. exact SqlReader.accepted_names. Qed.
Print Assumptions accepted_names_are_safe.

(** ... its first folder starts with a letter, all have only letters, digits, - and _, and only the last one may be empty *)
Theorem accepted_folders_are_safe : forall float_of date_of fuel s st d,
  parse_statement float_of date_of fuel s = Ok st -> from st = Some (Name d) ->
  forall a x b, split "/" d = a ++ x :: b ->
    (forall c, In c x -> is_alpha c = true \/ is_digit c = true \/ In c $"-_") /\
    (b <> [] -> x <> []) /\ (a = [] -> exists c x', x = c :: x' /\ is_alpha c = true).
Proof. exact SqlReader.accepted_components. Qed.
Print Assumptions accepted_folders_are_safe.

(** and each such name is accepted (an example of the theorem of C47) *)
Theorem names_accepted : forall d, validate_dataset d = Ok tt <-> safe_name d.
Proof. exact SqlText.validate_spec. Qed.
Print Assumptions names_accepted.

Example names_case : (exists st, parse_statement none_of none_of 40 $"SELECT * FROM a.b-c.d_1" = Ok st /\ from st = Some (Name $"a/b-c/d_1")) /\
  parse_statement none_of none_of 40 $"SELECT * FROM ../x" = Raise InvalidSqlError /\
  parse_statement none_of none_of 40 $"SELECT * FROM a/../x" = Raise InvalidSqlError /\
  parse_statement none_of none_of 40 $"SELECT * FROM /x" = Raise InvalidSqlError.
Proof. split; [eexists; split; vm_compute; reflexivity|]. repeat split; vm_compute; reflexivity. Qed.

Theorem last_folder_refuted : exists st, parse_statement none_of none_of 40 $"SELECT * FROM a." = Ok st /\ from st = Some (Name $"a/").
Proof. eexists. split; vm_compute; reflexivity. Qed.
Print Assumptions last_folder_refuted.
