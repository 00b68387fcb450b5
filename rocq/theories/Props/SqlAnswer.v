(** C63: what a query answers. *)
From Verif.Base Require Import Py Value.
From Verif.Model Require Import Tokens Evaluator DictSet GroupBy Sql.
From Verif.Spec Require Import Tokens DictSet Evaluator Sql SqlAnswer.
From Verif.Spec Require GroupBy.
From Verif.Proofs Require SqlAnswer.
From Verif.Proofs Require Import ExpressionCases SqlCases SqlAnswerCases.   (* cases: none_of, as_statement, ... *)

(** SELECT [DISTINCT] list FROM dataset or (query) WHERE HAVING ORDER BY LIMIT: of the records which the reader has for
    the dataset and the condition (or which the inner query answers), those HAVING keeps, with the columns and the
    functions of the list, each under its name after AS; with DISTINCT each of them once; in order (those which compare
    equal in the order of the reader); and the first n of them - without LIMIT all of them, or with ORDER BY the first
    10000.
    Missing for the whole of C63: what HAVING keeps is a parameter, as is the reader. *)
Theorem query_answer_partial : forall float_of date_of, reads_floats float_of ->
  forall reader where_ quotient hash xxh ps ws cs e xs rows kept in_memory,
  let answer := sql_reader float_of date_of reader where_ quotient hash xxh in
  let label := get_token_type float_of date_of in
  good_pieces ps -> spread ws (text_of (without_comments ps)) -> written_parts cs (join $" " ws) ->
  last_of select_of cs = Some e -> source_gives reader (fun fuel q => answer fuel in_memory q) cs e rows ->
  written_list label xs e -> last_of group_of cs = None -> having_keeps where_ cs rows kept -> good_list label xs kept ->
  (existsb asks_distinct cs = true -> told_apart hash (columns_of xs kept)) -> orderable cs (columns_of xs kept) ->
  (forall n, last_of limit_of cs = Some n -> (0 < n)%Z) ->
  exists once out, kept_once (existsb asks_distinct cs) (columns_of xs kept) once /\ in_order_and_limited cs once out /\
    forall fuel, length (text_of ps) < fuel -> answer fuel in_memory (text_of ps) = Ok out.
Proof. exact SqlAnswer.plain_answer. Qed.
Print Assumptions query_answer_partial.

Example answer_case :
  good_pieces as_statement /\ written_parts as_parts (join $" " (text_words [] (text_of (without_comments as_statement)))) /\
  source_gives staff_reader (fun _ _ => Raise TypeError) as_parts $"name AS who" staff /\
  written_list none_label as_columns $"name AS who" /\ having_keeps not_first as_parts staff (tl staff) /\
  good_list none_label as_columns (tl staff) /\ told_apart text_codez (columns_of as_columns (tl staff)) /\
  orderable as_parts (columns_of as_columns (tl staff)) /\
  forall quotient xxh, sql_reader none_of none_of staff_reader not_first quotient text_codez xxh 200 false (text_of as_statement) =
    Ok [[($"who", VStr $"Cy")]; [($"who", VStr $"Bob")]].
Proof.
  split; [exact as_good|]. split; [exact as_written|]. split; [exact as_source|]. split; [exact as_columns_written|].
  split; [reflexivity|]. split; [exact as_list|]. split; [exact as_apart|]. split; [exact as_orderable|]. intros. vm_compute. reflexivity.
Qed.
Example inner_query_case : forall quotient hash xxh,
  sql_reader none_of none_of staff_reader not_first quotient hash xxh 200 false
    $"SELECT pay AS p FROM (SELECT pay FROM staff LIMIT 2) LIMIT 5" = Ok [[($"p", VInt 30)]; [($"p", VInt 41)]] /\
  sql_reader none_of none_of staff_reader not_first quotient hash xxh 200 false
    $"SELECT * FROM (SELECT pay FROM staff LIMIT 2)" = Ok [[($"pay", VInt 30)]; [($"pay", VInt 41)]].
Proof. intros. split; vm_compute; reflexivity. Qed.

(** With aggregates: the groups of GROUP BY with their aggregates (without GROUP BY the column is *, which no record
    has, and there is one group), those HAVING keeps, and the same from there on. *)
Theorem grouped_answer_partial : forall float_of date_of, reads_floats float_of ->
  forall reader where_ quotient hash xxh ps ws cs e xs rows columns requested in_memory,
  let answer := sql_reader float_of date_of reader where_ quotient hash xxh in
  let label := get_token_type float_of date_of in
  good_pieces ps -> spread ws (text_of (without_comments ps)) -> written_parts cs (join $" " ws) ->
  last_of select_of cs = Some e -> source_gives reader (fun fuel q => answer fuel in_memory q) cs e rows ->
  written_list label xs e -> grouping_columns cs columns ->
  Forall (grouped_entry label columns) xs -> requests xs requested -> requested <> [] ->
  NoDup (map asked_name xs) -> ~ In $"*" (map asked_name xs) ->
  (forall a b, In a rows -> In b rows -> (group_key xxh columns a = group_key xxh columns b <-> agree_on columns a b)) ->
  (Z.of_nat (length (dedup str_eqb (map (group_text columns) rows))) < 4999999)%Z ->
  GroupBy.separate requested -> (forall f c, In (f, c) requested -> GroupBy.suitable rows f c) ->
  (forall f c, In (f, c) requested -> ~ In (agg_name f c) columns) ->
  (forall c r group, In (AVG, c) requested -> In r rows -> GroupBy.group_of columns r rows group ->
                     GroupBy.has_values requested group -> 0 < GroupBy.counted c group) ->
  (forall n, last_of limit_of cs = Some n -> (0 < n)%Z) ->
  exists groups, GroupBy.group_by_is columns requested rows groups /\
    forall kept, having_keeps where_ cs (values_of quotient groups) kept -> (forall r, In r kept -> renamable xs r) ->
    (existsb asks_distinct cs = true -> told_apart hash (shown xs kept)) -> orderable cs (shown xs kept) ->
    exists once out, kept_once (existsb asks_distinct cs) (shown xs kept) once /\ in_order_and_limited cs once out /\
      forall fuel, length (text_of ps) < fuel -> answer fuel in_memory (text_of ps) = Ok out.
Proof. exact SqlAnswer.grouped_answer. Qed.
Print Assumptions grouped_answer_partial.

Example grouped_case :
  good_pieces group_statement /\ written_parts group_parts (join $" " (text_words [] (text_of (without_comments group_statement)))) /\
  source_gives staff_reader (fun _ _ => Raise TypeError) group_parts $"dept, COUNT(*), SUM(pay) AS cost" staff /\
  written_list none_label group_columns $"dept, COUNT(*), SUM(pay) AS cost" /\ grouping_columns group_parts [$"dept"] /\
  Forall (grouped_entry none_label [$"dept"]) group_columns /\ requests group_columns group_requests /\
  (forall a b, In a staff -> In b staff -> (group_key text_code [$"dept"] a = group_key text_code [$"dept"] b <-> agree_on [$"dept"] a b)) /\
  (forall f c, In (f, c) group_requests -> GroupBy.suitable staff f c) /\
  forall quotient hash, sql_reader none_of none_of staff_reader not_first quotient hash text_code 200 false (text_of group_statement) =
    Ok [[($"dept", VStr $"x"); ($"COUNT(*)", VInt 3); ($"cost", VInt 42)]; [($"dept", VStr $"y"); ($"COUNT(*)", VInt 1); ($"cost", VInt 41)]].
Proof.
  split; [exact group_good|]. split; [exact group_written|]. split; [exact group_source|]. split; [exact group_columns_written|].
  split; [exact group_by_columns|]. split; [exact group_entries|]. split; [exact group_requested|]. split; [exact group_faithful|].
  split; [exact group_suitable|]. intros. vm_compute. reflexivity.
Qed.

(** GROUP BY without aggregates: each group once, in order of first occurrence. *)
Theorem groups_answer_partial : forall float_of date_of, reads_floats float_of ->
  forall reader where_ quotient hash xxh ps ws cs e xs rows columns in_memory,
  let answer := sql_reader float_of date_of reader where_ quotient hash xxh in
  let label := get_token_type float_of date_of in
  good_pieces ps -> spread ws (text_of (without_comments ps)) -> written_parts cs (join $" " ws) ->
  last_of select_of cs = Some e -> source_gives reader (fun fuel q => answer fuel in_memory q) cs e rows ->
  written_list label xs e -> last_of group_of cs <> None -> grouping_columns cs columns ->
  Forall (grouped_entry label columns) xs -> requests xs [] ->
  NoDup (map asked_name xs) -> ~ In $"*" (map asked_name xs) ->
  (forall a b, In a rows -> In b rows -> (group_key xxh columns a = group_key xxh columns b <-> agree_on columns a b)) ->
  (Z.of_nat (length (dedup str_eqb (map (group_text columns) rows))) < 4999999)%Z ->
  (forall n, last_of limit_of cs = Some n -> (0 < n)%Z) ->
  exists firsts groups, first_occurrences (agree_on columns) [] rows firsts /\
    Forall2 (fun r o => first_occurrences eq [] columns (map fst o) /\
                        forall c, In c columns -> dget str_eqb c o = Some (rget c r)) firsts groups /\
    forall kept, having_keeps where_ cs groups kept -> (forall r, In r kept -> renamable xs r) ->
    (existsb asks_distinct cs = true -> told_apart hash (shown xs kept)) -> orderable cs (shown xs kept) ->
    exists once out, kept_once (existsb asks_distinct cs) (shown xs kept) once /\ in_order_and_limited cs once out /\
      forall fuel, length (text_of ps) < fuel -> answer fuel in_memory (text_of ps) = Ok out.
Proof. exact SqlAnswer.groups_answer. Qed.
Print Assumptions groups_answer_partial.

Example groups_case : forall where_ quotient hash,
  sql_reader none_of none_of staff_reader where_ quotient hash text_code 200 false $"SELECT dept AS d FROM staff GROUP BY dept" =
  Ok [[($"d", VStr $"x")]; [($"d", VStr $"y")]].
Proof. intros. vm_compute. reflexivity. Qed.

(** A column beside aggregates which is not one of those of GROUP BY is refused. *)
Theorem ungrouped_columns_are_refused : forall float_of date_of, reads_floats float_of ->
  forall reader where_ quotient hash xxh ps ws cs e xs rows columns w n in_memory,
  let answer := sql_reader float_of date_of reader where_ quotient hash xxh in
  let label := get_token_type float_of date_of in
  good_pieces ps -> spread ws (text_of (without_comments ps)) -> written_parts cs (join $" " ws) ->
  last_of select_of cs = Some e -> source_gives reader (fun fuel q => answer fuel in_memory q) cs e rows ->
  written_list label xs e -> grouping_columns cs columns ->
  (last_of group_of cs <> None \/ exists f args m, In (Call f args, m) xs /\ In (upper f) aggregations) ->
  Forall (fun x => match fst x with
                   | Call f args => In (upper f) aggregations -> exists fn c rest, upper f = func_name fn /\ args = c :: rest
                   | Atom _ => True
                   end) xs ->
  In (Atom w, n) xs -> label w = VARIABLE -> ~ In w columns ->
  forall fuel, length (text_of ps) < fuel -> answer fuel in_memory (text_of ps) = Raise InvalidSqlError.
Proof. exact SqlAnswer.ungrouped_column. Qed.
Print Assumptions ungrouped_columns_are_refused.

Example ungrouped_case : forall where_ quotient hash xxh,
  sql_reader none_of none_of staff_reader where_ quotient hash xxh 200 false $"SELECT name, COUNT(*) FROM staff GROUP BY dept" =
  Raise InvalidSqlError.
Proof. intros. vm_compute. reflexivity. Qed.

(** The number of no records is no answer, not 0. *)
Theorem count_of_nothing_refuted : exists reader, (forall e d w, reader e d w = Ok []) /\ forall where_ quotient hash xxh,
  sql_reader none_of none_of reader where_ quotient hash xxh 60 false $"SELECT COUNT(*) FROM t" = Ok [].
Proof. exists (fun _ _ _ => Ok []). split; [reflexivity|]. intros. vm_compute. reflexivity. Qed.
Print Assumptions count_of_nothing_refuted.

(** A column cannot be asked for twice, under its name and another one: the first is lost.  Names cannot be swapped. *)
Theorem column_twice_refuted : exists reader, (forall e d w, reader e d w = Ok [[($"a", VInt 1); ($"b", VInt 2)]]) /\
  forall where_ quotient hash xxh,
  sql_reader none_of none_of reader where_ quotient hash xxh 60 false $"SELECT a, a AS c FROM t" = Ok [[($"a", VNull); ($"c", VInt 1)]] /\
  sql_reader none_of none_of reader where_ quotient hash xxh 60 false $"SELECT a AS b, b AS a FROM t" = Ok [[($"b", VNull); ($"a", VInt 1)]].
Proof. exists (fun _ _ _ => Ok [[($"a", VInt 1); ($"b", VInt 2)]]). split; [reflexivity|]. intros. split; vm_compute; reflexivity. Qed.
Print Assumptions column_twice_refuted.

(** LIMIT 0 gives all the records, and without LIMIT those after the first 10000 are lost if there is an ORDER BY. *)
Theorem limit_zero_refuted : forall where_ quotient hash xxh, exists rows,
  sql_reader none_of none_of ones_reader where_ quotient hash xxh 60 false $"SELECT a FROM t LIMIT 0" = Ok rows /\ length rows = 2.
Proof. intros. eexists. split; vm_compute; reflexivity. Qed.
Print Assumptions limit_zero_refuted.
