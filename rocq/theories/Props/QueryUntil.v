(** C83: SQL queries with a condition which raises for some of the records. *)
From Verif.Base Require Import Py Value.
From Verif.Model Require Import Cursor Tokens Evaluator Expression GroupBy Storage Reader Sql Query.
From Verif.Spec Require Import Cursor Reader Tokens DictSet Expression Evaluator Json Sql SqlAnswer.
From Verif.Spec Require GroupBy.
From Verif.Spec Require Import System Query QueryUntil.
From Verif.Proofs Require Query QueryGroups QueryUntil QueryUntilCases QueryCases ExpressionCases SqlAnswerCases ReaderCases.
From Verif.Model Require Json.
Local Open Scope nat_scope.

(** Reading a list of blobs, in order of their names, some unreadable and some with damaged lines, gives to a query the
    records of each up to its first damaged line ([gives_blobs]: an error of the condition or the list ends the blob it
    is in, and no other). *)
Theorem blobs_are_queried :
  forall (parse : str -> result value) (unzstd : str -> result str) (other : str -> str -> generator value)
         (read_blob : str -> result str) (hash : str -> Z) (loads : str -> result cdict)
         (blobs : list str) (content : str -> option (list str)) (rs : str -> list value) (names : list str),
    (forall b, In b blobs ->
       match content b with
       | Some lines => Forall one_line lines /\ until_damage parse lines (rs b) /\
           ((file_with_extension $".jsonl" b /\ read_blob b = Ok (lines_text lines)) \/
            (file_with_extension $".zstd" b /\ exists data, read_blob b = Ok data /\ unzstd data = Ok (lines_text lines)))
       | None => (file_with_extension $".jsonl" b \/ file_with_extension $".zstd" b) /\ (exists e, read_blob b = Raise e) /\ rs b = []
       end) ->
    blobs <> [] -> ascending_names blobs names ->
    gives_blobs (fun columns filters n => records_read (read_records hash loads (fun _ => Ok blobs) 0
        (blob_records parse unzstd other read_blob columns filters None) NoCursor n)) (map rs names).
Proof. exact QueryUntil.blobs_are_given. Qed.
Print Assumptions blobs_are_queried.

(** The answer is that over the records before the first of each blob for which the condition raises ([before_error]),
    and nothing tells that there are others.  There are always such, and only one choice of them (below).
    Missing for all: an AS or a constant which has the name of a column of the condition (see
    condition_on_computed_column_refuted), and more than [n] records (the model reads them all before). *)
Theorem query_until_error_partial :
  forall float_of date_of, reads_floats float_of ->
  forall py_is matches apply
         (open : str -> (value -> result value) -> (value -> result bool) -> nat -> result (list value)) (n : nat)
         (quotient : Z -> Z -> value) (hash : str -> Z) (xxh : str -> N)
         ps ws cs e xs d text t blobs rows in_memory,
  let answer := sql_reader float_of date_of (query_reader float_of date_of py_is matches apply open n)
                  (filter_where float_of date_of py_is matches) quotient hash xxh in
  gives_blobs (open (dots_to_slashes d)) (map (map VDict) blobs) -> length (concat rows) <= n ->
  (forall r, In r (concat blobs) -> r <> [] /\ NoDup (map fst r)) ->
  good_pieces ps -> spread ws (text_of (without_comments ps)) -> written_parts cs (join $" " ws) ->
  last_of select_of cs = Some e -> last_of from_of cs = Some (inl d) -> safe_name (dots_to_slashes d) ->
  last_of where_of cs = text -> last_of group_of cs = None -> last_of having_of cs = None ->
  (forall m, last_of limit_of cs = Some m -> (0 < m)%Z) ->
  written_list (get_token_type float_of date_of) xs e -> good_query float_of date_of apply xs t (concat blobs) ->
  condition_of float_of date_of text t -> Forall2 (before_error float_of date_of py_is matches t) blobs rows ->
  exists kept selected, picks (wanted float_of date_of py_is matches t) (concat rows) kept /\ rows_of float_of date_of apply xs kept selected /\
    ((existsb asks_distinct cs = true -> told_apart hash selected) -> orderable cs selected ->
     exists once out, kept_once (existsb asks_distinct cs) selected once /\ in_order_and_limited cs once out /\
       forall fuel, length (text_of ps) < fuel -> answer fuel in_memory (text_of ps) = Ok out).
Proof. exact Query.blobs_answer. Qed.
Print Assumptions query_until_error_partial.

(** With aggregates. *)
Theorem grouped_query_until_error_partial :
  forall float_of date_of, reads_floats float_of ->
  forall py_is matches apply
         (open : str -> (value -> result value) -> (value -> result bool) -> nat -> result (list value)) (n : nat)
         (quotient : Z -> Z -> value) (hash : str -> Z) (xxh : str -> N)
         ps ws cs e xs d text t blobs rows kept columns requested in_memory,
  let answer := sql_reader float_of date_of (query_reader float_of date_of py_is matches apply open n)
                  (filter_where float_of date_of py_is matches) quotient hash xxh in
  let label := get_token_type float_of date_of in
  gives_blobs (open (dots_to_slashes d)) (map (map VDict) blobs) -> length (concat rows) <= n ->
  (forall r, In r (concat blobs) -> r <> [] /\ NoDup (map fst r)) ->
  good_pieces ps -> spread ws (text_of (without_comments ps)) -> written_parts cs (join $" " ws) ->
  last_of select_of cs = Some e -> last_of from_of cs = Some (inl d) -> safe_name (dots_to_slashes d) ->
  last_of where_of cs = text -> condition_of float_of date_of text t ->
  Forall2 (before_error float_of date_of py_is matches t) blobs rows ->
  picks (wanted float_of date_of py_is matches t) (concat rows) kept ->
  written_list label xs e -> grouping_columns cs columns ->
  Forall (grouped_entry label columns) xs -> requests xs requested -> requested <> [] ->
  NoDup (map asked_name xs) -> ~ In $"*" (map asked_name xs) ->
  (forall r, In r (concat blobs) -> groups_apart columns requested t r) ->
  let read := map with_star kept in
  (forall a b, In a read -> In b read -> (group_key xxh columns a = group_key xxh columns b <-> agree_on columns a b)) ->
  (Z.of_nat (length (dedup str_eqb (map (group_text columns) read))) < 4999999)%Z ->
  GroupBy.separate requested -> (forall f c, In (f, c) requested -> GroupBy.suitable read f c) ->
  (forall f c, In (f, c) requested -> ~ In (agg_name f c) columns) ->
  (forall c r group, In (AVG, c) requested -> In r read -> GroupBy.group_of columns r read group ->
                     GroupBy.has_values requested group -> 0 < GroupBy.counted c group) ->
  (forall m, last_of limit_of cs = Some m -> (0 < m)%Z) ->
  exists groups, GroupBy.group_by_is columns requested read groups /\
    forall having, having_keeps (filter_where float_of date_of py_is matches) cs (values_of quotient groups) having ->
    (forall r, In r having -> renamable xs r) ->
    (existsb asks_distinct cs = true -> told_apart hash (shown xs having)) -> orderable cs (shown xs having) ->
    exists once out, kept_once (existsb asks_distinct cs) (shown xs having) once /\ in_order_and_limited cs once out /\
      forall fuel, length (text_of ps) < fuel -> answer fuel in_memory (text_of ps) = Ok out.
Proof. exact QueryGroups.grouped_blobs_query. Qed.
Print Assumptions grouped_query_until_error_partial.

(** GROUP BY without aggregates. *)
Theorem groups_query_until_error_partial :
  forall float_of date_of, reads_floats float_of ->
  forall py_is matches apply
         (open : str -> (value -> result value) -> (value -> result bool) -> nat -> result (list value)) (n : nat)
         (quotient : Z -> Z -> value) (hash : str -> Z) (xxh : str -> N)
         ps ws cs e xs d text t blobs rows kept columns in_memory,
  let answer := sql_reader float_of date_of (query_reader float_of date_of py_is matches apply open n)
                  (filter_where float_of date_of py_is matches) quotient hash xxh in
  let label := get_token_type float_of date_of in
  gives_blobs (open (dots_to_slashes d)) (map (map VDict) blobs) -> length (concat rows) <= n ->
  (forall r, In r (concat blobs) -> r <> [] /\ NoDup (map fst r)) ->
  good_pieces ps -> spread ws (text_of (without_comments ps)) -> written_parts cs (join $" " ws) ->
  last_of select_of cs = Some e -> last_of from_of cs = Some (inl d) -> safe_name (dots_to_slashes d) ->
  last_of where_of cs = text -> condition_of float_of date_of text t ->
  Forall2 (before_error float_of date_of py_is matches t) blobs rows ->
  picks (wanted float_of date_of py_is matches t) (concat rows) kept ->
  written_list label xs e -> last_of group_of cs <> None -> grouping_columns cs columns ->
  Forall (grouped_entry label columns) xs -> requests xs [] ->
  NoDup (map asked_name xs) -> ~ In $"*" (map asked_name xs) ->
  (forall r, In r (concat blobs) -> groups_apart columns [] t r) ->
  let read := map with_star kept in
  (forall a b, In a read -> In b read -> (group_key xxh columns a = group_key xxh columns b <-> agree_on columns a b)) ->
  (Z.of_nat (length (dedup str_eqb (map (group_text columns) read))) < 4999999)%Z ->
  (forall m, last_of limit_of cs = Some m -> (0 < m)%Z) ->
  exists firsts groups, first_occurrences (agree_on columns) [] read firsts /\
    Forall2 (fun r o => first_occurrences eq [] columns (map fst o) /\
                        forall c, In c columns -> dget str_eqb c o = Some (rget c r)) firsts groups /\
    forall having, having_keeps (filter_where float_of date_of py_is matches) cs groups having -> (forall r, In r having -> renamable xs r) ->
    (existsb asks_distinct cs = true -> told_apart hash (shown xs having)) -> orderable cs (shown xs having) ->
    exists once out, kept_once (existsb asks_distinct cs) (shown xs having) once /\ in_order_and_limited cs once out /\
      forall fuel, length (text_of ps) < fuel -> answer fuel in_memory (text_of ps) = Ok out.
Proof. exact QueryGroups.groups_blobs_query. Qed.
Print Assumptions groups_query_until_error_partial.

Theorem blobs_have_one_beginning : forall float_of date_of py_is matches t blob,
  exists rows, before_error float_of date_of py_is matches t blob rows /\
    forall rows', before_error float_of date_of py_is matches t blob rows' -> rows' = rows.
Proof. exact Query.before_error_one. Qed.
Print Assumptions blobs_have_one_beginning.

(** *** Examples *)
Import ExpressionCases SqlAnswerCases QueryCases ReaderCases QueryUntilCases.
Notation pair_answer := (sql_reader none_of none_of (query_reader none_of none_of same no_matches some_functions pair_open 10) rows_where).
Example ex_blobs : (forall b, In b pair_blobs ->
    Forall one_line (pair_lines b) /\ until_damage Json.loads (pair_lines b) (pair_records b) /\ file_with_extension $".jsonl" b) /\
  ascending_names pair_blobs pair_blobs.
Proof. exact (conj (fun b H => conj (proj1 (pair_content b H)) (conj (proj1 (proj2 (pair_content b H))) (pair_file b H))) pair_ascending). Qed.
Example ex_query : gives_blobs (pair_open (dots_to_slashes $"data.pairs")) (map (map VDict) pairs) /\
  (forall r, In r (concat pairs) -> r <> [] /\ NoDup (map fst r)) /\
  good_pieces alike_statement /\ written_parts alike_parts (join $" " alike_words) /\ safe_name (dots_to_slashes $"data.pairs") /\
  condition_of none_of none_of (Some alike) (Some alike_tree) /\
  Forall2 (before_error none_of none_of same no_matches (Some alike_tree)) pairs pairs_read /\ map (@length record) pairs = [4; 1] /\ map (@length record) pairs_read = [2; 1] /\
  forall quotient hash xxh, pair_answer quotient hash xxh 200 false (text_of alike_statement) =
    Ok [pair (VStr $"x") (VStr $"x%"); pair (VStr $"q") (VStr $"q")].
Proof.
  exact (conj pairs_given (conj pairs_rows (conj alike_good (conj alike_written (conj pairs_safe (conj alike_condition (conj pairs_before
    (conj eq_refl (conj eq_refl alike_answer))))))))).
Qed.

(** So a record for which the condition holds may be missing from the answer, and nothing says so: it comes after one of
    the same blob whose column b is a number, not a text. *)
Theorem every_wanted_record_is_answered_refuted :
  exists r, In r (concat pairs) /\ wanted none_of none_of same no_matches (Some alike_tree) r /\
    forall quotient hash xxh, exists out, pair_answer quotient hash xxh 200 false (text_of alike_statement) = Ok out /\ ~ In r out.
Proof. exact record_lost. Qed.
Print Assumptions every_wanted_record_is_answered_refuted.
