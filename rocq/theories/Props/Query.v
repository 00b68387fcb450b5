(** C83: SQL queries over stored records. *)
From Verif.Base Require Import Py Value.
From Verif.Model Require Import Paths Dates Frames ReadRange Cursor Tokens Evaluator Expression GroupBy Storage Writers Stream Adapters Reader Sql Query.
From Verif.Spec Require Import Paths Dates Frames Cursor Json Writers Stream Reader StreamRead Tokens DictSet Expression Evaluator Sql SqlAnswer.
From Verif.Spec Require GroupBy Adapters.
From Verif.Spec Require Import System Query.
From Verif.Proofs Require Query QueryGroups QueryBatch QueryRange QueryCases StreamReadCases ReaderCases.
From Verif.Model Require Json.
Local Open Scope nat_scope.

(** A statement SELECT list FROM dataset WHERE condition with DISTINCT, ORDER BY and LIMIT as wanted, of a dataset whose
    reader gives [rows] ([gives]; by C82 the records of a complete batch, see below): the records for which the condition
    holds, in order ([kept]), the values of the list for each of them under the names of the list ([rows_of]), of these
    each once with DISTINCT, sorted and limited.
    Missing for all: a comparison that raises (an error ends the reading of that blob without a word, see QueryUntil.v; which do not is
    below, [conditions_are_comparable]); an AS or a constant which has the name of a column of the condition (see condition_on_computed_column_refuted); more than [n]
    records (the model reads them all before); GROUP BY and HAVING are below, a query after FROM in SqlAnswer.v. *)
Theorem query_over_stored_records_partial :
  forall float_of date_of, reads_floats float_of ->
  forall py_is matches apply
         (open : str -> (value -> result value) -> (value -> result bool) -> nat -> result (list value)) (n : nat)
         (quotient : Z -> Z -> value) (hash : str -> Z) (xxh : str -> N)
         ps ws cs e xs d text t rows in_memory,
  let answer := sql_reader float_of date_of (query_reader float_of date_of py_is matches apply open n)
                  (filter_where float_of date_of py_is matches) quotient hash xxh in
  gives (open (dots_to_slashes d)) (map VDict rows) -> length rows <= n ->
  (forall r, In r rows -> r <> [] /\ NoDup (map fst r)) ->
  good_pieces ps -> spread ws (text_of (without_comments ps)) -> written_parts cs (join $" " ws) ->
  last_of select_of cs = Some e -> last_of from_of cs = Some (inl d) -> safe_name (dots_to_slashes d) ->
  last_of where_of cs = text -> last_of group_of cs = None -> last_of having_of cs = None ->
  (forall m, last_of limit_of cs = Some m -> (0 < m)%Z) ->
  written_list (get_token_type float_of date_of) xs e -> good_query float_of date_of apply xs t rows ->
  condition_of float_of date_of text t -> (forall r, In r rows -> comparable float_of date_of py_is matches t r) ->
  exists kept selected, picks (wanted float_of date_of py_is matches t) rows kept /\ rows_of float_of date_of apply xs kept selected /\
    ((existsb asks_distinct cs = true -> told_apart hash selected) -> orderable cs selected ->
     exists once out, kept_once (existsb asks_distinct cs) selected once /\ in_order_and_limited cs once out /\
       forall fuel, length (text_of ps) < fuel -> answer fuel in_memory (text_of ps) = Ok out).
Proof. exact Query.query_answer. Qed.
Print Assumptions query_over_stored_records_partial.

(** With aggregates: a row for each group of the records for which the condition holds, with the aggregates of the group;
    HAVING, DISTINCT, ORDER BY and LIMIT after that. *)
Theorem grouped_query_over_stored_records_partial :
  forall float_of date_of, reads_floats float_of ->
  forall py_is matches apply
         (open : str -> (value -> result value) -> (value -> result bool) -> nat -> result (list value)) (n : nat)
         (quotient : Z -> Z -> value) (hash : str -> Z) (xxh : str -> N)
         ps ws cs e xs d text t rows kept columns requested in_memory,
  let answer := sql_reader float_of date_of (query_reader float_of date_of py_is matches apply open n)
                  (filter_where float_of date_of py_is matches) quotient hash xxh in
  let label := get_token_type float_of date_of in
  gives (open (dots_to_slashes d)) (map VDict rows) -> length rows <= n ->
  (forall r, In r rows -> r <> [] /\ NoDup (map fst r)) ->
  good_pieces ps -> spread ws (text_of (without_comments ps)) -> written_parts cs (join $" " ws) ->
  last_of select_of cs = Some e -> last_of from_of cs = Some (inl d) -> safe_name (dots_to_slashes d) ->
  last_of where_of cs = text -> condition_of float_of date_of text t ->
  (forall r, In r rows -> comparable float_of date_of py_is matches t r) ->
  picks (wanted float_of date_of py_is matches t) rows kept ->
  written_list label xs e -> grouping_columns cs columns ->
  Forall (grouped_entry label columns) xs -> requests xs requested -> requested <> [] ->
  NoDup (map asked_name xs) -> ~ In $"*" (map asked_name xs) ->
  (forall r, In r rows -> groups_apart columns requested t r) ->
  let read := map with_star kept in
  (forall a b, In a read -> In b read -> (group_key xxh columns a = group_key xxh columns b <-> agree_on columns a b)) ->
  (Z.of_nat (length (dedup str_eqb (map (group_text columns) read))) < 4999999)%Z ->
  GroupBy.separate requested -> (forall f c, In (f, c) requested -> GroupBy.suitable read f c) ->
  (forall f c, In (f, c) requested -> ~ In (agg_name f c) columns) ->
  (forall c r group, In (AVG, c) requested -> In r read -> GroupBy.group_of columns r read group ->
                     GroupBy.has_values requested group -> 0 < GroupBy.counted c group) ->
  (forall m, last_of limit_of cs = Some m -> (0 < m)%Z) ->
  exists groups, GroupBy.group_by_is columns requested read groups /\
    forall having, having_keeps (filter_where float_of date_of py_is matches) cs (values_of quotient groups) having ->
    (forall r, In r having -> renamable xs r) ->
    (existsb asks_distinct cs = true -> told_apart hash (shown xs having)) -> orderable cs (shown xs having) ->
    exists once out, kept_once (existsb asks_distinct cs) (shown xs having) once /\ in_order_and_limited cs once out /\
      forall fuel, length (text_of ps) < fuel -> answer fuel in_memory (text_of ps) = Ok out.
Proof. exact QueryGroups.grouped_query. Qed.
Print Assumptions grouped_query_over_stored_records_partial.

(** GROUP BY without aggregates: each group of the records for which the condition holds once, in order of first
    occurrence. *)
Theorem groups_query_over_stored_records_partial :
  forall float_of date_of, reads_floats float_of ->
  forall py_is matches apply
         (open : str -> (value -> result value) -> (value -> result bool) -> nat -> result (list value)) (n : nat)
         (quotient : Z -> Z -> value) (hash : str -> Z) (xxh : str -> N)
         ps ws cs e xs d text t rows kept columns in_memory,
  let answer := sql_reader float_of date_of (query_reader float_of date_of py_is matches apply open n)
                  (filter_where float_of date_of py_is matches) quotient hash xxh in
  let label := get_token_type float_of date_of in
  gives (open (dots_to_slashes d)) (map VDict rows) -> length rows <= n ->
  (forall r, In r rows -> r <> [] /\ NoDup (map fst r)) ->
  good_pieces ps -> spread ws (text_of (without_comments ps)) -> written_parts cs (join $" " ws) ->
  last_of select_of cs = Some e -> last_of from_of cs = Some (inl d) -> safe_name (dots_to_slashes d) ->
  last_of where_of cs = text -> condition_of float_of date_of text t ->
  (forall r, In r rows -> comparable float_of date_of py_is matches t r) ->
  picks (wanted float_of date_of py_is matches t) rows kept ->
  written_list label xs e -> last_of group_of cs <> None -> grouping_columns cs columns ->
  Forall (grouped_entry label columns) xs -> requests xs [] ->
  NoDup (map asked_name xs) -> ~ In $"*" (map asked_name xs) ->
  (forall r, In r rows -> groups_apart columns [] t r) ->
  let read := map with_star kept in
  (forall a b, In a read -> In b read -> (group_key xxh columns a = group_key xxh columns b <-> agree_on columns a b)) ->
  (Z.of_nat (length (dedup str_eqb (map (group_text columns) read))) < 4999999)%Z ->
  (forall m, last_of limit_of cs = Some m -> (0 < m)%Z) ->
  exists firsts groups, first_occurrences (agree_on columns) [] read firsts /\
    Forall2 (fun r o => first_occurrences eq [] columns (map fst o) /\
                        forall c, In c columns -> dget str_eqb c o = Some (rget c r)) firsts groups /\
    forall having, having_keeps (filter_where float_of date_of py_is matches) cs groups having -> (forall r, In r having -> renamable xs r) ->
    (existsb asks_distinct cs = true -> told_apart hash (shown xs having)) -> orderable cs (shown xs having) ->
    exists once out, kept_once (existsb asks_distinct cs) (shown xs having) once /\ in_order_and_limited cs once out /\
      forall fuel, length (text_of ps) < fuel -> answer fuel in_memory (text_of ps) = Ok out.
Proof. exact QueryGroups.groups_query. Qed.
Print Assumptions groups_query_over_stored_records_partial.

(** Which conditions never raise, whatever the records hold: those of comparisons of columns and constants, other than
    with regular expressions and LIKE with something else than a text. *)
Theorem conditions_are_comparable : forall float_of date_of py_is matches t r,
  (forall c, In c (comparisons t) -> has_answer c) -> comparable float_of date_of py_is matches (Some t) r.
Proof. exact QueryRange.always_comparable. Qed.
Print Assumptions conditions_are_comparable.

(** The records of a complete batch are given to a query: under the hypotheses of
    stored_batch_is_read_whole_or_not_at_all_partial (C82), with the marker stored, a reader of that day with the select
    and the filter of a statement gives the records the writer took. *)
Theorem complete_batch_is_queried_partial :
  forall (parse : str -> result value) (unzstd : str -> result str)
         (other : str -> str -> generator value) (fits : value -> Prop) (image : value -> value)
         (hash : str -> Z) (loads : str -> result cdict)
         (k : kind) (E : setting value) (ext : str) (names : list str) (folders : list (list seg)) (texts : list str) (y m d : Z) (w : moment) (rnd ds : str) (i : inner),
    folder_names names -> daily_partitions folders -> written_as folders texts ->
    let dataset := join $"/" names in
    let t := dataset_template dataset folders in
    let root := day_folder t (y, m, d) in
    let frame := as_at_text w in
    new_frame_id rnd dataset texts w (a_day y m d) = Ok ds ->
    inner_filename (s_format E) ext ds = Ok (s_filename E) -> new_inner k (s_format E) ext ds = Ok i ->
    read_as parse unzstd other E (extension (s_format E) ext) fits image ->
    plain ext -> plain (s_node E) -> clean_failures E -> Py.contains $"BACKOUT" (root ++ $"/" ++ frame) = false ->
    forall (now : datetime) (hh mm ss hh' mm' ss' : Z) (rnd' : str) (es : list entry)
           (rs : list value) (fs : list bool) (os : list outcome) (st : state (R:=value)) (log' : list (str * str)) (s0 : stored),
    let start := of_fields y m d hh mm ss in
    let stop := of_fields y m d hh' mm' ss' in
    valid_date y m d -> valid_time hh mm ss -> valid_time hh' mm' ss' -> (start <= stop)%Z ->
    Adapters.proper k s0 -> NoDup es ->
    (forall name, In name (listing k rnd' (range_hours now start stop) root s0) <-> In name (map (name_in root) es)) ->
    tidy root (live root es) -> older_frames (live root es) frame ->
    run E (new_writer nothing) (map Append rs ++ map Finalize fs) = (os, st) ->
    good_clock E (attempts (st_world st)) -> crashed (puts (st_world st)) log' -> marked (root ++ $"/" ++ frame) log' ->
    let written := taken E (map Append rs ++ map Finalize fs) os in
    written <> [] -> (forall r, In r written -> fits r) ->
    (exists ops, operations_of E log' ops) /\
    forall ops, operations_of E log' ops ->
    exists i' s1, operate k i (s_node E) ops s0 = Ok (i', s1) /\
      gives (fun columns filters n => records_read (read_selected parse unzstd other columns filters hash loads k now rnd' t start stop n s1)) (map image written).
Proof. exact QueryBatch.batch_gives. Qed.
Print Assumptions complete_batch_is_queried_partial.

(** A range of days gives what its days give, the days in order; days without data add nothing. *)
Theorem days_are_queried_together :
  forall parse unzstd other hash loads k now rnd names folders (s : stored) y m d hh mm ss y' m' d' hh' mm' ss',
  let t := dataset_template (join $"/" names) folders in
  folder_names names -> daily_partitions folders -> chronological t -> Adapters.proper k s ->
  valid_date y m d -> valid_time hh mm ss -> valid_date y' m' d' -> valid_time hh' mm' ss' ->
  (1000 <= y)%Z -> (y' <= 9999)%Z -> (of_fields y m d hh mm ss <= of_fields y' m' d' hh' mm' ss')%Z ->
  let read a b columns filters n := records_read (read_selected parse unzstd other columns filters hash loads k now rnd t a b n s) in
  let day date := let '(y, m, d) := date in read (of_fields y m d 0 0 0) (of_fields y m d 23 59 59) in
  exists days, consecutive days /\ hd_error days = Some (y, m, d) /\ last days (y', m', d') = (y', m', d') /\
  forall rows, Forall2 (fun date part => gives (day date) part \/
                                         part = [] /\ forall columns filters n, day date columns filters n = Raise DataNotFoundError) days rows ->
    concat rows <> [] -> gives (read (of_fields y m d hh mm ss) (of_fields y' m' d' hh' mm' ss')) (concat rows).
Proof. exact QueryRange.days_give. Qed.
Print Assumptions days_are_queried_together.

(** The records of a stream are given to a query: under the hypotheses of stream_then_read_in_order_partial (C81), those
    appended on the days of the range and accepted, in the order of the appends. *)
Theorem stream_is_queried_partial :
  forall (parse : str -> result value) (unzstd : str -> result str) (other : str -> str -> generator value) (read_blob : str -> result str)
         (fits : value -> Prop) (image : value -> value)
         (V : Type) (M : streaming value V) (es : list event) (os : list (result nat)) (s : sstate) (store : str -> list str)
         (t : list seg) (now : datetime) (rnd : str) (y m d hh mm ss y' m' d' hh' mm' ss' : Z)
         (hash : str -> Z) (loads : str -> result cdict),
  stream_settings parse unzstd other fits image M -> stream_ran read_blob M es os s ->
  daily_template t -> chronological t -> proper_template (map Date t) ->
  m_template M = template_text t \/ m_template M = template_text (t ++ hour_folders) -> in_order es ->
  valid_date y m d -> valid_time hh mm ss -> valid_date y' m' d' -> valid_time hh' mm' ss' -> (1000 <= y)%Z -> (y' <= 9999)%Z ->
  (of_fields y m d hh mm ss <= of_fields y' m' d' hh' mm' ss')%Z ->
  (forall date, within (y, m, d) (y', m', d') date ->
     clean_folder (day_folder t date) /\ lists_folder store (puts (world_of s)) (day_folder t date)) ->
  let accepted := accepted_on M (within_days (y, m, d) (y', m', d')) es os in
  accepted <> [] -> (forall r, In r accepted -> fits r) ->
  gives (fun columns filters n => records_read (read_records hash loads
      (fun _ => list_range None store now rnd (template_text t ++ $"/") (of_fields y m d hh mm ss) (of_fields y' m' d' hh' mm' ss'))
      0 (blob_records parse unzstd other read_blob columns filters None) NoCursor n)) (map image accepted).
Proof. exact QueryRange.stream_gives. Qed.
Print Assumptions stream_is_queried_partial.

(** *** Examples *)
Import ExpressionCases SqlAnswerCases QueryCases.
Notation crew_answer := (sql_reader none_of none_of (query_reader none_of none_of same no_matches some_functions crew_open 10) rows_where).
Example ex_query : gives (crew_open (dots_to_slashes $"data.crew")) (map VDict crew) /\
  (forall r, In r crew -> r <> [] /\ NoDup (map fst r)) /\
  good_pieces who_statement /\ written_parts who_parts (join $" " who_words) /\ safe_name (dots_to_slashes $"data.crew") /\
  written_list none_label who_columns $"UPPER(name) AS who, pay" /\ good_query none_of none_of some_functions who_columns (Some adult_tree) crew /\
  condition_of none_of none_of (Some adult) (Some adult_tree) /\ (forall r, In r crew -> comparable none_of none_of same no_matches (Some adult_tree) r) /\
  forall quotient hash xxh, crew_answer quotient hash xxh 200 false (text_of who_statement) =
    Ok [[($"who", VStr $"DEE"); ($"pay", VNull)]; [($"who", VStr $"BOB"); ($"pay", VInt 41)]].
Proof.
  split; [exact crew_gives|]. split; [exact crew_rows|]. split; [exact who_good|]. split; [exact who_written|].
  split; [exact crew_safe|]. split; [exact who_columns_written|]. split; [exact who_query|].
  split; [exact adult_condition|]. split; [exact adult_comparable|]. intros. vm_compute. reflexivity.
Qed.
Example ex_grouped_query : good_pieces cost_statement /\ written_parts cost_parts (join $" " cost_words) /\
  grouping_columns cost_parts [$"dept"] /\ (forall r, In r crew -> groups_apart [$"dept"] group_requests (Some adult_tree) r) /\
  (forall a b, In a (map with_star adults) -> In b (map with_star adults) ->
     (group_key text_code [$"dept"] a = group_key text_code [$"dept"] b <-> agree_on [$"dept"] a b)) /\
  (forall f c, In (f, c) group_requests -> GroupBy.suitable (map with_star adults) f c) /\
  forall quotient hash, crew_answer quotient hash text_code 200 false (text_of cost_statement) =
    Ok [[($"dept", VStr $"x"); ($"COUNT(*)", VInt 2); ($"cost", VInt 30)]; [($"dept", VStr $"y"); ($"COUNT(*)", VInt 1); ($"cost", VInt 41)]].
Proof.
  split; [exact cost_good|]. split; [exact cost_written|]. split; [exact cost_columns|]. split; [exact cost_apart|].
  split; [exact cost_faithful|]. split; [exact cost_suitable|]. intros. vm_compute. reflexivity.
Qed.

Example ex_groups_query : forall quotient hash,
  crew_answer quotient hash text_code 200 false $"SELECT dept AS d FROM data.crew WHERE age >= 18 GROUP BY dept" =
    Ok [[($"d", VStr $"x")]; [($"d", VStr $"y")]].
Proof. intros. vm_compute. reflexivity. Qed.
Example ex_comparable : exists t, init_expression none_of none_of $"age >= 18 OR NOT name LIKE 'B%' AND pay IN (1)" = Ok t /\
  forall c, In c (comparisons t) -> has_answer c.
Proof.
  eexists. split; [vm_compute; reflexivity|]. intros c H. cbn in H.
  repeat (destruct H as [<-|H]); try contradiction; (split; [(left; cbn; tauto) || (right; split; [cbn; tauto|eauto])|]); cbn; intuition (subst; eauto).
Qed.
(** A query over the three days of the stream of C81 (its other hypotheses: ex_hypotheses there), in folders of days and
    of hours. *)
Import ReaderCases StreamReadCases.
Definition stream_open t (_ : str) (columns : value -> result value) (filters : value -> result bool) (n : nat) : result (list value) :=
  records_read (read_records (fun _ => 0%Z) (fun _ => Raise ValueError)
    (fun _ => list_range None (st_store t) 0%Z [] (template_text st_template ++ $"/") (of_fields 2024 2 28 0 0 0) (of_fields 2024 3 1 12 0 0))
    0 (blob_records Json.loads unz no_other (read_from (st_log t)) columns filters None) NoCursor n).
Example ex_stream_query : forall t, In t [st_template; st_template ++ hour_folders] ->
  accepted_on (st_writer t) (within_days (2024, 2, 28)%Z (2024, 3, 1)%Z) st_events (fst (st_run t)) = map a_record [1; 2; 3; 4; 5]%Z /\
  forall quotient hash xxh,
    sql_reader none_of none_of (query_reader none_of none_of same no_matches some_functions (stream_open t) 10) rows_where quotient hash xxh 200 false
      $"SELECT a AS number FROM data.set WHERE a >= 2 AND a <> 4" = Ok (map (fun n => [($"number", VInt n)]) [2; 3; 5]%Z).
Proof. intros t [<-|[<-|[]]]; (split; [vm_compute; reflexivity|intros; vm_compute; reflexivity]). Qed.

(** WHERE is evaluated on the columns of the list, not on those of the records: with UPPER(name) AS dept, a condition on
    dept is about the name.  The first record has department x and is not in the answer. *)
Theorem condition_on_computed_column_refuted :
  exists r t, In r crew /\ condition_of none_of none_of (Some $"dept = 'x'") (Some t) /\
    wanted none_of none_of same no_matches (Some t) r /\
    forall quotient hash xxh,
      crew_answer quotient hash xxh 200 false $"SELECT UPPER(name) AS dept FROM data.crew WHERE dept = 'x'" = Ok [].
Proof. exact QueryCases.computed_column. Qed.
Print Assumptions condition_on_computed_column_refuted.
