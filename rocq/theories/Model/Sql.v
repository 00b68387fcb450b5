(** mabel/data/readers/internals/sql_reader.py: SQL statements. *)
From Verif.Base Require Import Py Value.
From Verif.Model Require Import Dates Tokens Splitter DictSet GroupBy Evaluator.

(** sql_reader.py 29-40 *)
Definition SQL_PARTS : list str :=
  [$"SELECT"; $"DISTINCT"; $"FROM"; $"WHERE"; $"GROUP BY"; $"HAVING"; $"ORDER BY"; $"ASC"; $"DESC"; $"LIMIT"].
Definition is_part (token : str) : bool := str_mem (upper token) SQL_PARTS.

(** sql_reader.py 77-85 [sql_parts].  [\s] is a space here: the text has no other white space ([clean_statement]). *)
Definition sql_splits : list (str * bool) :=
  symbols_part [$"("; $")"; $","] ++ words_part SQL_PARTS ++ symbols_part [$" "].
Definition sql_parts (s : str) : list str :=
  filter (fun p => negb (str_eqb p [])) (cut sql_splits 0 None [] s).

(** ** Comments *)
(** the number of characters before the first end of a comment *)
Fixpoint comment_end (s : str) : option nat :=
  match s with
  | [] => None
  | c :: s' =>
      match s' with
      | d :: _ => if Ascii.eqb c "*" && Ascii.eqb d "/" then Some 0 else option_map S (comment_end s')
      | [] => None
      end
  end.
(** the characters up to the end of the line: [[^\r\n]*$] ([$] stands before a line feed and at the end) *)
Fixpoint line_end (s : str) : option nat :=
  match s with
  | [] => Some 0
  | c :: s' =>
      if Ascii.eqb c "010" then Some 0
      else if Ascii.eqb c "013" then None
      else option_map S (line_end s')
  end.
(** the number of characters of a comment at the beginning of [s] *)
Definition comment_at (s : str) : option nat :=
  match s with
  | c :: d :: s' =>
      if Ascii.eqb c "/" && Ascii.eqb d "*" then option_map (fun n => n + 4) (comment_end s')
      else if Ascii.eqb c "-" && Ascii.eqb d "-" then option_map (fun n => n + 2) (line_end s')
      else None
  | _ => None
  end.

Inductive reading := InText | InQuotes (q : ascii) | InComment (more : nat).
(** sql_reader.py 94-108 [remove_comments]: the scanning done by [regex.sub] *)
Fixpoint remove_from (m : reading) (s : str) : str :=
  match s with
  | [] => []
  | c :: s' =>
      match m with
      | InQuotes q => c :: remove_from (if Ascii.eqb c q then InText else m) s'
      | InComment (S n) => remove_from (match n with O => InText | S _ => InComment n end) s'
      | _ =>
          if (Ascii.eqb c """" || Ascii.eqb c "'") && mem Ascii.eqb c s' then c :: remove_from (InQuotes c) s'
          else match comment_at s with
               | Some (S n) => remove_from (InComment n) s'
               | _ => c :: remove_from InText s'
               end
      end
  end.
Definition remove_comments (s : str) : str := remove_from InText s.

(** sql_reader.py 110-135 [validate_dataset].  Simplification: letters and digits are the ASCII ones. *)
Definition contains (part s : str) : bool := existsb (fun i => str_eqb (firstn (length part) (skipn i s)) part) (seq 0 (S (length s))).
Definition validate_dataset (dataset : str) : result unit :=
  match dataset with
  | [] => Raise IndexError
  | c :: _ =>
      if negb (is_alpha c) then Raise InvalidSqlError
      else if contains $".." dataset || contains $"//" dataset || contains $"--" dataset then Raise InvalidSqlError
      else if forallb (fun c => is_alpha c || is_digit c || mem Ascii.eqb c $"./-_") dataset then Ok tt
      else Raise InvalidSqlError
  end.

(** sql_reader.py 137-145 [collector]: the tokens before the next part of a statement, joined, and the others *)
Fixpoint collect_tokens (ts : list str) : list str * list str :=
  match ts with
  | [] => ([], [])
  | t :: ts' => if is_part t then ([], ts) else let (c, rest) := collect_tokens ts' in (t :: c, rest)
  end.
Definition collector (ts : list str) : str * list str :=
  let (c, rest) := collect_tokens ts in (strip (concat c), rest).

(** what FROM has: a name, or the tokens of another statement *)
Inductive source := Name (dataset : str) | Query (tokens : list str).

(** sql_reader.py 48-57 *)
Record statement := mkStatement {
  select_expression : option str; distinct_rows : bool; from : option source; where_expression : option str;
  group_by : option str; having : option str; order_by : option str; order_descending : bool; limit : option Z }.
Definition empty_statement : statement := mkStatement None false None None None None None false None.

Definition set_select (e : str) (d : bool) (st : statement) : statement :=
  mkStatement (Some e) (distinct_rows st || d) (from st) (where_expression st) (group_by st) (having st) (order_by st)
              (order_descending st) (limit st).
Definition set_from (f : source) (st : statement) : statement :=
  mkStatement (select_expression st) (distinct_rows st) (Some f) (where_expression st) (group_by st) (having st)
              (order_by st) (order_descending st) (limit st).
Definition set_where (e : str) (st : statement) : statement :=
  mkStatement (select_expression st) (distinct_rows st) (from st) (Some e) (group_by st) (having st) (order_by st)
              (order_descending st) (limit st).
Definition set_group (e : str) (st : statement) : statement :=
  mkStatement (select_expression st) (distinct_rows st) (from st) (where_expression st) (Some e) (having st) (order_by st)
              (order_descending st) (limit st).
Definition set_having (e : str) (st : statement) : statement :=
  mkStatement (select_expression st) (distinct_rows st) (from st) (where_expression st) (group_by st) (Some e) (order_by st)
              (order_descending st) (limit st).
Definition set_order (e : str) (d : bool) (st : statement) : statement :=
  mkStatement (select_expression st) (distinct_rows st) (from st) (where_expression st) (group_by st) (having st) (Some e)
              d (limit st).
Definition set_limit (n : Z) (st : statement) : statement :=
  mkStatement (select_expression st) (distinct_rows st) (from st) (where_expression st) (group_by st) (having st)
              (order_by st) (order_descending st) (Some n).

Section Parser.
  Context (float_of date_of : str -> option value).
  Notation label := (get_token_type float_of date_of).
  Notation has_label ty tok := (ttype_beq (label tok) ty).

  (** [while labeler.has_next() and labeler.next_token_type() == TOKENS.EMPTY: labeler.next()] (161, 166, 171) *)
  Fixpoint skip_empty (ts : list str) : list str :=
    match ts with
    | t :: ts' => if has_label EMPTY t then skip_empty ts' else ts
    | [] => []
    end.

  (** sql_reader.py 175-196: the tokens up to the parenthesis that closes a sub-query *)
  Fixpoint query_tokens (open_parentheses : nat) (ts : list str) : result (list str * list str) :=
    match ts with
    | [] => Raise InvalidSqlError
    | t :: ts' =>
        if has_label RIGHTPAREN t then
          match open_parentheses with
          | S (S n) => let* (q, rest) := query_tokens (S n) ts' in Ok (t :: q, rest)
          | _ => Ok ([], ts')
          end
        else
          let* (q, rest) := query_tokens (if has_label LEFTPAREN t then S open_parentheses else open_parentheses) ts' in
          Ok (t :: q, rest)
    end.

  (** sql_reader.py 156-222: one round of the loop, for the token [t] and the ones after it.  Reading past the last
      token is an IndexError.  A token of none of the kinds leaves everything as it is. *)
  Definition one_clause (st : statement) (t : str) (ts : list str) : result (statement * list str) :=
    let word := upper t in
    if str_eqb (strip t) [] then Ok (st, ts)
    else if str_eqb word $"SELECT" then
      match skip_empty ts with
      | [] => Raise IndexError
      | t' :: ts' =>
          let d := str_eqb (upper t') $"DISTINCT" in
          let (e, rest) := collector (if d then skip_empty ts' else t' :: ts') in
          Ok (set_select e d st, rest)
      end
    else if str_eqb word $"FROM" then
      match skip_empty ts with
      | [] => Raise IndexError
      | t' :: ts' =>
          if has_label LEFTPAREN t' then
            let* (q, rest) := query_tokens 1 ts' in Ok (set_from (Query q) st, rest)
          else
            let (e, rest) := collector (t' :: ts') in
            Ok (set_from (Name (map (fun c => if Ascii.eqb c "." then "/"%char else c) e)) st, rest)
      end
    else if str_eqb word $"WHERE" then let (e, rest) := collector ts in Ok (set_where e st, rest)
    else if str_eqb word $"GROUP BY" then let (e, rest) := collector ts in Ok (set_group e st, rest)
    else if str_eqb word $"HAVING" then let (e, rest) := collector ts in Ok (set_having e st, rest)
    else if str_eqb word $"ORDER BY" then
      let (e, rest) := collector ts in
      match rest with
      | [] => Ok (set_order e (order_descending st) st, [])
      | t' :: rest' =>
          Ok (set_order e (if str_mem (upper t') [$"ASC"; $"DESC"] then str_eqb (upper t') $"DESC"
                           else order_descending st) st, rest')
      end
    else if str_eqb word $"LIMIT" then
      let (e, rest) := collector ts in let* n := py_int e in Ok (set_limit n st, rest)
    else Ok (st, t :: ts).

  (** the loop: [fuel] bounds the rounds *)
  Fixpoint clauses (fuel : nat) (st : statement) (ts : list str) : result statement :=
    match ts with
    | [] => Ok st
    | t :: ts' =>
        match fuel with
        | O => Raise OutOfFuel
        | S f => let* (st', rest) := one_clause st t ts' in clauses f st' rest
        end
    end.

  (** sql_reader.py 147-231 [parse] *)
  Definition parse_statement (fuel : nat) (s : str) : result statement :=
    let* st := clauses fuel empty_statement (sql_parts (clean_statement (remove_comments s))) in
    let* _ := match from st with Some (Name d) => validate_dataset d | _ => Ok tt end in
    match from st, select_expression st with
    | Some _, Some _ => Ok st
    | _, _ => Raise InvalidSqlError
    end.

  (** sql_reader.py 48-60 [SqlParser(statement)] *)
  Definition sql_parser (fuel : nat) (s : str) : result (statement * list item) :=
    let* st := parse_statement fuel s in
    match select_expression st with
    | Some e => let* items := new_evaluator float_of date_of e in Ok (st, items)
    | None => Raise TypeError
    end.

  (** ** sql_reader.py 234-354 [SqlReader] *)
  (** Reader (select, dataset, filters): the records; an expression as a filter; the Decimal of an average; the hash
      functions *)
  Context (reader : str -> str -> option str -> result (list record)) (where_ : str -> list record -> result (list record))
          (quotient : Z -> Z -> value) (hash : str -> Z) (xxh : str -> N).

  (** 255-259 *)
  Definition actual_select (e : str) : str := if str_eqb e $"*" then e else e ++ $", *".

  Definition func_of (name : str) : option func :=
    find (fun f => str_eqb (func_name f) name) [SUM; MAX; MIN; COUNT; AVG].
  (** the name of an aggregation: of those with a name only SUM, MAX, MIN, COUNT and AVG can be computed *)
  Definition aggregation_of (i : item) : result (list (func * str)) :=
    match i with
    | Item AGGREGATOR v ps _ =>
        match ps with
        | [] => Raise IndexError
        | p :: _ => match func_of v with Some f => Ok [(f, item_value p)] | None => Raise KeyError end
        end
    | _ => Ok []
    end.

  (** 284-314: GROUP BY.  [Cell]s are the values, [Quotient]s the Decimals.  Simplification: of several wrong entries the
      first one is reported by the code, here those which can't be computed come first. *)
  Definition cell_value (c : cell) : value := match c with Cell v => v | Quotient n d => quotient n d end.
  Definition group_rows (st : statement) (items : list item) (rows : list record) : result (list record) :=
    let grouping := match group_by st with Some (_ :: _) => true | _ => false end in
    if grouping || existsb (fun i => ttype_beq (item_type i) AGGREGATOR) items then
      let columns := match group_by st with
                     | Some ((_ :: _) as g) => filter (fun x => negb (str_eqb x [])) (map strip (split "," g))
                     | _ => [$"*"]
                     end in
      let* aggs := mapM aggregation_of items in
      if existsb (fun i => ttype_beq (item_type i) VARIABLE && negb (str_mem (item_value i) columns)) items
      then Raise InvalidSqlError
      else match concat aggs with
           | [] => groups xxh columns rows
           | requested => let* out := aggregate xxh columns requested rows in
                          Ok (map (map (fun kc => (fst kc, cell_value (snd kc)))) out)
           end
    else Ok rows.

  (** 321-334: the names after AS *)
  Definition renames_of (items : list item) : list (str * str) :=
    fold_left (fun d i => match item_alias i with
                          | Some ((_ :: _) as a) => dset str_eqb (get_function_name i) a d
                          | _ => d
                          end) items [].
  Definition rename_one (renames : list (str * str)) (row : record) (k : str) : record :=
    match dget str_eqb k renames with
    | None => row
    | Some n =>
        match dget str_eqb k row with
        | Some v => dset str_eqb n v (filter (fun kv => negb (str_eqb (fst kv) k)) row)
        | None => dset str_eqb n (rget n row) row
        end
    end.
  Definition perform_renames (renames : list (str * str)) (row : record) : record :=
    fold_left (rename_one renames) (dkeys row) row.

  (** 282-354: what is done with the records of FROM.  Simplification: these are generators read by the caller, here they
      are read to the end. *)
  Definition sql_rows (in_memory : bool) (st : statement) (items : list item) (rows : list record) : result (list record) :=
    let* rows := group_rows st items rows in
    let* rows := match having st with Some ((_ :: _) as h) => where_ h rows | _ => Ok rows end in
    let rows := match renames_of items with [] => rows | rs => map (perform_renames rs) rows end in
    let rows := select (get_fields items) rows in
    let rows := if distinct_rows st then distinct hash [] rows else rows in
    let* rows := match order_by st with
                 | Some ((_ :: _) as column) =>
                     let n := match limit st with Some n => if (n =? 0)%Z then 10000%Z else n | None => 10000%Z end in
                     sort_and_take in_memory column n (order_descending st) rows
                 | _ => Ok rows
                 end in
    Ok (match limit st with Some n => if (n =? 0)%Z then rows else take n rows | None => rows end).

  Fixpoint sql_reader (fuel : nat) (in_memory : bool) (s : str) : result (list record) :=
    match fuel with
    | O => Raise OutOfFuel
    | S f =>
        let* (st, items) := sql_parser fuel s in
        let* rows := match from st, select_expression st with
                     | Some (Query q), _ => sql_reader f in_memory (concat q)
                     | Some (Name d), Some e => reader (actual_select e) d (where_expression st)
                     | _, _ => Raise InvalidSqlError
                     end in
        sql_rows in_memory st items rows
    end.
End Parser.
