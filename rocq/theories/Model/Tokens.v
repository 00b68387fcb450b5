(** mabel/utils/token_labeler.py: the tokens of filter expressions and SQL. *)
From Verif.Base Require Import Py Value.
From Verif.Model Require Import Dates Filters.

(** mabel/data/readers/internals/inline_functions.py 192-234 FUNCTIONS: the names, in order *)
Definition function_names : list str :=
  [$"YEAR"; $"MONTH"; $"DAY"; $"DATE"; $"QUARTER"; $"WEEK"; $"HOUR"; $"MINUTE"; $"SECOND"; $"TIME"; $"NOW";
   $"ADDDAYS"; $"DAYSDIFF"; $"UCASE"; $"UPPER"; $"LCASE"; $"LOWER"; $"TRIM"; $"LEN"; $"STRING"; $"LEFT"; $"RIGHT";
   $"MID"; $"CONCAT"; $"ROUND"; $"TRUNC"; $"INTEGER"; $"DOUBLE"; $"BOOLEAN"; $"ISNONE"; $"HASH"; $"MD5"; $"RANDOM";
   $"BETWEEN"; $"SORT"].

(** mabel/data/internals/group_by.py AGGREGATORS: the names, in order *)
Definition aggregator_names : list str := [$"SUM"; $"MAX"; $"MIN"; $"COUNT"; $"AVG"].

(** token_labeler.py 61-77 OPERATORS: the names, in order *)
Definition operator_names : list str :=
  [$"<>"; $">="; $"<="; $">"; $"<"; $"=="; $"!="; $"="; $"IS NOT"; $"IS"; $"NOT LIKE"; $"LIKE"; $"MATCHES"; $"IN";
   $"CONTAINS"].

(** token_labeler.py 80-102 TOKENS; SUBQUERY and LIST are never given to a token *)
Inductive ttype :=
  UNKNOWN | INTEGER | FLOAT | LITERAL | VARIABLE | BOOLEAN | DATE | NULL | LEFTPAREN | RIGHTPAREN | COMMA
| FUNCTION | AGGREGATOR | AS | EVERYTHING | OPERATOR | AND | OR | NOT | EMPTY.
Scheme Equality for ttype.

(** [s[0] == s[-1] == q] *)
Definition wrapped (q : ascii) (s : str) : bool :=
  match s, rev s with a :: _, z :: _ => Ascii.eqb a q && Ascii.eqb z q | _, _ => false end.

(** [s[1:-1]] *)
Definition unquoted (s : str) : str := removelast (tl s).

Section Labels.
  (** [float(s)] when it doesn't raise; [parse_iso] as a value, when it isn't None.  Both are behaviours of other
      code: [parse_iso] is in Model/Dates.v, a datetime is never false. *)
  Context (float_of date_of : str -> option value).

  (** token_labeler.py 106-172 [get_token_type].  Simplification: the cache ([lru_cache]) is left out, letters are
      ASCII letters; [re.search(r"^[^\d\W][\w\-\.]*", token)] asks only for the first character to be a letter or
      an underscore. *)
  Definition starts_word (s : str) : bool :=
    match s with c :: _ => is_alpha c || Ascii.eqb c "_" | [] => false end.
  Definition get_token_type (tok : str) : ttype :=
    let token := strip tok in
    let token_upper := upper token in
    if Nat.eqb (length token) 0 then EMPTY
    else if wrapped "`" token then VARIABLE
    else if str_eqb token $"*" then EVERYTHING
    else if str_mem token_upper function_names then FUNCTION
    else if str_mem token_upper operator_names then OPERATOR
    else if str_mem token_upper aggregator_names then AGGREGATOR
    else if wrapped """" token || wrapped "'" token then
      match date_of (unquoted token) with Some _ => DATE | None => LITERAL end
    else match py_int token with
    | Ok _ => INTEGER
    | Raise _ =>
    match float_of token with
    | Some _ => FLOAT
    | None =>
    if str_mem token [$"("; $"["] then LEFTPAREN
    else if str_mem token [$")"; $"]"] then RIGHTPAREN
    else if str_eqb token $"," then COMMA
    else if starts_word token then
      if str_mem token_upper [$"TRUE"; $"FALSE"] then BOOLEAN
      else if str_mem token_upper [$"NULL"; $"NONE"] then NULL
      else if str_eqb token_upper $"AND" then AND
      else if str_eqb token_upper $"OR" then OR
      else if str_eqb token_upper $"NOT" then NOT
      else if str_eqb token_upper $"AS" then AS
      else VARIABLE
    else UNKNOWN
    end end.

  (** token_labeler.py 27-46 [interpret_value] *)
  Definition interpret_quoted (v : value) : value :=
    match v with
    | VStr s =>
        if str_mem (upper s) [$"TRUE"; $"FALSE"] then VBool (str_eqb (upper s) $"TRUE")
        else match py_int s with
             | Ok n => VInt n
             | Raise _ =>
                 match float_of s with
                 | Some f => f
                 | None => match date_of (unquoted s) with Some d => d | None => VStr (unquoted s) end
                 end
             end
    | _ => v
    end.

  (** token_labeler.py 49-52 [function_in] *)
  Definition function_in (x y : value) : result bool :=
    match y with
    | VList l =>
        Ok (existsb (py_eq x)
              (map interpret_quoted (filter (fun i => negb (str_eqb (strip (py_str i)) $",")) l)))
    | VStr s =>
        Ok (existsb (py_eq x)
              (map interpret_quoted (filter (fun i => negb (str_eqb (strip (py_str i)) $",")) (map (fun c => VStr [c]) s))))
    | VDict d =>
        Ok (existsb (py_eq x)
              (map interpret_quoted (filter (fun i => negb (str_eqb (strip (py_str i)) $",")) (map (fun e => VStr (fst e)) d))))
    | _ => Raise TypeError
    end.

  (** token_labeler.py 55-56 [function_contains] *)
  Definition function_contains (x y : value) : result bool := py_in y x.

  (** ** The splitter *)
  Definition is_word (c : ascii) : bool := is_alpha c || is_digit c || Ascii.eqb c "_".

  (** A part of the splitter's expression: the text, and whether [\b] stands at both ends *)
  Definition words_part : list str -> list (str * bool) := map (fun w => (w, true)).
  Definition symbols_part : list str -> list (str * bool) := map (fun w => (w, false)).

  (** token_labeler.py 176-210 [build_splitter].  [\s] in [GROUP\sBY] is a space here: the text has no other white
      space ([clean_statement]). *)
  Definition keywords : list (str * bool) :=
    words_part function_names ++ words_part aggregator_names ++
    map (fun op => (op, forallb (fun c => is_alpha c || Ascii.eqb c " ") op)) operator_names ++
    words_part [$"AND"; $"OR"; $"NOT"; $"SELECT"; $"FROM"; $"WHERE"; $"LIMIT"; $"GROUP BY"; $"ORDER BY"; $"DISTINCT";
                $"ASC"; $"DESC"; $"IN"] ++
    symbols_part [$"("; $")"; $"["; $"]"; $","; $"*"].

  (** Whether a part of the expression matches at the beginning of [s], [prev] being the character before it.  The
      texts begin and end with a letter when [\b] stands there. *)
  Definition not_word_at_end (prev : option ascii) : bool :=
    match prev with Some c => negb (is_word c) | None => true end.
  Definition keyword_matches (prev : option ascii) (s : str) (k : str * bool) : bool :=
    str_eqb (upper (firstn (length (fst k)) s)) (fst k) &&
    (negb (snd k) ||
     (not_word_at_end prev && not_word_at_end (hd_error (skipn (length (fst k)) s)))).

  (** the first part of the expression that matches: its length *)
  Definition keyword_at (prev : option ascii) (s : str) : option nat :=
    option_map (fun k => length (fst k)) (find (keyword_matches prev s) keywords).

  (** [splitter.split(s)]: the texts between the matches and the matches themselves.  [skip] counts the characters
      of a match already given. *)
  Fixpoint splitter_split (skip : nat) (prev : option ascii) (cur : str) (s : str) : list str :=
    match s with
    | [] => [rev cur]
    | c :: s' =>
        match skip with
        | S k => splitter_split k (Some c) cur s'
        | O =>
            match keyword_at prev s with
            | Some n => rev cur :: firstn n s :: splitter_split (Nat.pred n) (Some c) [] s'
            | None => splitter_split 0 (Some c) (c :: cur) s'
            end
        end
    end.

  (** token_labeler.py 303-308 [clean_statement] *)
  Fixpoint squash (after_space : bool) (s : str) : str :=
    match s with
    | [] => []
    | c :: s' => if is_space c then (if after_space then squash true s' else " "%char :: squash true s')
                 else c :: squash false s'
    end.
  Definition clean_statement (s : str) : str := strip (squash false s).

  Definition is_quote (c : ascii) : bool := mem Ascii.eqb c [""""%char; "'"%char; "`"%char].

  (** token_labeler.py 239-290 [_fix_special_chars].  A token left unfinished at the end is dropped; the exception
      at its end can't be reached. *)
  Fixpoint fix_special_chars (builder : str) (looking : option ascii) (tokens : list str) : list str :=
    match tokens with
    | [] => []
    | token :: rest =>
        let stripped := strip token in
        match stripped, rev stripped with
        | first :: _, last :: _ =>
            if match looking with None => negb (is_quote first) | Some _ => false end
            then token :: fix_special_chars builder looking rest
            else if is_quote first && Ascii.eqb last first && Nat.ltb 1 (length stripped)
            then token :: fix_special_chars builder looking rest
            else if match looking with Some q => Ascii.eqb last q | None => false end
            then (builder ++ token) :: fix_special_chars [] None rest
            else if is_quote first
            then fix_special_chars token (Some first) rest
            else fix_special_chars (builder ++ token) looking rest
        | _, _ => fix_special_chars builder looking rest
        end
    end.

  (** token_labeler.py 292-301 [_case_correction] *)
  Definition case_correction (token : str) : str :=
    match get_token_type token with LITERAL | VARIABLE => token | _ => upper token end.

  (** token_labeler.py 310-317 [tokenize] *)
  Definition tokenize (expression : str) : list str :=
    let tokens := splitter_split 0 None [] (clean_statement expression) in
    let tokens := fix_special_chars [] None tokens in
    let tokens := filter (fun t => negb (Nat.eqb (length t) 0)) (map strip tokens) in
    map case_correction tokens.
End Labels.
