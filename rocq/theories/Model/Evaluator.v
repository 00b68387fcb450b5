(** mabel/data/readers/internals/inline_evaluator.py: select lists.
    mabel/data/readers/internals/inline_functions.py: some of the functions. *)
From Verif.Base Require Import Py Value.
From Verif.Model Require Import Dates Tokens Splitter DictSet.

(** inline_evaluator.py 197-212: the dictionary made of a token, with the "parameters" and the "as" that [build]
    fills in *)
Inductive item := Item (ty : ttype) (val : str) (parameters : list item) (alias : option str).
Definition item_type (i : item) : ttype := match i with Item ty _ _ _ => ty end.
Definition item_value (i : item) : str := match i with Item _ v _ _ => v end.
Definition item_alias (i : item) : option str := match i with Item _ _ _ a => a end.

Definition is_call (ty : ttype) : bool := ttype_beq ty FUNCTION || ttype_beq ty AGGREGATOR.

(** inline_evaluator.py 37-55 [get_function_name]; its [_inner] gives the same name to every parameter *)
Fixpoint get_function_name (i : item) : str :=
  match i with
  | Item ty v ps _ =>
      if is_call ty then v ++ $"(" ++ join $"," (map get_function_name ps) ++ $")" else v
  end.

(** inline_evaluator.py 58-81 [get_fields] *)
Definition field_of (i : item) : list str :=
  match item_type i with
  | EVERYTHING => [$"*"]
  | FUNCTION | AGGREGATOR | VARIABLE | INTEGER | LITERAL | DATE | FLOAT =>
      [match item_alias i with Some ((_ :: _) as a) => a | _ => get_function_name i end]
  | _ => []
  end.
Definition get_fields (items : list item) : list str := flat_map field_of items.

(** the expression of line 232 *)
Definition select_parts : list (str * bool) := [($"(", false); ($")", false); ($",", false); ($"AS", true)].

Section Evaluator.
  Context (float_of date_of : str -> option value).
  Notation label := (get_token_type float_of date_of).
  Notation has_label ty tok := (ttype_beq (label tok) ty).

  (** inline_evaluator.py 232-233: the tokens of a select list *)
  Definition select_tokens (proforma : str) : list str :=
    filter (fun t => negb (str_mem t [[]; $","])) (map strip (cut select_parts 0 None [] proforma)).

  (** inline_evaluator.py 100-119: the tokens up to the parenthesis that closes a call *)
  Fixpoint call_tokens (open_parentheses : nat) (ts : list str) : result (list str * list str) :=
    match ts with
    | [] => Raise InvalidEvaluator
    | tok :: rest =>
        if has_label RIGHTPAREN tok then
          match open_parentheses with
          | S (S n) => let* (inner, rest') := call_tokens (S n) rest in Ok (tok :: inner, rest')
          | _ => Ok ([], rest)
          end
        else
          let* (inner, rest') :=
            call_tokens (if has_label LEFTPAREN tok then S open_parentheses else open_parentheses) rest in
          Ok (tok :: inner, rest')
    end.

  (** inline_evaluator.py 123-128 *)
  Definition take_alias (ts : list str) : result (option str * list str) :=
    match ts with
    | tok :: rest =>
        if has_label AS tok then
          match rest with
          | [] => Raise InvalidEvaluator
          | name :: rest' => Ok (Some name, rest')
          end
        else Ok (None, ts)
    | [] => Ok (None, ts)
    end.

  (** inline_evaluator.py 84-131 [build].  [ts.token()] after the last token is an IndexError.  [fuel] bounds the
      steps; as many as there are tokens are enough (Props/Evaluator.v). *)
  Fixpoint build (fuel : nat) (ts : list str) : result (list item) :=
    match ts with
    | [] => Ok []
    | tok :: rest =>
        match fuel with
        | O => Raise OutOfFuel
        | S f =>
            let* (val, parameters, rest) :=
              (if is_call (label tok) then
                 match rest with
                 | [] => Raise IndexError
                 | open :: rest =>
                     if has_label LEFTPAREN open then
                       let* (inner, rest) := call_tokens 1 rest in
                       let* ps := build f inner in
                       Ok (upper tok, ps, rest)
                     else Raise InvalidEvaluator
                 end
               else Ok (tok, [], rest)) in
            let* (alias, rest) := take_alias rest in
            let* more := build f rest in
            Ok (Item (label tok) val parameters alias :: more)
        end
    end.

  (** inline_evaluator.py 231-235 *)
  Definition new_evaluator (proforma : str) : result (list item) :=
    let ts := select_tokens proforma in build (length ts) ts.

  (** FUNCTIONS (inline_functions.py 192-234): what a function makes of its arguments *)
  Context (apply : str -> list value -> result value).

  (** inline_evaluator.py 134-194 [evaluate_field], the value.  Simplification: [token["as"]] is set to the label of a
      function by its first evaluation; this changes no later label. *)
  Fixpoint field_value (r : record) (i : item) : result value :=
    match i with
    | Item ty v ps _ =>
        match ty with
        | EVERYTHING => Ok (VStr $"*")
        | VARIABLE => Ok (rget (if wrapped "`" v then unquoted v else v) r)
        | FUNCTION =>
            let* args := (fix values (ps : list item) : result (list value) :=
                            match ps with
                            | [] => Ok []
                            | p :: ps' => let* x := field_value r p in let* xs := values ps' in Ok (x :: xs)
                            end) ps in
            apply (upper v) args
        | FLOAT => match float_of v with Some f => Ok f | None => Raise ValueError end
        | INTEGER => let* n := py_int v in Ok (VInt n)
        | LITERAL => Ok (VStr (unquoted v))
        | DATE => Ok (match date_of (unquoted v) with Some d => d | None => VNull end)
        | BOOLEAN => Ok (VBool (str_eqb (upper v) $"TRUE"))
        | _ => Ok VNull
        end
    end.

  (** ... the label (135, 142, 147-153, ...): only functions look at their alias *)
  Definition field_label (i : item) : str :=
    match item_type i with
    | EVERYTHING => $"*"
    | FUNCTION => hd [] (field_of i)
    | _ => item_value i
    end.

  (** inline_evaluator.py 237-247 [__call__] *)
  Definition evaluate (items : list item) (r : record) : result record :=
    let builder := if existsb (fun i => ttype_beq (item_type i) EVERYTHING) items then r else [] in
    fold_left (fun acc i => let* b := acc in
                            let* v := field_value r i in
                            Ok (dset str_eqb (field_label i) v b)) items (Ok builder).
End Evaluator.

(** ** Functions of inline_functions.py *)

(** [s[-n:]] *)
Definition last_n (s : str) (n : Z) : str :=
  if (n =? 0)%Z then s                                    (* s[-0:] is s[0:] *)
  else if (0 <? n)%Z then skipn (length s - Z.to_nat n) s
  else skipn (Z.to_nat (- n)) s.
(** [s[n:]] *)
Definition from_n (s : str) (n : Z) : str :=
  if (n <? 0)%Z then skipn (length s - Z.to_nat (- n)) s else skipn (Z.to_nat n) s.

(** [int(v)] *)
Definition to_int (v : value) : result Z :=
  match v with
  | VInt z => Ok z
  | VBool b => Ok (if b then 1 else 0)%Z
  | VStr s => py_int s
  | _ => Raise TypeError
  end.

(** inline_functions.py 134-142 [concat] *)
Definition fn_concat (items : list value) : value :=
  match items with
  | [VList l] => VStr (join $", " (map py_str l))
  | _ => VStr (concat (map py_str items))
  end.

Section Functions.
  (** orjson.dumps of a dictionary; the functions of dates, numbers and hashes *)
  Context (dumps : record -> str) (other : str -> list value -> result value).

  (** inline_functions.py 145-153 [to_string] *)
  Definition fn_string (v : value) : value :=
    match v with
    | VList _ => fn_concat [v]
    | VDict d => VStr ($"\" ++ dumps d ++ $"\")
    | _ => VStr (py_str v)
    end.

  (** [len] *)
  Definition fn_len (v : value) : result value :=
    match v with
    | VStr s => Ok (VInt (Z.of_nat (length s)))
    | VList l => Ok (VInt (Z.of_nat (length l)))
    | VDict d => Ok (VInt (Z.of_nat (length d)))
    | _ => Raise TypeError
    end.

  (** inline_functions.py 192-234 FUNCTIONS: the functions of texts, booleans and BETWEEN and SORT.  Another number of
      arguments is a TypeError. *)
  Definition functions (name : str) (args : list value) : result value :=
    if str_mem name [$"UCASE"; $"UPPER"] then
      match args with [x] => Ok (VStr (upper (py_str x))) | _ => Raise TypeError end
    else if str_mem name [$"LCASE"; $"LOWER"] then
      match args with [x] => Ok (VStr (lower (py_str x))) | _ => Raise TypeError end
    else if str_eqb name $"TRIM" then
      match args with [x] => Ok (VStr (strip (py_str x))) | _ => Raise TypeError end
    else if str_eqb name $"LEN" then
      match args with [x] => fn_len x | _ => Raise TypeError end
    else if str_eqb name $"STRING" then
      match args with [x] => Ok (fn_string x) | _ => Raise TypeError end
    else if str_eqb name $"LEFT" then
      match args with [x; y] => let* n := to_int y in Ok (VStr (slice_to (py_str x) n)) | _ => Raise TypeError end
    else if str_eqb name $"RIGHT" then
      match args with [x; y] => let* n := to_int y in Ok (VStr (last_n (py_str x) n)) | _ => Raise TypeError end
    else if str_eqb name $"MID" then
      match args with
      | [x; y; z] => let* n := to_int y in let* m := to_int z in Ok (VStr (slice_to (from_n (py_str x) n) m))
      | _ => Raise TypeError
      end
    else if str_eqb name $"CONCAT" then Ok (fn_concat args)
    else if str_eqb name $"BOOLEAN" then
      match args with [x] => Ok (VBool (negb (str_eqb (upper (py_str x)) $"FALSE"))) | _ => Raise TypeError end
    else if str_eqb name $"ISNONE" then
      match args with [x] => Ok (VBool (is_none x)) | _ => Raise TypeError end
    else if str_eqb name $"BETWEEN" then
      match args with
      | [x; low; high] => let* a := py_lt low x in if a then let* b := py_lt x high in Ok (VBool b) else Ok (VBool false)
      | _ => Raise TypeError
      end
    else if str_eqb name $"SORT" then
      match args with
      | [VList l] => let* s := sort_by py_lt false l in Ok (VList s)
      | [VStr s] => Ok (VList (map (fun c => VStr [c]) (isort (fun a b => (N_of_ascii a <=? N_of_ascii b)%N) s)))
      | [VDict d] => Ok (VList (map VStr (sorted_str (map fst d))))
      | _ => Raise TypeError
      end
    else if str_mem name function_names then other name args
    else Raise KeyError.
End Functions.
