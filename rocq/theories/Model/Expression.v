(** mabel/data/internals/expression.py: filter expressions as text. *)
From Verif.Base Require Import Py Value.
From Verif.Model Require Import Dates Filters Tokens.

(** expression.py 29-37 [TreeNode]: a value (INTEGER, FLOAT, LITERAL, BOOLEAN, NULL, DATE), a column (VARIABLE), an
    operator, NOT, AND, OR; [TBareNot] is a NOT without anything below it (a NOT where a value is expected) *)
Inductive tree :=
| TLeaf (ty : ttype) (v : value)
| TVar (name : str)
| TBareNot
| TOp (op : str) (l r : tree)
| TNot (l : tree)
| TAnd (l r : tree)
| TOr (l r : tree).

Section Expression.
  Context (float_of date_of : str -> option value).
  (** [x is y]: object identity; [matches]: a regular expression search.  Not modelled. *)
  Context (py_is : value -> value -> bool) (matches : value -> value -> result bool).

  Notation label := (get_token_type float_of date_of).
  Notation has_label ty tok := (ttype_beq (label tok) ty).

  (** expression.py 191-209 [interpret_value] *)
  Definition interpret_value (v : value) : value :=
    match v with
    | VStr s =>
        if str_mem (upper s) [$"TRUE"; $"FALSE"] then VBool (str_eqb (upper s) $"TRUE")
        else match py_int s with
             | Ok n => VInt n
             | Raise _ =>
                 match float_of s with
                 | Some f => f
                 | None => match date_of s with Some d => d | None => v end
                 end
             end
    | _ => v
    end.

  (** expression.py 172-187: the tokens of a list, up to the closing parenthesis.  [self.tokenizer.next_token_type()]
      after the last token is an IndexError. *)
  Fixpoint parse_list (acc : list value) (ts : list str) : result (list value * list str) :=
    match ts with
    | [] => Raise IndexError
    | tok :: ts' =>
        if has_label RIGHTPAREN tok then Ok (acc, ts')
        else if has_label COMMA tok then parse_list acc ts'
        else parse_list (acc ++ [interpret_value (VStr tok)]) ts'
    end.

  (** expression.py 147-189 [parse_terminal].  The message of the exception at the end takes the next token: after
      the last one that is an IndexError.  The token of a NULL is not taken. *)
  Definition parse_terminal (ts : list str) : result (tree * list str) :=
    match ts with
    | [] => Raise IndexError
    | tok :: ts' =>
        match label tok with
        | INTEGER => let* n := py_int tok in Ok (TLeaf INTEGER (VInt n), ts')
        | FLOAT => match float_of tok with Some f => Ok (TLeaf FLOAT f, ts') | None => Raise ValueError end
        | VARIABLE => Ok (TVar tok, ts')
        | NOT => Ok (TBareNot, ts')
        | LITERAL => Ok (TLeaf LITERAL (VStr (unquoted tok)), ts')
        | BOOLEAN => Ok (TLeaf BOOLEAN (VBool (str_eqb (lower tok) $"true")), ts')
        | NULL => Ok (TLeaf NULL VNull, ts)
        | DATE => Ok (TLeaf DATE (match date_of (unquoted tok) with Some d => d | None => VNull end), ts')
        | LEFTPAREN => let* (l, rest) := parse_list [] ts' in Ok (TLeaf LITERAL (VList l), rest)
        | _ => Raise InvalidExpression
        end
    end.

  (** expression.py 101-116: the text of a function call, up to the parenthesis that closes it *)
  Fixpoint collect_call (open : nat) (acc : str) (ts : list str) : result (str * list str) :=
    match ts with
    | [] => Raise InvalidExpression
    | tok :: ts' =>
        if has_label RIGHTPAREN tok then
          match open with
          | S O | O => Ok (acc ++ tok, ts')
          | S n => collect_call n (acc ++ tok) ts'
          end
        else if has_label LEFTPAREN tok then collect_call (S open) (acc ++ tok) ts'
        else collect_call open (acc ++ tok) ts'
    end.

  (** expression.py 84-116: [terminal1] when the condition starts with a function or an aggregation.
      [self.tokenizer.has_next] is not called: a function as the last token is an IndexError. *)
  Definition parse_call (ts : list str) : result (option tree * list str) :=
    match ts with
    | tok :: ts' =>
        if has_label FUNCTION tok || has_label AGGREGATOR tok then
          match ts' with
          | [] => Raise IndexError
          | tok2 :: ts'' =>
              if has_label LEFTPAREN tok2 then
                let* (text, rest) := collect_call 1 (tok ++ $"(") ts'' in Ok (Some (TVar text), rest)
              else Raise InvalidExpression
          end
        else Ok (None, ts)
    | [] => Ok (None, ts)
    end.

  (** expression.py 131-145: the end of [parse_condition] *)
  Definition parse_comparison (terminal1 : option tree) (ts : list str) : result (tree * list str) :=
    let* (t1, ts1) := match terminal1 with Some t => Ok (t, ts) | None => parse_terminal ts end in
    match ts1 with
    | [] => Raise InvalidExpression
    | tok :: ts2 =>
        if has_label OPERATOR tok then
          let* (t2, ts3) := parse_terminal ts2 in Ok (TOp (upper tok) t1 t2, ts3)
        else Raise InvalidExpression
    end.

  (** expression.py 51-60 [parse_expression], 62-71 [parse_and_term], 73-145 [parse_condition] and their loops.
      The functions return the tokens they leave.  [fuel] bounds the calls: see [parse]. *)
  Fixpoint parse_expression (fuel : nat) (ts : list str) : result (tree * list str) :=
    match fuel with
    | O => Raise OutOfFuel
    | S f => let* (t, ts1) := parse_and_term f ts in or_loop f t ts1
    end
  with or_loop (fuel : nat) (t : tree) (ts : list str) : result (tree * list str) :=
    match fuel with
    | O => Raise OutOfFuel
    | S f =>
        match ts with
        | tok :: ts1 =>
            if has_label OR tok then let* (u, ts2) := parse_and_term f ts1 in or_loop f (TOr t u) ts2
            else Ok (t, ts)
        | [] => Ok (t, ts)
        end
    end
  with parse_and_term (fuel : nat) (ts : list str) : result (tree * list str) :=
    match fuel with
    | O => Raise OutOfFuel
    | S f => let* (t, ts1) := parse_condition f ts in and_loop f t ts1
    end
  with and_loop (fuel : nat) (t : tree) (ts : list str) : result (tree * list str) :=
    match fuel with
    | O => Raise OutOfFuel
    | S f =>
        match ts with
        | tok :: ts1 =>
            if has_label AND tok then let* (u, ts2) := parse_condition f ts1 in and_loop f (TAnd t u) ts2
            else Ok (t, ts)
        | [] => Ok (t, ts)
        end
    end
  with parse_condition (fuel : nat) (ts : list str) : result (tree * list str) :=
    match fuel with
    | O => Raise OutOfFuel
    | S f =>
        if match ts with tok :: _ => has_label NOT tok | [] => false end then
          let* (t, rest) := parse_condition f (tl ts) in Ok (TNot t, rest)
        else
        let* (terminal1, ts1) := parse_call ts in
        if match ts1 with tok :: _ => has_label LEFTPAREN tok | [] => false end then
          let* (t, ts2) := parse_expression f (tl ts1) in
          match ts2 with
          | tok :: ts3 => if has_label RIGHTPAREN tok then Ok (t, ts3) else Raise InvalidExpression
          | [] => Raise IndexError
          end
        else parse_comparison terminal1 ts1
    end.

  (** expression.py 48-49 [parse]: the tokens left at the end are not looked at.  This much fuel is always enough
      (Props/Expression.v). *)
  Definition parse (ts : list str) : result tree :=
    let* (t, _) := parse_expression (4 * length ts + 4) ts in Ok t.

  (** expression.py 44-46 [__init__] *)
  Definition init_expression (exp : str) : result tree := parse (tokenize float_of date_of exp).

  (** token_labeler.py 61-77 OPERATORS *)
  Definition apply_operator (op : str) (x y : value) : result bool :=
    if str_eqb op $"<>" then Ok (negb (py_eq x y))
    else if str_eqb op $">=" then py_le y x
    else if str_eqb op $"<=" then py_le x y
    else if str_eqb op $">" then py_lt y x
    else if str_eqb op $"<" then py_lt x y
    else if str_eqb op $"==" then Ok (py_eq x y)
    else if str_eqb op $"!=" then Ok (negb (py_eq x y))
    else if str_eqb op $"=" then Ok (py_eq x y)
    else if str_eqb op $"IS NOT" then Ok (negb (py_is x y))
    else if str_eqb op $"IS" then Ok (py_is x y)
    else if str_eqb op $"NOT LIKE" then not_like_values x y
    else if str_eqb op $"LIKE" then like_values x y
    else if str_eqb op $"MATCHES" then matches x y
    else if str_eqb op $"IN" then function_in float_of date_of x y
    else if str_eqb op $"CONTAINS" then function_contains x y
    else Raise KeyError.

  (** expression.py 217-252 [evaluate_recursive].  Simplification: the back quotes around a name are taken off at
      every evaluation here; the code keeps the name without them, so that a name inside two pairs loses one pair
      with each record.  [None.token_type] below a NOT without anything below it is an AttributeError. *)
  Fixpoint evaluate_recursive (t : tree) (r : record) : result value :=
    match t with
    | TLeaf _ v => Ok v
    | TVar name =>
        let name := if wrapped "`" name then unquoted name else name in
        Ok (match dget str_eqb name r with Some v => interpret_value v | None => VNull end)
    | TBareNot => Raise AttributeError
    | TNot l => let* v := evaluate_recursive l r in Ok (VBool (negb (truthy v)))
    | TOp op a b =>
        let* x := evaluate_recursive a r in
        let* y := evaluate_recursive b r in
        match apply_operator op x y with
        | Ok v => Ok (VBool v)
        | Raise TypeError | Raise ValueError => Ok VNull
        | Raise e => Raise e
        end
    | TAnd a b =>
        let* x := evaluate_recursive a r in
        let* y := evaluate_recursive b r in
        Ok (if truthy x then y else x)
    | TOr a b =>
        let* x := evaluate_recursive a r in
        let* y := evaluate_recursive b r in
        Ok (if truthy x then x else y)
    end.

  (** mabel/data/internals/dictset.py 415-427: [DictSet.filter] with a text.  Simplification: the records before an
      exception are not kept. *)
  Definition filter_where (exp : str) (rows : list record) : result (list record) :=
    let* q := init_expression exp in
    filterM (fun r => let* v := evaluate_recursive q r in Ok (truthy v)) rows.
End Expression.
