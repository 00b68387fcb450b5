(** What a select list is, how it is written and what it means. *)
From Verif.Base Require Import Py Value.
From Verif.Model Require Import Tokens.                 (* ttype *)
From Verif.Spec Require Import Tokens Expression.       (* words, functions, aggregations; names_column *)

(** an expression: one word (a column, a number, a quoted text, a star), or a function with its arguments *)
Inductive expr :=
| Atom (text : str)
| Call (f : str) (args : list expr).

Definition blanks (s : str) : Prop := forall c, In c s -> is_space c = true.
(** not empty, and no white space at its ends *)
Definition trimmed (s : str) : Prop := s <> [] /\ strip s = s.
(** a text without parentheses, commas and the word AS *)
Definition uncut (s : str) : Prop :=
  (forall c, In c s -> ~ In c $"(),") /\ (forall w, In w (words s) -> upper w <> $"AS").

Section Written.
  (** the kind of a word *)
  Context (label : str -> ttype).
  Definition value_kind (ty : ttype) : Prop :=
    In ty [VARIABLE; INTEGER; FLOAT; LITERAL; DATE; BOOLEAN; NULL; EVERYTHING].
  Definition good_atom (w : str) : Prop := trimmed w /\ uncut w /\ value_kind (label w).

  (** [written e s]: the text s is a way to write e.  White space may be added anywhere, functions are written in
      any case *)
  Inductive written : expr -> str -> Prop :=
  | written_atom w a b : good_atom w -> blanks a -> blanks b -> written (Atom w) (a ++ w ++ b)
  | written_call f args s a b c : In (upper f) (functions ++ aggregations) -> blanks a -> blanks b -> blanks c ->
      written_args args s -> written (Call f args) (a ++ f ++ b ++ $"(" ++ s ++ $")" ++ c)
  with written_args : list expr -> str -> Prop :=
  | args_none a : blanks a -> written_args [] a
  | args_one e s : written e s -> written_args [e] s
  | args_more e s es s' : written e s -> es <> [] -> written_args es s' -> written_args (e :: es) (s ++ $"," ++ s').

  (** an entry of the list, maybe with another name: e AS name *)
  Inductive written_entry : expr * option str -> str -> Prop :=
  | entry_plain e s : written e s -> written_entry (e, None) s
  | entry_as e s w a name b : written e s -> (exists s' c, s = s' ++ [c] /\ ~ word_char c) ->
      upper w = $"AS" -> blanks a -> a <> [] -> blanks b -> trimmed name -> uncut name ->
      written_entry (e, Some name) (s ++ w ++ a ++ name ++ b).
  Inductive written_list : list (expr * option str) -> str -> Prop :=
  | list_one x s : written_entry x s -> written_list [x] s
  | list_more x s xs s' : written_entry x s -> written_list xs s' -> written_list (x :: xs) (s ++ $"," ++ s').

  (** the text of an expression in the result: functions in upper case, no white space *)
  Fixpoint plain_text (e : expr) : str :=
    match e with
    | Atom w => w
    | Call f args => upper f ++ $"(" ++ join $"," (map plain_text args) ++ $")"
    end.

  (** the columns a list asks for: the name after AS, or the text *)
  Definition asked_name (x : expr * option str) : str :=
    match snd x with Some name => name | None => plain_text (fst x) end.
  (** the columns of the evaluated record: AS counts for functions only *)
  Definition given_name (x : expr * option str) : str :=
    match fst x with Atom w => w | Call _ _ => asked_name x end.
End Written.

Section Meaning.
  Context (label : str -> ttype) (float_of date_of : str -> option value).
  (** what a function gives for some arguments *)
  Context (apply : str -> list value -> result value).

  (** the value of an expression for a record: that of a call is the function's for the values of the arguments *)
  Inductive means (r : record) : expr -> value -> Prop :=
  | means_column w n v : label w = VARIABLE -> names_column w n -> In (n, v) r -> means r (Atom w) v
  | means_missing w n : label w = VARIABLE -> names_column w n -> ~ In n (map fst r) -> means r (Atom w) VNull
  | means_integer n : label (decZ n) = INTEGER -> means r (Atom (decZ n)) (VInt n)
  | means_float w v : label w = FLOAT -> float_of w = Some v -> means r (Atom w) v
  | means_text q s : label (q :: s ++ [q]) = LITERAL -> means r (Atom (q :: s ++ [q])) (VStr s)
  | means_date q s d : label (q :: s ++ [q]) = DATE -> date_of s = Some d -> means r (Atom (q :: s ++ [q])) d
  | means_true w : label w = BOOLEAN -> upper w = $"TRUE" -> means r (Atom w) (VBool true)
  | means_false w : label w = BOOLEAN -> upper w = $"FALSE" -> means r (Atom w) (VBool false)
  | means_null w : label w = NULL -> means r (Atom w) VNull
  | means_star w : label w = EVERYTHING -> means r (Atom w) (VStr $"*")
  | means_call f args vs v : In (upper f) functions -> Forall2 (means r) args vs -> apply (upper f) vs = Ok v ->
      means r (Call f args) v.
End Meaning.

(** the last value given to a name *)
Fixpoint last_binding (k : str) (l : list (str * value)) : option value :=
  match l with
  | [] => None
  | (n, v) :: l' => match last_binding k l' with
                    | Some w => Some w
                    | None => if str_eqb n k then Some v else None
                    end
  end.

(** the list asks for every column of the record *)
Definition starred (xs : list (expr * option str)) : Prop := exists a, In (Atom $"*", a) xs.
