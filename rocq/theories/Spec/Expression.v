(** What a filter expression means: a grammar over labelled tokens, and when a condition holds. *)
From Verif.Base Require Import Py Value.
From Verif.Model Require Import Dates Tokens Expression.   (* tree, ttype, py_int, unquoted *)
From Verif.Spec Require Import Filters.   (* line_like *)

Section Grammar.
  (** the label of a token; the value of a list item; floats and dates as values *)
  Context (label : str -> ttype) (item_value : str -> value) (float_of date_of : str -> option value).

  (** the items of a list: commas are separators *)
  Inductive items : list str -> list value -> Prop :=
  | items_nil : items [] []
  | items_comma c ts vs : label c = COMMA -> items ts vs -> items (c :: ts) vs
  | items_cons s ts vs : label s <> COMMA -> label s <> RIGHTPAREN -> items ts vs ->
      items (s :: ts) (item_value s :: vs).

  (** tokens whose parentheses match *)
  Inductive balanced : list str -> Prop :=
  | balanced_nil : balanced []
  | balanced_cons s ts : label s <> LEFTPAREN -> label s <> RIGHTPAREN -> balanced ts -> balanced (s :: ts)
  | balanced_paren a ts1 z ts2 : label a = LEFTPAREN -> label z = RIGHTPAREN -> balanced ts1 -> balanced ts2 ->
      balanced (a :: ts1 ++ z :: ts2).

  (** one token: a constant or a column *)
  Inductive operand : list str -> tree -> Prop :=
  | operand_integer s n : label s = INTEGER -> py_int s = Ok n -> operand [s] (TLeaf INTEGER (VInt n))
  | operand_float s v : label s = FLOAT -> float_of s = Some v -> operand [s] (TLeaf FLOAT v)
  | operand_column s : label s = VARIABLE -> operand [s] (TVar s)
  | operand_text s : label s = LITERAL -> operand [s] (TLeaf LITERAL (VStr (unquoted s)))
  | operand_boolean s : label s = BOOLEAN -> operand [s] (TLeaf BOOLEAN (VBool (str_eqb (lower s) $"true")))
  | operand_date s d : label s = DATE -> date_of (unquoted s) = Some d -> operand [s] (TLeaf DATE d).

  (** left of an operator: also the text of a function call, which names a column *)
  Inductive left_operand : list str -> tree -> Prop :=
  | left_simple ts t : operand ts t -> left_operand ts t
  | left_call f a args z : label f = FUNCTION \/ label f = AGGREGATOR -> label a = LEFTPAREN -> balanced args ->
      label z = RIGHTPAREN -> left_operand (f :: a :: args ++ [z]) (TVar (f ++ $"(" ++ concat args ++ z)).

  (** right of an operator: also a list *)
  Inductive right_operand : list str -> tree -> Prop :=
  | right_simple ts t : operand ts t -> right_operand ts t
  | right_list a ts vs z : label a = LEFTPAREN -> items ts vs -> label z = RIGHTPAREN ->
      right_operand (a :: ts ++ [z]) (TLeaf LITERAL (VList vs)).

  (** OR binds loosest, then AND, then NOT; a comparison or anything in parentheses binds tightest *)
  Inductive either : list str -> tree -> Prop :=
  | either_one ts t : both ts t -> either ts t
  | either_or ts1 t1 o ts2 t2 : either ts1 t1 -> label o = OR -> both ts2 t2 -> either (ts1 ++ o :: ts2) (TOr t1 t2)
  with both : list str -> tree -> Prop :=
  | both_one ts t : single ts t -> both ts t
  | both_and ts1 t1 o ts2 t2 : both ts1 t1 -> label o = AND -> single ts2 t2 -> both (ts1 ++ o :: ts2) (TAnd t1 t2)
  with single : list str -> tree -> Prop :=
  | single_not n ts t : label n = NOT -> single ts t -> single (n :: ts) (TNot t)
  | single_paren a ts t z : label a = LEFTPAREN -> either ts t -> label z = RIGHTPAREN -> single (a :: ts ++ [z]) t
  | single_test ts1 t1 o ts2 t2 : left_operand ts1 t1 -> label o = OPERATOR -> right_operand ts2 t2 ->
      single (ts1 ++ o :: ts2) (TOp (upper o) t1 t2).

  (** the trees built from comparisons that can be written *)
  Fixpoint writable (t : tree) : Prop :=
    match t with
    | TNot a => writable a
    | TAnd a b | TOr a b => writable a /\ writable b
    | TOp op l r => exists ts1 o ts2, left_operand ts1 l /\ label o = OPERATOR /\ op = upper o /\ right_operand ts2 r
    | TLeaf _ _ | TVar _ | TBareNot => False
    end.
End Grammar.

(** a token without white space around it that is no NULL and no name of a function *)
Definition plain_token (label : str -> ttype) (s : str) : Prop :=
  strip s = s /\ label s <> NULL /\ label s <> FUNCTION /\ label s <> AGGREGATOR.

(** no operator has a bare NOT as its right hand side *)
Fixpoint proper (t : tree) : Prop :=
  match t with
  | TNot a => proper a
  | TAnd a b | TOr a b => proper a /\ proper b
  | TOp _ l r => proper l /\ proper r
  | TBareNot => False
  | TLeaf _ _ | TVar _ => True
  end.

(** whether a condition holds, given which comparisons hold *)
Fixpoint satisfied (test : tree -> Prop) (t : tree) : Prop :=
  match t with
  | TNot a => ~ satisfied test a
  | TAnd a b => satisfied test a /\ satisfied test b
  | TOr a b => satisfied test a \/ satisfied test b
  | _ => test t
  end.

(** the comparisons of a condition *)
Fixpoint comparisons (t : tree) : list tree :=
  match t with
  | TNot a => comparisons a
  | TAnd a b | TOr a b => comparisons a ++ comparisons b
  | _ => [t]
  end.

Section Meaning.
  Context (float_of date_of : str -> option value).
  Context (py_is : value -> value -> bool) (matches : value -> value -> result bool).

  (** What a value of a record counts as: texts that read as true, false, a number or a date count as those. *)
  Inductive reads : value -> value -> Prop :=
  | reads_other v : (forall s, v <> VStr s) -> reads v v
  | reads_true s : upper s = $"TRUE" -> reads (VStr s) (VBool true)
  | reads_false s : upper s = $"FALSE" -> reads (VStr s) (VBool false)
  | reads_integer s n : py_int s = Ok n -> reads (VStr s) (VInt n)
  | reads_float s v : py_int s = Raise ValueError -> upper s <> $"TRUE" -> upper s <> $"FALSE" ->
      float_of s = Some v -> reads (VStr s) v
  | reads_date s v : py_int s = Raise ValueError -> upper s <> $"TRUE" -> upper s <> $"FALSE" ->
      float_of s = None -> date_of s = Some v -> reads (VStr s) v
  | reads_text s : py_int s = Raise ValueError -> upper s <> $"TRUE" -> upper s <> $"FALSE" ->
      float_of s = None -> date_of s = None -> reads (VStr s) (VStr s).

  (** the column a token names: back quotes around a name don't count *)
  Inductive names_column : str -> str -> Prop :=
  | names_plain n : (forall m, n <> $"`" ++ m ++ $"`") -> n <> $"`" -> names_column n n
  | names_quoted n : names_column ($"`" ++ n ++ $"`") n
  | names_tick : names_column $"`" [].

  (** the value of a side of a comparison; a missing column is null *)
  Inductive side_value (r : record) : tree -> value -> Prop :=
  | side_constant ty v : side_value r (TLeaf ty v) v
  | side_column s n x v : names_column s n -> In (n, x) r -> reads x v -> side_value r (TVar s) v
  | side_missing s n : names_column s n -> ~ In n (map fst r) -> side_value r (TVar s) VNull.

  (** the members of a list: a text in quotes stands for what is inside them.  [interpret_quoted] is what the code
      takes a member for; [in_list_members] (Props/Expression.v) says what that is for numbers and quoted texts *)
  Definition in_list (x : value) (l : list value) : Prop :=
    exists m, In m l /\ strip (py_str m) <> $"," /\ py_eq x (interpret_quoted float_of date_of m) = true.

  (** when a comparison of two values holds *)
  Inductive compares : str -> value -> value -> Prop :=
  | c_eq op x y : In op [$"="; $"=="] -> py_eq x y = true -> compares op x y
  | c_ne op x y : In op [$"<>"; $"!="] -> py_eq x y = false -> compares op x y
  | c_lt x y : py_lt x y = Ok true -> compares $"<" x y
  | c_gt x y : py_lt y x = Ok true -> compares $">" x y
  | c_le x y : py_le x y = Ok true -> compares $"<=" x y
  | c_ge x y : py_le y x = Ok true -> compares $">=" x y
  | c_is x y : py_is x y = true -> compares $"IS" x y
  | c_is_not x y : py_is x y = false -> compares $"IS NOT" x y
  | c_like x p : line_like p (py_str x) -> compares $"LIKE" x (VStr p)
  | c_not_like x p : ~ line_like p (py_str x) -> compares $"NOT LIKE" x (VStr p)
  | c_matches x y : matches x y = Ok true -> compares $"MATCHES" x y
  | c_in x l : in_list x l -> compares $"IN" x (VList l)
  | c_in_text x s : in_list x (map (fun c => VStr [c]) s) -> compares $"IN" x (VStr s)
  | c_in_dict x d : in_list x (map (fun e => VStr (fst e)) d) -> compares $"IN" x (VDict d)
  | c_contains x y : py_in y x = Ok true -> compares $"CONTAINS" x y.

  (** when a comparison holds for a record *)
  Inductive test (r : record) : tree -> Prop :=
  | test_op op a b x y : side_value r a x -> side_value r b y -> compares op x y -> test r (TOp op a b).
End Meaning.

(** comparisons which have an answer for every record: all but regular expressions, and LIKE with anything but a text *)
Definition has_answer (t : tree) : Prop :=
  match t with
  | TOp op a b =>
      (In op [$"="; $"=="; $"<>"; $"!="; $"<"; $"<="; $">"; $">="; $"IS"; $"IS NOT"; $"IN"; $"CONTAINS"] \/
       In op [$"LIKE"; $"NOT LIKE"] /\ exists ty p, b = TLeaf ty (VStr p)) /\
      (forall x, In x [a; b] -> (exists ty v, x = TLeaf ty v) \/ exists name, x = TVar name)
  | _ => False
  end.

(** trees of comparisons of constants and columns *)
Definition atom (t : tree) : Prop := match t with TLeaf _ _ | TVar _ | TBareNot => True | _ => False end.
Fixpoint simple (t : tree) : Prop :=
  match t with
  | TNot a => simple a
  | TAnd a b | TOr a b => simple a /\ simple b
  | TOp _ l r => atom l /\ atom r
  | TLeaf _ _ | TVar _ | TBareNot => False
  end.

From Verif.Spec Require Import Tokens.

(** Trees whose comparisons are written with names, numbers, quoted texts and lists of them *)
Section Written.
  Context (label : str -> ttype) (item_value : str -> value) (float_of date_of : str -> option value).

  Definition one_lexeme (x : lexeme) (tok : str) : Prop :=
    good_lexeme x /\ (match x with Plain _ | Quoted _ _ => True | _ => False end) /\ token_for float_of date_of x tok.

  Definition plain_operand (t : tree) : Prop := exists x tok, one_lexeme x tok /\ operand label float_of date_of [tok] t.

  Definition plain_member (v : value) : Prop :=
    exists x tok, one_lexeme x tok /\ label tok <> COMMA /\ label tok <> RIGHTPAREN /\ v = item_value tok.

  Definition plain_right (t : tree) : Prop :=
    plain_operand t \/ exists vs, Forall plain_member vs /\ t = TLeaf LITERAL (VList vs).

  Fixpoint plain_tree (t : tree) : Prop :=
    match t with
    | TNot a => plain_tree a
    | TAnd a b | TOr a b => plain_tree a /\ plain_tree b
    | TOp op l r => In op operators /\ plain_operand l /\ plain_right r
    | TLeaf _ _ | TVar _ | TBareNot => False
    end.
End Written.
