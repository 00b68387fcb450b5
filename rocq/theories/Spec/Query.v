(** What a query over stored records answers. *)
From Verif.Base Require Import Py Value.
From Verif.Model Require Import Tokens Expression GroupBy.   (* ttype, tree; the names SUM, MAX, ... *)
From Verif.Spec Require Import Tokens DictSet Expression Evaluator Json Reader Sql SqlAnswer.

(** a reader which gives the records [rows]: with a selection and a filter, what they make of them *)
Definition gives (read : (value -> result value) -> (value -> result bool) -> nat -> result (list value)) (rows : list value) : Prop :=
  forall columns filters c p n, (forall r, In r rows -> applies columns filters c p r) ->
    read columns filters n = Ok (firstn n (filter p (map c rows))).

(** the columns a condition names *)
Fixpoint mentions (t : tree) (n : str) : Prop :=
  match t with
  | TVar s => names_column s n
  | TLeaf _ _ | TBareNot => False
  | TNot a => mentions a n
  | TAnd a b | TOr a b | TOp _ a b => mentions a n \/ mentions b n
  end.

Section Query.
  Context (float_of date_of : str -> option value) (py_is : value -> value -> bool) (matches : value -> value -> result bool).
  Context (apply : str -> list value -> result value).
  Local Notation label := (get_token_type float_of date_of).

  (** WHERE: its condition, and when it holds for a record; without WHERE it always does *)
  Definition condition_of (text : option str) (t : option tree) : Prop :=
    match text, t with
    | None, None => True
    | Some text, Some t => init_expression float_of date_of text = Ok t /\ proper t
    | _, _ => False
    end.
  Definition wanted (t : option tree) (r : record) : Prop :=
    match t with None => True | Some t => satisfied (test float_of date_of py_is matches r) t end.
  (** its comparisons return *)
  Definition comparable (t : option tree) (r : record) : Prop :=
    forall t' c, t = Some t' -> In c (comparisons t') -> exists v, evaluate_recursive float_of date_of py_is matches c r = Ok v.

  (** an entry which is a column under its own name *)
  Definition own_column (x : expr * option str) : Prop := exists w, fst x = Atom w /\ label w = VARIABLE /\ names_column w w.

  (** The names of a list are different.  The names after AS are new; a constant or a function of the list, and the star,
      are not a column of the condition (they would be taken for it). *)
  Definition names_apart (xs : list (expr * option str)) (t : option tree) (r : record) : Prop :=
    NoDup (map given_name xs) /\
    (forall x n, In x xs -> snd x = Some n ->
       let fresh := if is_function x then plain_text (fst x) else n in
       fresh <> $"*" /\ ~ In fresh (map fst r) /\ ~ In fresh (map given_name xs)) /\
    (forall t' n, t = Some t' -> mentions t' n ->
       n <> $"*" /\ forall x, In x xs -> given_name x = n -> own_column x).

  (** the row of a record: the values of the entries under their names *)
  Definition row_of (xs : list (expr * option str)) (r out : record) : Prop :=
    exists vs, Forall2 (fun x v => means label float_of date_of apply r (fst x) v) xs vs /\ out = combine (map asked_name xs) vs.
  Definition computable (xs : list (expr * option str)) (r : record) : Prop :=
    forall x, In x xs -> exists v, means label float_of date_of apply r (fst x) v.
End Query.

(** the list is * or has entries which are not *)
Definition good_query float_of date_of apply (xs : list (expr * option str)) (t : option tree) (rows : list record) : Prop :=
  xs = everything \/
  (Forall (plain_entry (get_token_type float_of date_of)) xs /\ NoDup (map asked_name xs) /\ ~ In $"*" (map asked_name xs) /\
   forall r, In r rows -> names_apart float_of date_of xs t r /\ computable float_of date_of apply xs r).
Definition rows_of float_of date_of apply (xs : list (expr * option str)) (kept selected : list record) : Prop :=
  (xs = everything /\ selected = kept) \/ (xs <> everything /\ Forall2 (row_of float_of date_of apply xs) kept selected).

(** ** With GROUP BY *)
(** the records as the reader gives them, with a column * (the list of columns ends in one) *)
Definition with_star (r : record) : record := r ++ [($"*", VStr $"*")].
(** The grouping columns are columns of the records; these, the aggregated columns and those of the condition are not
    named as an aggregate which is asked for (it would be taken for them). *)
Definition groups_apart (columns : list str) (requested : list (func * str)) (t : option tree) (r : record) : Prop :=
  ~ In $"*" (map fst r) /\
  (forall c, In c columns -> c = $"*" \/ (In c (map fst r) /\ names_column c c)) /\
  (forall t' n, t = Some t' -> mentions t' n -> n <> $"*") /\
  (forall n, In n columns \/ (exists f, In (f, n) requested) \/ (exists t', t = Some t' /\ mentions t' n) ->
             ~ In n (map (fun q => func_name (fst q)) requested)).
