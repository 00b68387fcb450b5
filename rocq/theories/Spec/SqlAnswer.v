(** What the answer of a query is. *)
From Verif.Base Require Import Py Value.
From Verif.Model Require Import Tokens GroupBy.      (* ttype; only the names SUM, MAX, ... and [cell] *)
From Verif.Spec Require Import Tokens DictSet Evaluator Sql.

(** ** AS *)
Definition is_function (x : expr * option str) : bool :=
  match fst x with Call f _ => str_mem (upper f) functions | Atom _ => false end.
(** where the value of an entry is found in the records: those of functions are already under the name after AS *)
Definition source_name (x : expr * option str) : str := if is_function x then asked_name x else plain_text (fst x).

(** the columns of the answer *)
Definition shown (xs : list (expr * option str)) (rows : list record) : list record :=
  map (fun r => map (fun x => (asked_name x, rget (source_name x) r)) xs) rows.

(** the new names are new, and no column is asked for twice *)
Definition renamable (xs : list (expr * option str)) (r : record) : Prop :=
  NoDup (map fst r) /\ NoDup (map source_name xs) /\
  forall x n, In x xs -> snd x = Some n ->
    ~ In (if is_function x then plain_text (fst x) else n) (map fst r).

(** ** DISTINCT, ORDER BY and LIMIT *)
Definition kept_once (distinct : bool) (rows out : list record) : Prop :=
  if distinct then first_occurrences eq [] rows out else out = rows.

Definition in_order_and_limited (cs : list part) (rows out : list record) : Prop :=
  match last_of order_of cs with
  | None | Some [] => out = limited (last_of limit_of cs) rows
  | Some column => exists full,
      stable_sort (row_le column (match last_of descending_of cs with Some b => b | None => false end)) rows full /\
      out = firstn (match last_of limit_of cs with Some n => Z.to_nat n | None => N.to_nat 10000 end) full
  end.

(** the column of ORDER BY has numbers or has texts *)
Definition orderable (cs : list part) (rows : list record) : Prop :=
  forall column, last_of order_of cs = Some column -> column <> [] -> number_column column rows \/ text_column column rows.

(** the same columns, different records have different hashes, and their values different texts *)
Definition told_apart (hash : str -> Z) (rows : list record) : Prop :=
  (forall a b, In a rows -> In b rows -> map fst a = map fst b) /\
  (forall a b v w, In a rows -> In b rows -> In v (map snd a) -> In w (map snd b) -> py_str v = py_str w -> v = w) /\
  (forall a b, In a rows -> In b rows ->
     xor_all hash (numbered 0 (map snd a)) = xor_all hash (numbered 0 (map snd b)) ->
     numbered 0 (map snd a) = numbered 0 (map snd b)).

(** the conditions of HAVING *)
Definition having_keeps (where_ : str -> list record -> result (list record)) (cs : list part) (rows kept : list record) : Prop :=
  match last_of having_of cs with Some ((_ :: _) as h) => where_ h rows = Ok kept | _ => kept = rows end.

(** ** The entries of the list *)
(** a column, a constant or a function of them *)
Definition plain_entry (label : str -> ttype) (x : expr * option str) : Prop :=
  match fst x with
  | Atom w => ~ In (label w) [BOOLEAN; NULL; EVERYTHING]
  | Call f _ => In (upper f) functions
  end.
(** with GROUP BY: one of its columns, or an aggregate of a column or of * *)
Definition grouped_entry (label : str -> ttype) (columns : list str) (x : expr * option str) : Prop :=
  match fst x with
  | Atom w => label w = VARIABLE /\ In w columns
  | Call f args => exists fn c, upper f = func_name fn /\ args = [Atom c]
  end.
Inductive requests : list (expr * option str) -> list (func * str) -> Prop :=
| requests_none : requests [] []
| requests_column w n xs rs : requests xs rs -> requests ((Atom w, n) :: xs) rs
| requests_aggregate fn f c n xs rs : upper f = func_name fn -> requests xs rs ->
    requests ((Call f [Atom c], n) :: xs) ((fn, c) :: rs).

(** [GROUP BY a, b]; without it all the records are one group, named by the column *, which no record has *)
Definition grouping_columns (cs : list part) (columns : list str) : Prop :=
  match last_of group_of cs with
  | Some g => g <> [] /\ exists padded, g = join $"," padded /\ Forall2 (fun p c => exists a b, p = a ++ c ++ b /\ blanks a /\ blanks b) padded columns /\
              Forall (fun c => trimmed c /\ ~ In ","%char c) columns
  | None => columns = [$"*"]
  end.

(** a row of a result with its values *)
Definition values_of (quotient : Z -> Z -> value) (out : list row) : list record :=
  map (map (fun kc => (fst kc, match snd kc with Cell v => v | Quotient n d => quotient n d end))) out.

(** ** The records a statement is about: those of the dataset for WHERE, or the answer of the query after FROM *)
Definition source_gives (reader : str -> str -> option str -> result (list record)) (inner : nat -> str -> result (list record))
           (cs : list part) (e : str) (rows : list record) : Prop :=
  match last_of from_of cs with
  | Some (inl d) => safe_name (dots_to_slashes d) /\
                    reader (if str_eqb e $"*" then e else e ++ $", *") (dots_to_slashes d) (last_of where_of cs) = Ok rows
  | Some (inr q) => forall fuel, length q < fuel -> inner fuel q = Ok rows
  | None => False
  end.

(** the list is * or has entries which are not, under different names *)
Definition everything : list (expr * option str) := [(Atom $"*", None)].
Definition good_list (label : str -> ttype) (xs : list (expr * option str)) (kept : list record) : Prop :=
  xs = everything \/
  (Forall (plain_entry label) xs /\ NoDup (map asked_name xs) /\ ~ In $"*" (map asked_name xs) /\ forall r, In r kept -> renamable xs r).
Definition columns_of (xs : list (expr * option str)) (rows : list record) : list record :=
  match xs with
  | [(Atom w, None)] => if str_eqb w $"*" then rows else shown xs rows
  | _ => shown xs rows
  end.
