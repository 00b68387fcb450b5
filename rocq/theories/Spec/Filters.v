(** What LIKE and filters mean. *)
From Verif.Base Require Import Py Value.
From Verif.Model Require Import Filters.   (* only the shape of filters: pred, PTuple, PList *)

(** [Like wild p t]: the text [t] matches the pattern [p], ignoring case.  [%] stands for any sequence and [_]
    for one of the characters which are [wild]; every other character stands for itself. *)
Inductive Like (wild : ascii -> Prop) : str -> str -> Prop :=
| like_end : Like wild [] []
| like_percent p s t : Forall wild s -> Like wild p t -> Like wild ("%"%char :: p) (s ++ t)
| like_underscore p c t : wild c -> Like wild p t -> Like wild ("_"%char :: p) (c :: t)
| like_same p c d t : c <> "%"%char -> c <> "_"%char -> lower_c c = lower_c d ->
                      Like wild p t -> Like wild (c :: p) (d :: t).

(** SQL's LIKE: the wildcards stand for any character *)
Definition sql_like : str -> str -> Prop := Like (fun _ => True).
(** what the code implements: the wildcards stand for any character but a line feed, and a line feed at the end
    of the text does not count *)
Definition line_like (p t : str) : Prop :=
  Like (fun c => c <> newline) p t \/ exists t', t = t' ++ [newline] /\ Like (fun c => c <> newline) p t'.

(** when a comparison holds: Python's operators on the field's value and the literal *)
Inductive holds (matches : value -> value -> result bool) : str -> value -> value -> Prop :=
| h_eq op x y : In op [$"="; $"=="; $"is"] -> py_eq x y = true -> holds matches op x y
| h_ne op x y : In op [$"!="; $"<>"] -> py_eq x y = false -> holds matches op x y
| h_lt x y : py_lt x y = Ok true -> holds matches $"<" x y
| h_gt x y : py_lt y x = Ok true -> holds matches $">" x y
| h_le x y : py_le x y = Ok true -> holds matches $"<=" x y
| h_ge x y : py_le y x = Ok true -> holds matches $">=" x y
| h_like x p : line_like p (py_str x) -> holds matches $"like" x (VStr p)
| h_matches op x y : In op [$"matches"; $"~"] -> matches x y = Ok true -> holds matches op x y
| h_in x y : py_in x y = Ok true -> holds matches $"in" x y
| h_not_in op x y : In op [$"!in"; $"not in"] -> py_in x y = Ok false -> holds matches op x y
| h_contains x y : py_in y x = Ok true -> holds matches $"contains" x y
| h_not_contains x y : py_in y x = Ok false -> holds matches $"!contains" x y.

Definition a_tuple (p : pred) : Prop := exists k op v, p = PTuple k op v.
Definition a_list (p : pred) : Prop := exists l, p = PList l.

(** the records a filter selects *)
Inductive selects (matches : value -> value -> result bool) (r : record) : pred -> Prop :=
| sel_none : selects matches r PNone
| sel_tuple k op x v :
    rget k r = x -> x <> VNull -> holds matches (lower op) x v -> selects matches r (PTuple k op v)
| sel_all l : Forall a_tuple l -> Forall (selects matches r) l -> selects matches r (PList l)
| sel_any l : Forall a_list l -> Exists (selects matches r) l -> selects matches r (PList l).

(** a filter of the documented form *)
Inductive well_formed_filter : pred -> Prop :=
| wf_none : well_formed_filter PNone
| wf_shape p : well_formed_clause p -> well_formed_filter p
with well_formed_clause : pred -> Prop :=
| wf_tuple k op v : well_formed_clause (PTuple k op v)
| wf_all l : Forall a_tuple l -> well_formed_clause (PList l)
| wf_any l : Forall a_list l -> Forall well_formed_clause l -> well_formed_clause (PList l).

(** the comparisons in a filter *)
Inductive in_filter (k op : str) (v : value) : pred -> Prop :=
| in_here : in_filter k op v (PTuple k op v)
| in_list p l : In p l -> in_filter k op v p -> in_filter k op v (PList l).
