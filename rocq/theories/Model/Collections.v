(** mabel/data/internals/collected_set.py: records split by the value of a column;
    mabel/data/readers/internals/threaded_wrapper.py 23-50: pages of records. *)
From Verif.Base Require Import Py Value.
From Verif.Model Require Import DictSet.

(** ** CollectedSet *)
(** only these can be keys of a dictionary (in this model's values) *)
Definition hashable (v : value) : bool := match v with VList _ | VDict _ => false | _ => true end.

Definition collections : Type := list (value * list record).

(** collected_set.py 31-33, for one record: [copy], [pop(column, None)], [setdefault(key, []).append].
    Without [dedupe]; [collect_set_deduped] below is the constructor with it. *)
Definition collect_one (column : str) (c : collections) (item : record) : result collections :=
  let key := rget column item in
  let my_item := ddel str_eqb column item in
  if hashable key then
    Ok (match dget py_eq key c with
        | Some items => dset py_eq key (items ++ [my_item]) c
        | None => dset py_eq key [my_item] c
        end)
  else Raise TypeError.
(** 26-39 [__init__] *)
Definition collect_set (column : str) (rows : list record) : result collections :=
  fold_left (fun acc item => let* c := acc in collect_one column c item) rows (Ok []).

(** 34-37: [frozenset(i.items())] of one record is that of another: sets of (column, value) pairs *)
Definition items_within (a b : record) : bool :=
  forallb (fun kv => existsb (fun kw => str_eqb (fst kv) (fst kw) && py_eq (snd kv) (snd kw)) b) a.
Definition same_items (a b : record) : bool := items_within a b && items_within b a.
(** 36 [{frozenset(i.items()): i for i in v}.values()]: where the first was stands the last; a list or a dictionary
    among the values cannot be hashed *)
Definition one_of_each (v : list record) : result (list record) :=
  if forallb (fun i => forallb (fun kv => hashable (snd kv)) i) v
  then Ok (map snd (fold_left (fun d i => dset same_items i i d) v []))
  else Raise TypeError.
Fixpoint dedupe_collections (c : collections) : result collections :=
  match c with
  | [] => Ok []
  | (k, v) :: c' => let* v' := one_of_each v in let* rest := dedupe_collections c' in Ok ((k, v') :: rest)
  end.
(** 26-39 [__init__] with [dedupe=True]; [distinct] is dictset.py 285-309, over the hash of texts it uses *)
Definition collect_set_deduped (hash : str -> Z) (column : str) (rows : list record) : result collections :=
  let* c := collect_set column (distinct hash [] rows) in dedupe_collections c.

(** 51-52 [count()] *)
Definition counts (c : collections) : list (value * nat) := map (fun kv => (fst kv, length (snd kv))) c.
(** 53-57 [count(collection)] for a collection which is not None: the last which matches *)
Definition count_of (c : collections) (collection : value) : nat :=
  last (map (fun kv => length (snd kv)) (filter (fun kv => py_eq (fst kv) collection) c)) 0.
(** 59-77 [aggregate] *)
Definition aggregate {B} (c : collections) (column : str) (method : list value -> B) : list (value * B) :=
  map (fun kv => (fst kv, method (filter (fun v => negb (is_none v)) (map (rget column) (snd kv))))) c.
(** 79-88 [apply] *)
Definition apply {B} (c : collections) (method : list record -> B) : list (value * B) :=
  map (fun kv => (fst kv, method (snd kv))) c.
(** 102-103 [__contains__] *)
Definition contains_key (c : collections) (item : value) : result bool :=
  if hashable item then Ok (dhas py_eq item c) else Raise TypeError.
(** 116-117 and 128-129 [self[item]]: a SubCollection *)
Definition sub_collection (c : collections) (item : value) : result (list record) :=
  if hashable item then Ok (match dget py_eq item c with Some items => items | None => [] end) else Raise TypeError.
(** 110-115 [self[a, b, ...]]: [newg._collections[entry]] is missing in the new, empty, set *)
Fixpoint sub_collections (c : collections) (entries : list value) : result collections :=
  match entries with
  | [] => Ok []
  | entry :: rest =>
      let* found := contains_key c entry in
      if found then Raise KeyError else sub_collections c rest
  end.
(** 119-122 [items] *)
Definition items (c : collections) : list (value * record) :=
  flat_map (fun kv => map (fun item => (fst kv, item)) (snd kv)) c.
(** 131-138 [SubCollection[item]] for one column *)
Definition sub_values (sub : list record) (item : str) : list value := collect_list item sub.

(** ** threaded_wrapper.py 23-50 [page_dictset]; the records are dictionaries, so [orjson.dumps] *)
Section Pages.
  Context (dumps : record -> str).

  Fixpoint set_nth (l : list str) (i : nat) (x : str) : list str :=
    match l, i with
    | _ :: l', O => x :: l'
    | y :: l', S i' => y :: set_nth l' i' x
    | [], _ => []
    end.

  (** 37-50; the pages and how it ends.  [i] is the index of the next record; 50 uses that of the last. *)
  Fixpoint page_from (page_size i : nat) (chunk : list str) (rows : list record) : list (list str) * option exn :=
    match rows with
    | record :: rest =>
        if Nat.eqb page_size 0 then ([], Some ZeroDivisionError)
        else if (0 <? i)%nat && Nat.eqb (i mod page_size) 0 then
          let '(pages, e) := page_from page_size (S i) (set_nth (repeat [] page_size) 0 (dumps record)) rest in
          (chunk :: pages, e)
        else page_from page_size (S i) (set_nth chunk (i mod page_size) (dumps record)) rest
    | [] =>
        match chunk with
        | [] => ([], None)
        | _ => match i with
               | O => ([], Some NameError)
               | S last => ([firstn (last mod page_size) chunk], None)
               end
        end
    end.
  Definition page_dictset (page_size : nat) (rows : list record) : list (list str) * option exn :=
    page_from page_size 0 (repeat [] page_size) rows.
End Pages.
