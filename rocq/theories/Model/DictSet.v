(** mabel/data/internals/dictset.py and mabel/data/internals/records.py: operations on sets of records.

    A DictSet is modelled here by the list of records its iterator yields (the iterators themselves are
    modelled in Model/Storage.v); a generator which is read to its end is the list it yields.
    Simplification: records are dictionaries, so the [as_dict] branches (dictset.py 161-163, 400-401)
    do not occur. *)
From Verif.Base Require Import Py Value.

(** a dictionary comprehension or [dict(items)]: later entries replace the value of earlier ones *)
Definition mkdict (items : list (str * value)) : record :=
  fold_left (fun d kv => dset str_eqb (fst kv) (snd kv) d) items [].

(** dictset.py 391-404 [itake]; [count] counts from 0 *)
Fixpoint itake_from (count items : Z) (rows : list record) : list record :=
  match rows with
  | [] => []
  | item :: rest =>
      item :: (if (count + 1 =? items)%Z then [] else itake_from (count + 1) items rest)
  end.
Definition itake (items : Z) (rows : list record) : list record := itake_from 0 items rows.
(** dictset.py 384-389 [take] *)
Definition take := itake.

(** dictset.py 149-167 [collect_list(key)] for a non empty key *)
Definition collect_list (key : str) (rows : list record) : list value :=
  flat_map (fun r => match dget str_eqb key r with Some v => [v] | None => [] end) rows.

(** dictset.py 169-181 [keys]; 176 and 178 are the same reduction *)
Definition reduce_keys (rows : list record) : list str :=
  fold_left (fun x y => x ++ filter (fun a => negb (str_mem a x)) (dkeys y)) rows [].
Definition keys (number_of_rows : Z) (rows : list record) : list str :=
  if (0 <? number_of_rows)%Z then reduce_keys (itake number_of_rows rows) else reduce_keys rows.

(** functools.reduce without initial value *)
Definition reduceM (f : value -> value -> result value) (l : list value) : result value :=
  match l with
  | [] => Raise TypeError
  | x :: l' => fold_left (fun acc y => let* a := acc in f a y) l' (Ok x)
  end.
(** [max(a, b)] keeps the first unless the second is greater; [min(a, b)] unless it is less *)
Definition py_max (a b : value) : result value := let* gt := py_lt a b in Ok (if gt then b else a).
Definition py_min (a b : value) : result value := let* lt := py_lt b a in Ok (if lt then b else a).
(** dictset.py 198-206, 208-216, 218-226 *)
Definition ds_max (key : str) (rows : list record) := reduceM py_max (collect_list key rows).
Definition ds_sum (key : str) (rows : list record) : result value :=
  fold_left (fun acc y => let* a := acc in py_add a y) (collect_list key rows) (Ok (VInt 0)).
Definition ds_min (key : str) (rows : list record) := reduceM py_min (collect_list key rows).
(** dictset.py 228-243 [min_max] *)
Definition ds_min_max (key : str) (rows : list record) : result (value * value) :=
  match collect_list key rows with
  | [] => Raise TypeError
  | x :: l => fold_left (fun acc y => let* ab := acc in
                                      let* lo := py_min (fst ab) y in
                                      let* hi := py_max (snd ab) y in Ok (lo, hi)) l (Ok (x, x))
  end.

Section Distinct.
  (** Python's built in hash of a text *)
  Context (hash : str -> Z).
  (** dictset.py 297-304: the value which stands for a record *)
  Definition column_text (columns : list str) (item : record) : str :=
    concat (map (fun c => py_str (match dget str_eqb c item with Some v => v | None => VStr $"$$" end)) columns).
  Fixpoint xor_values (i : N) (vs : list value) : Z :=
    match vs with
    | [] => 0
    | v :: vs' => Z.lxor (hash (dec i ++ $"," ++ py_str v)) (xor_values (i + 1) vs')
    end.
  Definition fingerprint (columns : list str) (item : record) : Z :=
    match columns with
    | [] => xor_values 0 (dvals item)
    | _ => hash (column_text columns item)
    end.
  (** dictset.py 285-309 [distinct] *)
  Fixpoint dedupe (columns : list str) (hash_list : list Z) (data : list record) : list record :=
    match data with
    | [] => []
    | item :: rest =>
        if mem Z.eqb (fingerprint columns item) hash_list then dedupe columns hash_list rest
        else item :: dedupe columns (fingerprint columns item :: hash_list) rest
    end.
  Definition distinct (columns : list str) (data : list record) : list record := dedupe columns [] data.
End Distinct.

(** dictset.py 462-485 [select] with a list of columns ([columns == ["*"]] returns the set itself,
    another list with "*" in it copies the record without a "*" column) *)
Definition select_one (columns : list str) (r : record) : record :=
  mkdict (map (fun k => (k, rget k r)) columns).
Definition select (columns : list str) (rows : list record) : list record :=
  if list_eqb str_eqb columns [$"*"] then rows
  else if str_mem $"*" columns
       then map (fun r => mkdict (filter (fun kv => negb (str_eqb (fst kv) $"*")) r)) rows
       else map (select_one columns) rows.

(** records.py 7-21 [select_record_fields] *)
Definition select_record_fields (r : record) (fields : list str) : record :=
  mkdict (map (fun k => (k, rget k r)) fields).

(** records.py 24-35 [order]: the items sorted as pairs; keys are distinct so values are never compared *)
Definition order (r : record) : record :=
  mkdict (isort (fun a b => str_leb (fst a) (fst b)) r).

(** records.py 38-59 [set_value] *)
Inductive setter := Constant (v : value) | Computed (f : record -> value).
Definition set_value (r : record) (field_name : str) (s : setter) : record :=
  match s with
  | Computed f => dset str_eqb field_name (f r) r
  | Constant v => dset str_eqb field_name v r
  end.

(** records.py 62-87 [flatten]: [entries separator new_key v] are the items added for one value whose
    (new) key is [new_key] (77-86).  Note line 84: the elements of a list are flattened with the key
    in the place of the separator and without a parent key. *)
Definition join_key (separator parent_key key : str) : str :=
  match parent_key with [] => key | _ => parent_key ++ separator ++ key end.
Fixpoint entries (separator new_key : str) (v : value) : list (str * value) :=
  match v with
  | VDict d =>
      mkdict ((fix go (d : list (str * value)) :=
                 match d with
                 | [] => []
                 | (k, w) :: d' => entries separator (join_key separator new_key k) w ++ go d'
                 end) d)
  | VList l =>
      (fix go (k : N) (l : list value) :=
         match l with
         | [] => []
         | w :: l' => mkdict (entries new_key (dec k) w) ++ go (k + 1)%N l'
         end) 0%N l
  | _ => [(new_key, v)]
  end.
Definition flatten (r : record) : record :=
  mkdict (flat_map (fun kv => entries $"." (fst kv) (snd kv)) r).

(** ** Sorting *)
(** dictset.py 488-494 [safety_key]: the pair (is not None, value), compared as a tuple: the first
    position where the pairs differ decides *)
Definition key_lt (column : str) (a b : record) : result bool :=
  let x := rget column a in
  let y := rget column b in
  match is_none x, is_none y with
  | true, true => Ok false
  | true, false => Ok true
  | false, true => Ok false
  | false, false => if py_eq x y then Ok false else py_lt x y
  end.

(** [sorted(l, key=..., reverse=...)] / [l.sort(...)]: a stable sort, also when reversed.
    Simplification: TypeError is raised whenever two of the elements cannot be compared. *)
Definition sort_by {A} (lt : A -> A -> result bool) (reverse : bool) (l : list A) : result (list A) :=
  let less a b := match lt a b with Ok true => true | _ => false end in
  if forallb (fun a => forallb (fun b => match lt a b with Ok _ => true | Raise _ => false end) l) l
  then Ok (isort (fun a b => negb (if reverse then less a b else less b a)) l)
  else Raise TypeError.

(** dictset.py 499-513: the low memory branch.  505-510: the loop over the records *)
Fixpoint cached_sort (lt : record -> record -> result bool) (descending : bool) (take : Z)
         (double_cache : Z) (cache rows : list record) : result (list record) :=
  match rows with
  | [] => sort_by lt descending cache
  | r :: rest =>
      let cache := cache ++ [r] in
      if (double_cache <? Z.of_nat (length cache))%Z then
        let* sorted := sort_by lt descending cache in
        cached_sort lt descending take double_cache (slice_to sorted take) rest
      else cached_sort lt descending take double_cache cache rest
  end.
(** dictset.py 487-513 [sort_and_take] *)
Definition sort_and_take (in_memory : bool) (column : str) (take : Z) (descending : bool)
           (rows : list record) : result (list record) :=
  if in_memory then
    let* s := sort_by (key_lt column) descending rows in Ok (slice_to s take)
  else
    let double_cache := (Z.max (take * 2) 1 + 1)%Z in
    let* s := cached_sort (key_lt column) descending take double_cache [] rows in
    Ok (slice_to s take).

(** ** Hash *)
Section Hash.
  (** orjson.dumps and CityHash64 *)
  Context (dumps : record -> str) (cityhash : str -> N).
  (** dictset.py 521-531 [__hash__] *)
  Definition ds_hash (seed : N) (rows : list record) : N :=
    fold_left (fun x r => N.lxor x (cityhash (dumps (order r)))) rows seed.
End Hash.
