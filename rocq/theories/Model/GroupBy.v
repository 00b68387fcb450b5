(** mabel/data/internals/group_by.py: GROUP BY and its aggregates. *)
From Verif.Base Require Import Py Value.
From Verif.Model Require Import DictSet.

(** group_by.py 20-26 AGGREGATORS: the functions there are *)
Inductive func := SUM | MAX | MIN | COUNT | AVG.
Definition func_eqb (a b : func) : bool :=
  match a, b with SUM, SUM | MAX, MAX | MIN, MIN | COUNT, COUNT | AVG, AVG => true | _, _ => false end.
Definition func_name (f : func) : str :=
  match f with SUM => $"SUM" | MAX => $"MAX" | MIN => $"MIN" | COUNT => $"COUNT" | AVG => $"AVG" end.
(** the text [f"{func}({col})"] (lines 137, 167, 170) *)
Definition agg_name (f : func) (col : str) : str := func_name f ++ $"(" ++ col ++ $")".

(** A cell of the result: a value, or the quotient [n / d] of an average.  Simplification: the quotient is
    not evaluated (Python divides Decimals or floats and rounds). *)
Inductive cell := Cell (v : value) | Quotient (n d : Z).
Notation row := (list (str * cell)).

(** Decimal arithmetic has 28 significant digits and rounds half to even *)
Definition round_half_even (z unit : Z) : Z :=
  let q := (z / unit)%Z in
  let r := (z mod unit)%Z in
  if (2 * r <? unit)%Z then (q * unit)%Z
  else if (unit <? 2 * r)%Z then ((q + 1) * unit)%Z
  else if Z.even q then (q * unit)%Z else ((q + 1) * unit)%Z.
Definition decimal_round (z : Z) : Z :=
  let digits := Z.of_nat (length (dec (Z.abs_N z))) in
  if (digits <=? 28)%Z then z
  else if (z <? 0)%Z then (- round_half_even (- z) (10 ^ (digits - 28)))%Z
       else round_half_even z (10 ^ (digits - 28)).

(** group_by.py 13-17 [summer].  Simplification: of the texts Decimal() accepts none is modelled. *)
Definition summer (x y : value) : result value :=
  match num_of x, num_of y with
  | Some a, Some b => Ok (VInt (decimal_round (a + b)))
  | _, _ => Raise ValueError
  end.

(** group_by.py 20-26 AGGREGATORS *)
Definition aggregator (f : func) (x y : value) : result value :=
  match f with
  | SUM => summer x y
  | MAX => py_max x y
  | MIN => py_min x y
  | COUNT => py_add x (VInt 1)
  | AVG => Ok (VInt 1)
  end.

(** group_by.py 145-153: the new value of a collector entry *)
Definition collect (f : func) (existing : option value) (v : value) : result value :=
  match existing with
  | Some e =>
      if truthy e then
        if truthy v || func_eqb f COUNT then aggregator f e v else Ok e
      else Ok (if func_eqb f COUNT then VInt 1 else v)
  | None => Ok (if func_eqb f COUNT then VInt 1 else v)
  end.

Section GroupBy.
  (** xxh3_64_intdigest with the fixed seed *)
  Context (xxh : str -> N).
  (** line 88: the number of groups at which the code gives up *)
  Definition group_limit : Z := 4999999.

  (** group_by.py 74-83: the text of a group.  [str(record[column])], and when a column is missing
      [f"{record.get(column, '')}"] for every column: the same text for the columns which are there *)
  Definition group_text (columns : list str) (r : record) : str :=
    concat (map (fun c => match dget str_eqb c r with Some v => py_str v | None => [] end) columns).
  Definition group_key (columns : list str) (r : record) : N := xxh (group_text columns r).

  (** the state of the loop: [_group_keys] and [collector] *)
  Record state := mkState {
    group_keys : list (N * list (str * value));
    collector : list (N * list (str * value)) }.

  Definition dget_entry (g : N) (c : list (N * list (str * value))) : list (str * value) :=
    match dget N.eqb g c with Some d => d | None => [] end.

  (** group_by.py 133-156: one mapped tuple (group, column, value), for each aggregation *)
  Fixpoint reduce_tuple (aggs : list (func * str)) (g : N) (col : str) (v : value)
           (c : list (N * list (str * value))) : result (list (N * list (str * value))) :=
    match aggs with
    | [] => Ok c
    | (f, acol) :: aggs' =>
        if str_eqb acol col then
          let entry := dget_entry g c in
          let* new := collect f (dget str_eqb (agg_name f acol) entry) v in
          reduce_tuple aggs' g col v (dset N.eqb g (dset str_eqb (agg_name f acol) new entry) c)
        else reduce_tuple aggs' g col v c
    end.

  (** group_by.py 93-99: the values a record contributes, per collected column *)
  Definition contribution (col : str) (r : record) : option value :=
    if str_eqb col $"*" then Some (VStr $"*")
    else match rget col r with VNull => None | v => Some v end.

  Fixpoint reduce_columns (aggs : list (func * str)) (collect_columns : list str) (g : N) (r : record)
           (c : list (N * list (str * value))) : result (list (N * list (str * value))) :=
    match collect_columns with
    | [] => Ok c
    | col :: cols =>
        let* c := match contribution col r with
                  | Some v => reduce_tuple aggs g col v c
                  | None => Ok c
                  end in
        reduce_columns aggs cols g r c
    end.

  (** group_by.py 51-99 [_map] (the short cut of lines 66-71 compares a tuple or list with a set and is
      never taken), interleaved with the consumer loop 129-156 *)
  Definition reduce_record (columns : list str) (aggs : list (func * str)) (collect_columns : list str)
             (st : state) (r : record) : result state :=
    let g := group_key columns r in
    let* keys :=
      (if dhas N.eqb g (group_keys st) then Ok (group_keys st)
       else let keys := group_keys st ++ [(g, map (fun c => (c, rget c r)) columns)] in
            if (group_limit <=? Z.of_nat (length keys))%Z then Raise TooManyGroups else Ok keys) in
    let* c := reduce_columns aggs collect_columns g r (collector st) in
    Ok (mkState keys c).

  Fixpoint reduce_all (columns : list str) (aggs : list (func * str)) (collect_columns : list str)
           (st : state) (rows : list record) : result state :=
    match rows with
    | [] => Ok st
    | r :: rest => let* st := reduce_record columns aggs collect_columns st r in
                   reduce_all columns aggs collect_columns st rest
    end.

  (** group_by.py 117-122: averages add the sum and the count of their column to the list *)
  Definition expand (requested : list (func * str)) : list (func * str) :=
    requested ++ flat_map (fun fc => match fst fc with AVG => [(SUM, snd fc); (COUNT, snd fc)] | _ => [] end) requested.

  (** group_by.py 165-167: [results["SUM(c)"] / results["COUNT(c)"]] *)
  Definition average (entry : list (str * value)) (col : str) : result cell :=
    match dget str_eqb (agg_name SUM col) entry, dget str_eqb (agg_name COUNT col) entry with
    | Some s, Some n =>
        match num_of s, num_of n with
        | Some a, Some b => if (b =? 0)%Z then Raise ZeroDivisionError else Ok (Quotient a b)
        | _, _ => Raise TypeError
        end
    | _, _ => Raise KeyError
    end.

  (** group_by.py 164-177: one row of the result *)
  Definition result_row (requested : list (func * str)) (keys : list (str * value))
             (entry : list (str * value)) : result row :=
    let* cells := mapM (fun fc : func * str =>
                          let (f, col) := fc in
                          let* x := match f with
                                    | AVG => average entry col
                                    | _ => Ok (Cell (rget (agg_name f col) entry))
                                    end in
                          Ok (agg_name f col, x)) requested in
    Ok (fold_left (fun d kv => dset str_eqb (fst kv) (Cell (snd kv)) d) keys
                  (fold_left (fun d kv => dset str_eqb (fst kv) (snd kv) d) cells [])).

  (** group_by.py 101-177 [aggregate].  Simplifications: [columns_to_collect] is a set, read here in the order
      of first occurrence; the rows are yielded one by one, here an exception leaves none. *)
  Definition aggregate (columns : list str) (requested : list (func * str)) (rows : list record)
    : result (list row) :=
    let aggs := expand requested in
    let collect_columns := dedup str_eqb (map snd aggs) in
    let* st := reduce_all columns aggs collect_columns (mkState [] []) rows in
    mapM (fun ge : N * list (str * value) =>
            match dget N.eqb (fst ge) (group_keys st) with
            | Some keys => result_row requested keys (snd ge)
            | None => Raise KeyError
            end)
         (isort (fun a b => (fst a <=? fst b)%N) (collector st)).

  (** group_by.py 246-254 [groups]: [_map("*")] collects the column "*" *)
  Definition groups (columns : list str) (rows : list record) : result (list (list (str * value))) :=
    let* st := reduce_all columns [] [$"*"] (mkState [] []) rows in
    Ok (map (fun gk => mkdict (snd gk)) (group_keys st)).
End GroupBy.
