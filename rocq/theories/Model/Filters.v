(** mabel/utils/text.py and mabel/data/internals/dnf_filters.py: LIKE and filters in disjunctive normal form. *)
From Verif.Base Require Import Py Value.

(** ** Regular expressions
    The part of Python's [re] which the code below uses: [^], [$], [\c], [.], [.*?] and characters which stand
    for themselves.  Anything else is [None]. *)
Inductive re_item := ReBegin | ReEnd | ReChar (c : ascii) | ReAny | ReStar.
Definition newline : ascii := "010"%char.
Definition re_special (c : ascii) : bool := mem Ascii.eqb c $".^$*+?{}[]|()\".
Fixpoint re_parse (s : str) : option (list re_item) :=
  match s with
  | [] => Some []
  | c :: s1 =>
      if Ascii.eqb c "^" then option_map (cons ReBegin) (re_parse s1)
      else if Ascii.eqb c "$" then option_map (cons ReEnd) (re_parse s1)
      else if Ascii.eqb c "\" then
        match s1 with
        | d :: s2 => if re_special d then option_map (cons (ReChar d)) (re_parse s2) else None
        | [] => None
        end
      else if Ascii.eqb c "." then
        match s1 with
        | d :: e :: s3 => if Ascii.eqb d "*" && Ascii.eqb e "?" then option_map (cons ReStar) (re_parse s3)
                          else option_map (cons ReAny) (re_parse s1)
        | _ => option_map (cons ReAny) (re_parse s1)
        end
      else if re_special c then None
      else option_map (cons (ReChar c)) (re_parse s1)
  end.

(** [re.match]: whether the items match at the beginning of the text.  [.] does not match a line feed; [$]
    matches at the end and before a line feed which is the last character. *)
Fixpoint re_match (items : list re_item) (start : bool) (s : str) : bool :=
  match items with
  | [] => true
  | ReBegin :: r => start && re_match r start s
  | ReEnd :: r => (match s with [] => true | [c] => Ascii.eqb c newline | _ => false end) && re_match r start s
  | ReChar c :: r => match s with x :: s' => Ascii.eqb c x && re_match r false s' | [] => false end
  | ReAny :: r => match s with x :: s' => negb (Ascii.eqb x newline) && re_match r false s' | [] => false end
  | ReStar :: r =>
      (fix star (start : bool) (s : str) : bool :=
         re_match r start s ||
         match s with x :: s' => negb (Ascii.eqb x newline) && star false s' | [] => false end) start s
  end.

(** text.py 6 REGEX_CHARACTERS *)
Definition regex_characters (c : ascii) : str := if mem Ascii.eqb c $".^$*+?{}[]|()\" then ["\"%char; c] else [c].

(** text.py 32-39 [_sql_like_fragment_to_regex] *)
Definition sql_like_fragment_to_regex (fragment : str) : str :=
  let safe_fragment := flat_map regex_characters fragment in
  $"^" ++ replace $"_" $"." (replace $"%" $".*?" safe_fragment) ++ $"$".

(** text.py 42-43 [like]; [None] when the expression is outside the modelled part of [re] *)
Definition like (x y : str) : option bool :=
  match re_parse (sql_like_fragment_to_regex (lower y)) with
  | Some items => Some (re_match items true (lower x))
  | None => None
  end.

(** [like(x, y)] on values: [y.lower()], [str(x)] *)
Definition like_values (x y : value) : result bool :=
  match y with
  | VStr p => match like (py_str x) p with Some b => Ok b | None => Raise ValueError end
  | _ => Raise AttributeError
  end.

(** text.py 46-47 [not_like] *)
Definition not_like_values (x y : value) : result bool := let* b := like_values x y in Ok (negb b).

Section Dnf.
  (** text.py 50-51 [matches]: a regular expression search; not modelled *)
  Context (matches : value -> value -> result bool).

  (** dnf_filters.py 17-35 OPERATORS *)
  Definition operators (op : str) : option (value -> value -> result bool) :=
    if str_mem op [$"="; $"=="; $"is"] then Some (fun x y => Ok (py_eq x y))
    else if str_mem op [$"!="; $"<>"] then Some (fun x y => Ok (negb (py_eq x y)))
    else if str_eqb op $"<" then Some py_lt
    else if str_eqb op $">" then Some (fun x y => py_lt y x)
    else if str_eqb op $"<=" then Some py_le
    else if str_eqb op $">=" then Some (fun x y => py_le y x)
    else if str_eqb op $"like" then Some like_values
    else if str_mem op [$"matches"; $"~"] then Some matches
    else if str_eqb op $"in" then Some py_in
    else if str_mem op [$"!in"; $"not in"] then Some (fun x y => let* b := py_in x y in Ok (negb b))
    else if str_eqb op $"contains" then Some (fun x y => py_in y x)
    else if str_eqb op $"!contains" then Some (fun x y => let* b := py_in y x in Ok (negb b))
    else None.

  (** A filter: None, a tuple of three, a list, or something else.  Simplification: no tuples of other sizes. *)
  Inductive pred := PNone | PTuple (key op : str) (v : value) | PList (l : list pred) | POther.
  Definition is_tuple (p : pred) : bool := match p with PTuple _ _ _ => true | _ => false end.
  Definition is_list (p : pred) : bool := match p with PList _ => true | _ => false end.

  (** Python's [all(...)] and [any(...)] of a generator: they stop at the first False / True *)
  Definition allM {A} (f : A -> result bool) : list A -> result bool :=
    fix go l :=
      match l with
      | [] => Ok true
      | x :: l' => let* b := f x in if b then go l' else Ok false
      end.
  Definition anyM {A} (f : A -> result bool) : list A -> result bool :=
    fix go l :=
      match l with
      | [] => Ok false
      | x :: l' => let* b := f x in if b then Ok true else go l'
      end.

  (** dnf_filters.py 38-75 [evaluate] *)
  Fixpoint evaluate (p : pred) (r : record) : result bool :=
    match p with
    | PNone => Ok true
    | PTuple key op v =>
        match rget key r with
        | VNull => Ok false
        | x => match operators (lower op) with Some f => f x v | None => Raise KeyError end
        end
    | PList l =>
        if forallb is_tuple l then allM (fun q => evaluate q r) l
        else if forallb is_list l then anyM (fun q => evaluate q r) l
        else Raise InvalidSyntaxError
    | POther => Raise InvalidSyntaxError
    end.

  (** dnf_filters.py 81-106 [DnfFilters.__init__]: [empty_filter] and [predicates] ([filters if filters else []]) *)
  Definition init_filters (filters : pred) : bool * pred :=
    match filters with PNone => (true, PList []) | p => (false, p) end.

  (** a generator expression with a condition: an exception ends it *)
  Fixpoint filterM {A} (f : A -> result bool) (l : list A) : result (list A) :=
    match l with
    | [] => Ok []
    | x :: l' => let* b := f x in let* rest := filterM f l' in Ok (if b then x :: rest else rest)
    end.

  (** dnf_filters.py 108-122 [filter_dictset].  Simplification: the records before an exception are not kept. *)
  Definition filter_dictset (filters : pred) (rows : list record) : result (list record) :=
    let (empty_filter, predicates) := init_filters filters in
    if empty_filter then Ok rows else filterM (evaluate predicates) rows.
End Dnf.
