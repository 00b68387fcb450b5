(** Python-like primitives shared by all models.  No mabel code here. *)
From Coq Require Export String Ascii.
From Coq Require Export List Bool Arith ZArith Nnat Lia.
From Coq Require Export ZifyBool ZifyNat ZifyN.
Export ListNotations.

(** ** Exceptions as values *)
Inductive exn :=
| TypeError | ValueError | OverflowError | KeyError | IndexError | NameError | AttributeError
| ZeroDivisionError | NotImplementedError | AssertionError | RuntimeError
| DataNotFoundError | InvalidSyntaxError | InvalidExpression | InvalidCursor
| InvalidSqlError | InvalidReaderConfigError | InvalidCombination | AccessDenied
| TooManyGroups | ValidationError | InvalidDataSetError | MissingDependency | InvalidEvaluator
| ImportError
| StorageError  (* any exception of the storage back end *)
| OutOfFuel.    (* not a Python exception: the model's loop bound was too small *)

Inductive result (A : Type) :=
| Ok (a : A)
| Raise (e : exn).
Arguments Ok {A} a.
Arguments Raise {A} e.

Definition bind {A B} (r : result A) (f : A -> result B) : result B :=
  match r with Ok a => f a | Raise e => Raise e end.
Notation "'let*' x := e1 'in' e2" := (bind e1 (fun x => e2))
  (at level 200, x pattern, e1 at level 200, e2 at level 200, right associativity).

(** map a raising function over a list, left to right, stopping at the first exception *)
Fixpoint mapM {A B} (f : A -> result B) (l : list A) : result (list B) :=
  match l with
  | [] => Ok []
  | x :: l' => let* y := f x in let* ys := mapM f l' in Ok (y :: ys)
  end.

(** ** Text: Python's [str] (and [bytes]) as lists of characters.
    Simplification: a character is an 8 bit [ascii]; nothing in the models depends on
    code points above 255. *)
Notation str := (list ascii).
Notation "$ s" := (list_ascii_of_string s%string) (at level 1, s at level 0, only parsing).

Fixpoint list_eqb {A} (eqb : A -> A -> bool) (a b : list A) : bool :=
  match a, b with
  | [], [] => true
  | x :: a', y :: b' => eqb x y && list_eqb eqb a' b'
  | _, _ => false
  end.
Definition str_eqb : str -> str -> bool := list_eqb Ascii.eqb.

Definition mem {A} (eqb : A -> A -> bool) (x : A) (l : list A) : bool := existsb (eqb x) l.
Definition str_mem : str -> list str -> bool := mem str_eqb.

(** [s.startswith(p)] *)
Fixpoint startswith (p s : str) : bool :=
  match p, s with
  | [], _ => true
  | c :: p', d :: s' => Ascii.eqb c d && startswith p' s'
  | _ :: _, [] => false
  end.

(** [s.endswith(p)] *)
Definition endswith (p s : str) : bool := startswith (rev p) (rev s).

(** [needle in hay] for strings *)
Fixpoint contains (needle hay : str) : bool :=
  startswith needle hay ||
  match hay with [] => false | _ :: h => contains needle h end.

(** [s.split(c)] for a one character separator: never empty *)
Fixpoint split (c : ascii) (s : str) : list str :=
  match s with
  | [] => [[]]
  | d :: s' =>
      if Ascii.eqb c d then [] :: split c s'
      else match split c s' with
           | w :: ws => (d :: w) :: ws
           | [] => [[d]]   (* impossible, see split_nonempty *)
           end
  end.

(** [sep.join(l)] *)
Fixpoint join (sep : str) (l : list str) : str :=
  match l with
  | [] => []
  | [x] => x
  | x :: l' => x ++ sep ++ join sep l'
  end.

(** [s.replace(old, new)] for non-empty [old]: left to right, non overlapping *)
Fixpoint replace_fuel (n : nat) (old new s : str) : str :=
  match n with
  | O => s
  | S n' =>
      match s with
      | [] => []
      | c :: s' =>
          if startswith old s then new ++ replace_fuel n' old new (skipn (length old) s)
          else c :: replace_fuel n' old new s'
      end
  end.
Definition replace (old new s : str) : str := replace_fuel (S (length s)) old new s.

Definition is_upper (c : ascii) : bool := let n := N_of_ascii c in (65 <=? n)%N && (n <=? 90)%N.
Definition is_lower (c : ascii) : bool := let n := N_of_ascii c in (97 <=? n)%N && (n <=? 122)%N.
Definition is_digit (c : ascii) : bool := let n := N_of_ascii c in (48 <=? n)%N && (n <=? 57)%N.
Definition is_alpha (c : ascii) : bool := is_upper c || is_lower c.
(** string.whitespace: blank, \t \n \r \x0b \x0c *)
Definition is_space (c : ascii) : bool :=
  let n := N_of_ascii c in (n =? 32)%N || ((9 <=? n)%N && (n <=? 13)%N).

(** [s.upper()], [s.lower()]: ASCII letters only *)
Definition upper_c (c : ascii) : ascii := if is_lower c then ascii_of_N (N_of_ascii c - 32) else c.
Definition lower_c (c : ascii) : ascii := if is_upper c then ascii_of_N (N_of_ascii c + 32) else c.
Definition upper (s : str) : str := map upper_c s.
Definition lower (s : str) : str := map lower_c s.

(** [s.strip()] *)
Fixpoint lstrip (s : str) : str :=
  match s with [] => [] | c :: s' => if is_space c then lstrip s' else s end.
Definition rstrip (s : str) : str := rev (lstrip (rev s)).
Definition strip (s : str) : str := rstrip (lstrip s).

(** code point order on strings *)
Fixpoint str_compare (a b : str) : comparison :=
  match a, b with
  | [], [] => Eq
  | [], _ :: _ => Lt
  | _ :: _, [] => Gt
  | c :: a', d :: b' =>
      match N.compare (N_of_ascii c) (N_of_ascii d) with
      | Eq => str_compare a' b'
      | o => o
      end
  end.
Definition str_leb (a b : str) : bool := match str_compare a b with Gt => false | _ => true end.
Definition str_ltb (a b : str) : bool := match str_compare a b with Lt => true | _ => false end.

(** ** Sequences *)
(** [l[:n]] and [l[n:]] with Python's treatment of negative bounds *)
Definition slice_bound {A} (l : list A) (n : Z) : nat :=
  if (n <? 0)%Z then Z.to_nat (Z.of_nat (length l) + n) else Z.to_nat n.
Definition slice_to {A} (l : list A) (n : Z) : list A := firstn (slice_bound l n) l.
Definition slice_from {A} (l : list A) (n : Z) : list A := skipn (slice_bound l n) l.

(** [l[i]] *)
Definition py_index {A} (l : list A) (i : Z) : result A :=
  let j := (if i <? 0 then Z.of_nat (length l) + i else i)%Z in
  if (j <? 0)%Z then Raise IndexError
  else match nth_error l (Z.to_nat j) with Some x => Ok x | None => Raise IndexError end.

(** [set] of strings, as the list of first occurrences *)
Fixpoint dedup {A} (eqb : A -> A -> bool) (l : list A) : list A :=
  match l with
  | [] => []
  | x :: l' => x :: filter (fun y => negb (eqb x y)) (dedup eqb l')
  end.

(** ** Dictionaries: insertion ordered association lists with distinct keys *)
Section Dict.
  Context {K V : Type} (keqb : K -> K -> bool).
  Definition dict_of := list (K * V).
  Fixpoint dget (k : K) (d : list (K * V)) : option V :=
    match d with
    | [] => None
    | (k', v) :: d' => if keqb k k' then Some v else dget k d'
    end.
  Definition dhas (k : K) (d : list (K * V)) : bool :=
    match dget k d with Some _ => true | None => false end.
  (** [d[k] = v]: replaces in place or appends *)
  Fixpoint dset (k : K) (v : V) (d : list (K * V)) : list (K * V) :=
    match d with
    | [] => [(k, v)]
    | (k', v') :: d' => if keqb k k' then (k', v) :: d' else (k', v') :: dset k v d'
    end.
  Fixpoint ddel (k : K) (d : list (K * V)) : list (K * V) :=
    match d with
    | [] => []
    | (k', v') :: d' => if keqb k k' then d' else (k', v') :: ddel k d'
    end.
  Definition dkeys (d : list (K * V)) : list K := map fst d.
  Definition dvals (d : list (K * V)) : list V := map snd d.
  (** [d.update(e)] *)
  Definition dupdate (d e : list (K * V)) : list (K * V) :=
    fold_left (fun acc kv => dset (fst kv) (snd kv) acc) e d.
End Dict.

(** ** Stable sort ([sorted(l, key=...)] and [reverse=True]): insertion sort.  Python's
    sort is stable in both directions, so [reverse=True] is the stable sort for the
    reversed order. *)
Section Sort.
  Context {A : Type} (leb : A -> A -> bool).
  Fixpoint insert (x : A) (l : list A) : list A :=
    match l with
    | [] => [x]
    | y :: l' => if leb x y then x :: y :: l' else y :: insert x l'
    end.
  Fixpoint isort (l : list A) : list A :=
    match l with
    | [] => []
    | x :: l' => insert x (isort l')
    end.
End Sort.
Definition sorted_str : list str -> list str := isort str_leb.

(** ** Decimal numbers *)
Definition digit (n : N) : ascii := ascii_of_N (48 + n).
Fixpoint dec_fuel (f : nat) (n : N) (acc : str) : str :=
  match f with
  | O => acc
  | S f' =>
      let acc' := digit (n mod 10) :: acc in
      if (n / 10 =? 0)%N then acc' else dec_fuel f' (n / 10) acc'
  end.
(** [str(n)] for n >= 0 *)
Definition dec (n : N) : str := dec_fuel (S (N.to_nat (N.log2 n))) n [].
(** [str(z)] *)
Definition decZ (z : Z) : str :=
  if (z <? 0)%Z then $"-" ++ dec (Z.to_N (- z)) else dec (Z.to_N z).
(** [f"{n:0wd}"] for n >= 0 *)
Definition pad_left (c : ascii) (w : nat) (s : str) : str := repeat c (w - length s) ++ s.
Definition dec_pad (w : nat) (n : N) : str := pad_left "0"%char w (dec n).

(** value of a digit string, None if empty or a non digit occurs *)
Definition digit_val (c : ascii) : option N :=
  if is_digit c then Some (N_of_ascii c - 48)%N else None.
Fixpoint undec_acc (acc : N) (s : str) : option N :=
  match s with
  | [] => Some acc
  | c :: s' => match digit_val c with
               | Some d => undec_acc (10 * acc + d) s'
               | None => None
               end
  end.
Definition undec (s : str) : option N :=
  match s with [] => None | _ => undec_acc 0 s end.

Ltac Zify.zify_post_hook ::= Z.div_mod_to_equations.
