(** Python values which occur in records.  No mabel code here.

    Simplifications: numbers are integers and booleans (no float, Decimal or date: the code treats
    them through the same operators [==], [<], [+], [str]); text is a list of 8 bit characters;
    dictionaries have text keys. *)
From Verif.Base Require Import Py.

Inductive value :=
| VNull                             (* None *)
| VBool (b : bool)
| VInt (z : Z)
| VStr (s : str)
| VList (l : list value)
| VDict (d : list (str * value)).   (* insertion ordered, distinct keys *)

(** a record: a dictionary with text keys *)
Notation record := (list (str * value)).

(** [record.get(key)] : None when absent *)
Definition rget (k : str) (r : record) : value :=
  match dget str_eqb k r with Some v => v | None => VNull end.

Definition is_none (v : value) : bool := match v with VNull => true | _ => false end.

(** [bool(v)] *)
Definition truthy (v : value) : bool :=
  match v with
  | VNull => false
  | VBool b => b
  | VInt z => negb (z =? 0)%Z
  | VStr s => match s with [] => false | _ => true end
  | VList l => match l with [] => false | _ => true end
  | VDict d => match d with [] => false | _ => true end
  end.

(** numbers: [True] is 1 and [False] is 0 *)
Definition num_of (v : value) : option Z :=
  match v with
  | VInt z => Some z
  | VBool b => Some (if b then 1 else 0)%Z
  | _ => None
  end.

(** [a == b] *)
Fixpoint py_eq (a b : value) : bool :=
  match a, b with
  | VNull, VNull => true
  | VBool x, VBool y => Bool.eqb x y
  | VBool x, VInt z => (z =? (if x then 1 else 0))%Z
  | VInt z, VBool x => (z =? (if x then 1 else 0))%Z
  | VInt x, VInt y => (x =? y)%Z
  | VStr x, VStr y => str_eqb x y
  | VList l, VList m =>
      (fix go l m := match l, m with
                     | [], [] => true
                     | x :: l', y :: m' => py_eq x y && go l' m'
                     | _, _ => false
                     end) l m
  | VDict d, VDict e =>
      (length d =? length e)%nat &&
      (fix go d := match d with
                   | [] => true
                   | (k, v) :: d' =>
                       match dget str_eqb k e with Some w => py_eq v w | None => false end && go d'
                   end) d
  | _, _ => false
  end.

(** [a < b]; TypeError for None, dictionaries and mixed types *)
Fixpoint py_lt (a b : value) : result bool :=
  match a, b with
  | VStr x, VStr y => Ok (str_ltb x y)
  | VList l, VList m =>
      (fix go l m := match l, m with
                     | [], [] => Ok false
                     | [], _ :: _ => Ok true
                     | _ :: _, [] => Ok false
                     | x :: l', y :: m' => if py_eq x y then go l' m' else py_lt x y
                     end) l m
  | _, _ => match num_of a, num_of b with
            | Some x, Some y => Ok (x <? y)%Z
            | _, _ => Raise TypeError
            end
  end.

(** [a <= b] *)
Fixpoint py_le (a b : value) : result bool :=
  match a, b with
  | VStr x, VStr y => Ok (str_leb x y)
  | VList l, VList m =>
      (fix go l m := match l, m with
                     | [], _ => Ok true
                     | _ :: _, [] => Ok false
                     | x :: l', y :: m' => if py_eq x y then go l' m' else py_le x y
                     end) l m
  | _, _ => match num_of a, num_of b with
            | Some x, Some y => Ok (x <=? y)%Z
            | _, _ => Raise TypeError
            end
  end.

(** [a in b]: membership in a list, key of a dictionary, part of a text *)
Definition py_in (a b : value) : result bool :=
  match b with
  | VList l => Ok (existsb (fun x => py_eq x a) l)
  | VDict d => match a with
               | VStr k => Ok (dhas str_eqb k d)
               | VList _ | VDict _ => Raise TypeError   (* unhashable *)
               | _ => Ok false
               end
  | VStr s => match a with VStr n => Ok (contains n s) | _ => Raise TypeError end
  | _ => Raise TypeError
  end.

(** [str(v)] and [repr(v)].  Simplification: [repr] of a text quotes it with ['] and does not escape. *)
Fixpoint py_repr (v : value) : str :=
  match v with
  | VNull => $"None"
  | VBool true => $"True"
  | VBool false => $"False"
  | VInt z => decZ z
  | VStr s => $"'" ++ s ++ $"'"
  | VList l => $"[" ++ join $", " (map py_repr l) ++ $"]"
  | VDict d => $"{" ++ join $", " (map (fun kv => $"'" ++ fst kv ++ $"': " ++ py_repr (snd kv)) d) ++ $"}"
  end.
Definition py_str (v : value) : str := match v with VStr s => s | _ => py_repr v end.

(** [a + b]; texts and lists concatenate *)
Definition py_add (a b : value) : result value :=
  match a, b with
  | VStr x, VStr y => Ok (VStr (x ++ y))
  | VList l, VList m => Ok (VList (l ++ m))
  | _, _ => match num_of a, num_of b with
            | Some x, Some y => Ok (VInt (x + y))
            | _, _ => Raise TypeError
            end
  end.
