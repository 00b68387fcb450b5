(** Model of Expression.to_dnf (mabel/data/internals/expression.py) and of DNF filters made by it. *)
From Verif.Base Require Import Py Value.
From Verif.Model Require Import Filters Tokens Expression.

(** What to_dnf returns: a value, a tuple (left, operator, right), a tuple ("NOT", x), a list *)
Inductive dnf :=
| DValue (v : value)
| DTest (l : dnf) (op : str) (r : dnf)
| DNot (l : dnf)
| DList (l : list dnf).

(** expression.py 254-290 [to_dnf], [_inner_to_dnf]; a NOT without anything below it is [None.token_type], an
    AttributeError *)
Fixpoint to_dnf (t : tree) : result dnf :=
  match t with
  | TLeaf LITERAL v | TLeaf DATE v => Ok (DValue (VStr ($"""" ++ py_str v ++ $"""")))
  | TLeaf _ v => Ok (DValue v)
  | TVar name => Ok (DValue (VStr name))
  | TBareNot => Raise AttributeError
  | TAnd a b => let* l := to_dnf a in let* r := to_dnf b in Ok (DList [l; r])
  | TOr a b => let* l := to_dnf a in let* r := to_dnf b in Ok (DList [DList [l]; DList [r]])
  | TOp op a b => let* l := to_dnf a in let* r := to_dnf b in Ok (DTest l op r)
  | TNot a => let* l := to_dnf a in Ok (DNot l)
  end.

Section Evaluate.
  Context (matches : value -> value -> result bool).
  Definition is_tuple (d : dnf) : bool := match d with DTest _ _ _ | DNot _ => true | _ => false end.
  Definition is_list (d : dnf) : bool := match d with DList _ => true | _ => false end.
  (** the value a part stands for as an operand; tuples and lists are not modelled as operands *)
  Definition operand_of (d : dnf) : option value := match d with DValue v => Some v | _ => None end.

  (** dnf_filters.py 38-75 [evaluate] on these.  A tuple of two cannot be unpacked (ValueError); the key of
      a record is a text, so any other value is the key of nothing.  Simplification: a tuple or list as key or
      value is a TypeError. *)
  Fixpoint evaluate_dnf (d : dnf) (r : record) : result bool :=
    match d with
    | DValue VNull => Ok true
    | DValue _ => Raise InvalidSyntaxError
    | DNot _ => Raise ValueError
    | DTest k op v =>
        match operand_of k, operand_of v with
        | Some (VStr key), Some y =>
            match rget key r with
            | VNull => Ok false
            | x => match operators matches (lower op) with Some f => f x y | None => Raise KeyError end
            end
        | Some _, Some _ => Ok false
        | _, _ => Raise TypeError
        end
    | DList l =>
        if forallb is_tuple l then allM (fun q => evaluate_dnf q r) l
        else if forallb is_list l then anyM (fun q => evaluate_dnf q r) l
        else Raise InvalidSyntaxError
    end.
  (** parallel_reader.py 112-115 and dnf_filters.py 124-125: the filter made of an expression, on a record *)
  Definition dnf_selects (t : tree) (r : record) : result bool :=
    let* d := to_dnf t in evaluate_dnf d r.
End Evaluate.
