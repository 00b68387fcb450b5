(** Facts about values. *)
From Verif.Base Require Import Py PyFacts Value.

Section Ind.
  Context (P : value -> Prop).
  Context (Hnull : P VNull) (Hbool : forall b, P (VBool b)) (Hint : forall z, P (VInt z))
          (Hstr : forall s, P (VStr s)) (Hlist : forall l, Forall P l -> P (VList l))
          (Hdict : forall d, Forall (fun kv => P (snd kv)) d -> P (VDict d)).
  Fixpoint value_ind' (v : value) : P v :=
    match v with
    | VNull => Hnull
    | VBool b => Hbool b
    | VInt z => Hint z
    | VStr s => Hstr s
    | VList l => Hlist l ((fix go l : Forall P l :=
                             match l with
                             | [] => Forall_nil P
                             | x :: l' => Forall_cons x (value_ind' x) (go l')
                             end) l)
    | VDict d => Hdict d ((fix go d : Forall (fun kv => P (snd kv)) d :=
                             match d with
                             | [] => Forall_nil _
                             | kv :: d' => Forall_cons kv (value_ind' (snd kv)) (go d')
                             end) d)
    end.
End Ind.

Lemma str_keqb : forall x y : str, str_eqb x y = true <-> x = y.
Proof. apply str_eqb_eq. Qed.

