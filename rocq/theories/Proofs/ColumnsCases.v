(** Concrete cases and corollaries: the types of columns. *)
From Verif.Base Require Import Py PyFacts Value.
From Verif.Model Require Import Storage DictSet Columns.
From Verif.Spec Require Import DictSet Columns.
From Verif.Proofs Require Import Columns.

(** numbers above a hundred stand for floats here *)
Definition type_of (v : value) : str :=
  match v with
  | VNull => $"NoneType" | VBool _ => $"bool" | VInt z => if (100 <? z)%Z then $"float" else $"int"
  | VStr _ => $"str" | VList _ => $"list" | VDict _ => $"dict"
  end.
Definition kinds : list record :=
  [[($"n", VStr $"ann"); ($"age", VInt 3); ($"x", VInt 1); ($"e", VNull)];
   [($"n", VStr $"bob"); ($"age", VNull); ($"x", VInt 101)];
   [($"n", VInt 5); ($"age", VInt 7); ($"late", VInt 7)]].
Definition types_claim : Prop :=
  Forall well_formed kinds /\
  types type_of true 2 kinds = [($"n", $"str"); ($"age", $"int"); ($"x", $"numeric"); ($"e", $"mixed")] /\
  types type_of true 100 kinds =
    [($"n", $"mixed"); ($"age", $"int"); ($"x", $"numeric"); ($"e", $"mixed"); ($"late", $"int")] /\
  Forall (fun v => type_of v = $"int") (present $"age" (firstn 3 kinds)) /\ present $"age" (firstn 3 kinds) <> [].
Lemma types_holds : types_claim.
Proof.
  split; [repeat constructor; cbn; intuition discriminate|]. split; [vm_compute; reflexivity|]. split; [vm_compute; reflexivity|].
  split; [repeat constructor|discriminate].
Qed.
