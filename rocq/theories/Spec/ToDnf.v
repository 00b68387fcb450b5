(** The expressions whose disjunctive normal form is right. *)
From Verif.Base Require Import Py Value.
From Verif.Model Require Import Tokens Expression.

Definition plain_comparisons : list str := [$"="; $"=="; $"!="; $"<>"; $"<"; $">"; $"<="; $">="].
(** a column compared with an integer *)
Inductive number_test : tree -> Prop :=
| number_test_intro name op n : In op plain_comparisons -> wrapped "`" name = false ->
    number_test (TOp op (TVar name) (TLeaf INTEGER (VInt n))).
(** any number of alternatives, each one test or two tests that must both hold *)
Inductive alternatives : tree -> Prop :=
| alternatives_one t : number_test t -> alternatives t
| alternatives_two a b : number_test a -> number_test b -> alternatives (TAnd a b)
| alternatives_or a b : alternatives a -> alternatives b -> alternatives (TOr a b).

(** a record with an integer in every column of the expression *)
Fixpoint numbers_for (t : tree) (r : record) : Prop :=
  match t with
  | TVar name => exists n, dget str_eqb name r = Some (VInt n)
  | TLeaf _ _ | TBareNot => True
  | TOp _ a b | TAnd a b | TOr a b => numbers_for a r /\ numbers_for b r
  | TNot a => numbers_for a r
  end.
