(** Specification: samples and tables. *)
From Verif.Base Require Import Py Value.
From Verif.Model Require Import Views.

(** ** Samples *)
(** [some] is [all] with some elements left out *)
Inductive subsequence {A} : list A -> list A -> Prop :=
| sub_nil : subsequence [] []
| sub_keep x a b : subsequence a b -> subsequence (x :: a) (x :: b)
| sub_drop x a b : subsequence a b -> subsequence a (x :: b).

(** ** Tables *)
(** a text in the middle of a cell *)
Definition centred (w : nat) (text : str) (cell : list glyph) : Prop :=
  exists l r, cell = text_glyphs (repeat " "%char l ++ text ++ repeat " "%char r) /\
    length cell = (w + 2)%nat /\ (1 <= l)%nat /\ (1 <= r)%nat /\ (l <= r + 1)%nat /\ (r <= l + 1)%nat.
(** a line of a table: cells with the texts, of the given widths, between vertical lines *)
Inductive cells : list nat -> list str -> list glyph -> Prop :=
| cells_nil : cells [] [] []
| cells_cons w ws text texts cell rest : centred w text cell -> cells ws texts rest ->
    cells (w :: ws) (text :: texts) (cell ++ [Vertical] ++ rest).
(** a rule over the same widths *)
Inductive rule (mid : glyph) : list nat -> list glyph -> Prop :=
| rule_last w : rule mid [w] (repeat Horizontal (w + 2))
| rule_cons w ws rest : rule mid ws rest -> rule mid (w :: ws) (repeat Horizontal (w + 2) ++ [mid] ++ rest).
