(** What the helpers are expected to do. *)
From Verif.Base Require Import Py Value.

(** ** Edit distance *)
(** one insertion, deletion or substitution of a character *)
Inductive edit : str -> str -> Prop :=
| edit_insert u c v : edit (u ++ v) (u ++ c :: v)
| edit_delete u c v : edit (u ++ c :: v) (u ++ v)
| edit_replace u c d v : edit (u ++ c :: v) (u ++ d :: v).
(** [n] edits lead from one word to another *)
Inductive edits : nat -> str -> str -> Prop :=
| edits_none w : edits 0 w w
| edits_more n a b c : edit a b -> edits n b c -> edits (S n) a c.
Definition fewest_edits (a b : str) (n : nat) : Prop :=
  edits n a b /\ forall m, edits m a b -> n <= m.

(** ** HTML: the text shown for an escaped text *)
Definition entities : list (str * ascii) :=
  [($"&amp;", "&"%char); ($"&quot;", "034"%char); ($"&#39;", "'"%char); ($"&lt;", "<"%char); ($"&gt;", ">"%char);
   ($"&#x24;", "$"%char)].
Inductive shows : str -> str -> Prop :=
| shows_end : shows [] []
| shows_entity e c s t : In (e, c) entities -> shows s t -> shows (e ++ s) (c :: t)
| shows_char c s t : c <> "&"%char -> shows s t -> shows (c :: s) (c :: t).

(** ** Base 64 characters *)
Definition base64_char (c : ascii) : Prop :=
  is_alpha c = true \/ is_digit c = true \/ c = "+"%char \/ c = "/"%char.

(** a character which can open or close a tag, or an attribute's value *)
Definition markup (c : ascii) : bool :=
  Ascii.eqb c "<" || Ascii.eqb c ">" || Ascii.eqb c "034" || Ascii.eqb c "'" || Ascii.eqb c "$".

(** ** Histogram: the value belongs to bin [i] when it is in the [i]-th interval of width (1 + mx - mn) / (n - 1) above mn *)
Definition in_bin (mn mx : Z) (n i : nat) (v : Z) : bool :=
  (Z.of_nat i * (1 + mx - mn) <=? (v - mn) * (Z.of_nat n - 1))%Z
  && ((v - mn) * (Z.of_nat n - 1) <? (Z.of_nat i + 1) * (1 + mx - mn))%Z.
Definition least (l : list Z) (m : Z) : Prop := In m l /\ forall v, In v l -> (m <= v)%Z.
Definition greatest (l : list Z) (m : Z) : Prop := In m l /\ forall v, In v l -> (v <= m)%Z.

(** ** Validation: [params] are the arguments of a call under their names *)
Section Validation.
  Variable rules : list (str * bool * list str).   (* name, required, incompatible with *)
  Variable params : list (str * bool).              (* name, whether the value counts as true *)
  Definition names_known : Prop := forall p, In p (map fst params) -> In p (map (fun r => fst (fst r)) rules).
  Definition required_given : Prop := forall n i, In (n, true, i) rules -> In n (map fst params).
  Definition compatible : Prop :=
    forall n q i other, In (n, q, i) rules -> In (n, true) params -> In other i -> ~ In other (map fst params).
End Validation.
