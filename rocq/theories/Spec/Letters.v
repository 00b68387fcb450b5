(** Specification: letters in capitals and small letters. *)
From Verif.Base Require Import Py.

Definition small_letters : str := $"abcdefghijklmnopqrstuvwxyz".
Definition capitals : str := $"ABCDEFGHIJKLMNOPQRSTUVWXYZ".
(** [d] is [c] in capitals: the capital of a small letter, and everything else itself *)
Definition in_capitals (c d : ascii) : Prop :=
  In (c, d) (combine small_letters capitals) \/ (~ In c small_letters /\ d = c).
Definition in_small_letters (c d : ascii) : Prop :=
  In (c, d) (combine capitals small_letters) \/ (~ In c capitals /\ d = c).
