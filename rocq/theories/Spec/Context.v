(** Characters of safe names. *)
From Verif.Base Require Import Py.
Definition letter_digit_dash (c : ascii) : bool := existsb (Ascii.eqb c) ($"abcdefghijklmnopqrstuvwxyzABCDEFGHIJKLMNOPQRSTUVWXYZ0123456789_-").
