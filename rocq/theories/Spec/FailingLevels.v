(** What a failing storage keeps of the records which are wanted. *)
From Coq Require Import Permutation.
From Verif.Base Require Import Py Value.
From Verif.Model Require Import Storage Paths Frames Writers Stream Collector.
From Verif.Spec Require Import Paths Writers Stream Reader StreamRead Collector FailingSessions.

(** what is left of the wanted records appended at the moments asked for: all of those whose append returned and possibly some
    of the others, or at least no more than were appended *)
Definition wanted_kept {V} (M : streaming value V) (wanted : value -> bool) (asked : moment -> bool) (x : spell) (kept : list value) : Prop :=
  let returned := filter wanted (returned_on M asked (history_of x) (answers_of x)) in
  let raised := filter wanted (raised_on M asked (history_of x) (answers_of x)) in
  match x with
  | Complete _ _ _ => exists some rest, Permutation kept (returned ++ some) /\ Permutation (some ++ rest) raised
  | Broken _ _ => exists rest, Permutation (kept ++ rest) (returned ++ raised)
  end.
