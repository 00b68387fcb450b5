(** Specification: what a read in several processes must deliver. *)
From Coq Require Import Permutation.
From Verif.Base Require Import Py Value.
From Verif.Model Require Import Workers.

(** [some] is a part of [all], every element of [all] counted once *)
Definition part_of {A} (some all : list A) : Prop := exists rest, Permutation (some ++ rest) all.

(** records whose fields are numbers, booleans and texts *)
Definition flat_record (r : value) : Prop :=
  match r with
  | VDict d => forall kv, In kv d -> match snd kv with VInt _ | VBool _ | VStr _ => True | _ => False end
  | _ => True
  end.

(** how often in a history a worker gave up waiting for its first blob, or died having one *)
Definition give_ups (es : list event) : nat := length (filter (fun e => match e with GiveUp => true | _ => false end) es).
Definition deaths (es : list event) : nat := length (filter (fun e => match e with Die => true | _ => false end) es).
(** a step other than these and the parent's time running out *)
Definition ordinary (e : event) : bool := match e with GiveUp | Die | Expire => false | _ => true end.
