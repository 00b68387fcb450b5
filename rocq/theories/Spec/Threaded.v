(** Specification: what reading in several threads must deliver. *)
From Verif.Base Require Import Py Value.
From Verif.Model Require Import Threaded.

(** the pages of one blob among those given, in order *)
Definition pages_for {B C} (same : B -> B -> bool) (b : B) (given : list (B * C)) : list C :=
  map snd (filter (fun x => same b (fst x)) given).
(** a comparison of blobs (their names differ) *)
Definition compares {B} (same : B -> B -> bool) : Prop := forall a b, same a b = true <-> a = b.
(** how often in a history something happened *)
Definition times (p : event -> bool) (es : list event) : nat := length (filter p es).
Definition gave_up (e : event) : bool := match e with GiveUp => true | _ => false end.
(** a thread took its first blob; a thread which had none got the signal to end *)
Definition took_first (e : event) : bool := match e with First => true | _ => false end.
Definition stopped_first (e : event) : bool := match e with StopFirst => true | _ => false end.
(** steps which bring the read on: not the reader finding nothing and looking again *)
Definition useful (e : event) : bool := match e with Look | Nothing | Expire | Abandon | GiveUp => false | _ => true end.
