(** Folders of the null reader; schemas. *)
From Verif.Base Require Import Py Value.

(** a relative folder none of whose parts looks like a partition, a frame or a dead letter *)
Definition plain_folder (p : str) : Prop :=
  (forall r, p <> "/"%char :: r) /\ (exists c, In c p /\ c <> "/"%char /\ c <> "."%char) /\
  forall part, In part (split "/"%char p) ->
    startswith $"by_" part = false /\ startswith $"frame.complete" part = false /\
    contains $"as_at_" part = false /\ contains $"BACKOUT" part = false.
(** [days] are the different ones of [paths] *)
Definition different (paths days : list str) : Prop := NoDup days /\ forall p, In p days <-> In p paths.

(** the format override [f] names the extension [ext]: in any case, with or without the dot *)
Definition names_format (f ext : str) : Prop :=
  exists e, ext = "."%char :: e /\ e <> [] /\ ~ In "."%char e /\ (lower f = e \/ lower f = ext).
