(** What reading "from the start to the end" means, independently of cursors. *)
From Verif.Base Require Import Py.
From Coq Require Import Sorted.

(** [names] lists the distinct names in [blobs] in strictly ascending order *)
Definition ascending_names (blobs names : list str) : Prop :=
  StronglySorted (fun a b => str_ltb a b = true) names /\
  (forall b, In b names <-> In b blobs).

(** the records of one uninterrupted read: every distinct blob once, in ascending order of
    the blob names, the records of a blob in their order *)
Definition full_read {R} (contents : str -> list R) (blobs : list str) (out : list R) : Prop :=
  exists names, ascending_names blobs names /\ out = flat_map contents names.
