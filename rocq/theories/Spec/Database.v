(** What the users of a database writer rely on. *)
From Verif.Base Require Import Py.
From Verif.Model Require Import Database.

Section Database.
  Context {R : Type} (E : dbenv R).
  (** the appended rows that were not refused as invalid *)
  Fixpoint rows (cs : list dcall) : list R :=
    match cs with
    | DAppend r :: cs' => match db_check E r with Ok _ => r :: rows cs' | Raise _ => rows cs' end
    | _ :: cs' => rows cs'
    | [] => []
    end.
  (** how often the finalizer ran to its end *)
  Definition completed_runs (n : nat) : nat :=
    length (filter (fun i => negb (db_ffails E i)) (seq 0 n)).
End Database.
