(** C18: the database writer. *)
From Verif.Base Require Import Py.
From Verif.Model Require Import Database.
From Verif.Spec Require Import Database.
From Verif.Proofs Require Database.

(** Whatever the calls (garbage collection included) and database failures: the rows sent, followed by
    those still queued, are the appended rows in order; no batch is empty. *)
Theorem database_rows_sent_once_in_order :
  forall (R : Type) (E : dbenv R) (cs : list dcall) (os : list (result nat)) (s : dstate),
    drun E new_db cs = (os, s) ->
    concat (d_sent s) ++ d_wal s = rows E cs /\ Forall (fun b => b <> []) (d_sent s).
Proof. exact @Database.rows_conserved. Qed.
Print Assumptions database_rows_sent_once_in_order.

(** Once finalize has returned everything is sent, it reported the number of rows, and the finalizer
    (if there is one) has run to its end exactly once. *)
Theorem database_finalize_sends_the_rest :
  forall (R : Type) (E : dbenv R) (cs : list dcall) (os : list (result nat)) (n : nat) (s : dstate),
    drun E new_db (cs ++ [DFinalize]) = (os ++ [Ok n], s) ->
    concat (d_sent s) = rows E cs /\ n = length (rows E cs) /\
    completed_runs E (d_runs s) = if db_finalizer E then 1%nat else 0%nat.
Proof. exact @Database.finalized. Qed.
Print Assumptions database_finalize_sends_the_rest.

Theorem database_finalizer_at_most_once :
  forall (R : Type) (E : dbenv R) (cs : list dcall) (os : list (result nat)) (s : dstate),
    drun E new_db cs = (os, s) -> (completed_runs E (d_runs s) <= 1)%nat.
Proof. exact @Database.finalizer_at_most_once. Qed.
Print Assumptions database_finalizer_at_most_once.

(** Without database failures every batch but the last has exactly 100 rows. *)
Theorem database_batches_full :
  forall (R : Type) (E : dbenv R), (forall n, db_fails E n = false) ->
  forall (rs : list R) (os : list (result nat)) (s : dstate),
    drun E new_db (map DAppend rs ++ [DFinalize]) = (os, s) ->
    exists full_batches last_batch,
      d_sent s = full_batches ++ (match last_batch with [] => [] | _ => [last_batch] end) /\
      Forall (fun b => Z.of_nat (length b) = 100%Z) full_batches /\
      (Z.of_nat (length last_batch) < 100)%Z.
Proof. exact @Database.batches_sized. Qed.
Print Assumptions database_batches_full.

(** 150 rows; the database refuses the first commit. *)
Definition ex_db (fails : nat -> bool) : dbenv nat := mkDbenv _ (fun _ => Ok tt) fails true (fun n => (n =? 0)%nat).
Example ex_db_run :
  let '(os, s) := drun (ex_db (fun n => (n =? 0)%nat)) new_db (map DAppend (seq 0 150) ++ [DFinalize; DFinalize; DDel]) in
  map (length (A:=nat)) (d_sent s) = [101; 49]%nat /\ concat (d_sent s) = seq 0 150 /\
  d_runs s = 2%nat /\ skipn 149 os = [Ok 49; Raise ValueError; Ok 150; Ok 0]%nat.
Proof. vm_compute. repeat split. Qed.
Example ex_db_run_good :
  let '(os, s) := drun (ex_db (fun _ => false)) new_db (map DAppend (seq 0 250) ++ [DFinalize]) in
  map (length (A:=nat)) (d_sent s) = [100; 100; 50]%nat.
Proof. vm_compute. reflexivity. Qed.
