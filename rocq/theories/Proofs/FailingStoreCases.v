(** Concrete cases for the theorems on failing streams in the storage of the adapters. *)
From Verif.Base Require Import Py PyFacts Value.
From Verif.Model Require Import Paths Dates Frames ReadRange Cursor Storage Writers Stream Adapters Reader Json Collector.
From Verif.Spec Require Import Paths Dates Writers Stream Reader StreamRead Collector.
From Verif.Spec Require Adapters.
From Verif.Spec Require Import System StreamStore FailingStore.
From Verif.Proofs Require Import ReaderCases StreamReadCases StreamStoreCases CollectorCases FailingReadCases.

(** the attempts which did not fail, each of which stored one blob *)
Definition fs_times (t : list seg) (ns : list nat) : list nat :=
  filter (fun n => negb (existsb (Nat.eqb n) fr_bad)) (seq 0 (attempts (world_of (c_stream (snd (fr_run fr_bad t ns)))))).
Definition fs_after (k : kind) (t : list seg) (ns : list nat) : result stored :=
  fold_left (ss_commit k t) (combine (fs_times t ns) (fr_log fr_bad t ns)) (Ok (ss_before k)).
Definition fs_read (k : kind) (t : list seg) (ns : list nat) : result (list value) :=
  let* s := fs_after k t ns in
  records_read (read_stored loads unz no_other (fun _ => 0%Z) (fun _ => Raise ValueError) k 0%Z [] st_template
                 (of_fields 2024 2 28 0 0 0) (of_fields 2024 3 1 12 0 0) 10 s).
(** the names committed are those of the log *)
Definition fs_named (k : kind) (t : list seg) (ns : list nat) : bool :=
  match fs_after k t ns with
  | Raise _ => false
  | Ok s => forallb (fun e => match get_blob_bytes k (fst e) s with Ok data => str_eqb data (snd e) | Raise _ => false end) (fr_log fr_bad t ns)
  end.
Lemma fs_records k : fs_read k st_template [] = Ok (map a_record [1; 5]%Z) /\
  fs_read k st_template fr_ns = Ok (map a_record [1; 2; 3; 5]%Z) /\
  fs_read k (st_template ++ hour_folders) fr_ns = Ok (map a_record [1; 2; 3; 4; 5]%Z) /\
  fs_named k st_template fr_ns = true /\ fs_named k (st_template ++ hour_folders) fr_ns = true.
Proof. destruct k; repeat split; vm_compute; reflexivity. Qed.
