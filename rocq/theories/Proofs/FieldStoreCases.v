(** Concrete cases for the theorems on streams partitioned by a field in the storage of the adapters. *)
From Verif.Base Require Import Py PyFacts Value.
From Verif.Model Require Import Paths Dates Frames ReadRange Cursor Storage Writers Stream Adapters Reader Json.
From Verif.Spec Require Import Paths Dates Writers Stream Reader StreamRead StreamField.
From Verif.Spec Require Import System StreamStore.
From Verif.Proofs Require Import ReaderCases StreamReadCases StreamStoreCases StreamFieldCases.

(** the blobs of the stream, stored by the inner writers of their folders *)
Definition fs_after (k : kind) (x y : str) : result stored :=
  fold_left (ss_commit k st_template) (combine (seq 0 (length (f_log $"user" x y))) (f_log $"user" x y)) (Ok (ss_before k)).
Definition fs_read (k : kind) (x y : str) (asked : option (str * str * str)) : result (list value) :=
  let* s := fs_after k x y in
  records_read (read_asked loads unz no_other pass_thru pass_thru_filter (fun _ => 0%Z) (fun _ => Raise ValueError) k 0%Z [] st_template asked
                 (of_fields 2024 2 28 0 0 0) (of_fields 2024 3 1 12 0 0) 10 s).
Lemma fs_ann k : fs_read k $"ann" $"bob b" (Some ($"user", $"=", $"ann")) = Ok [one $"user" 1 $"ann"; both $"user" 3 [$"ann"; $"bob b"]; one $"user" 4 $"ann"].
Proof. destruct k; vm_compute; reflexivity. Qed.
Lemma fs_twice k : fs_read k $"a-1" $"a1" (Some ($"user", $"=", $"a1"))
  = Ok [one $"user" 1 $"a-1"; one $"user" 2 $"a1"; both $"user" 3 [$"a-1"; $"a1"]; both $"user" 3 [$"a-1"; $"a1"]; one $"user" 4 $"a-1"; one $"user" 5 $"a1"].
Proof. destruct k; vm_compute; reflexivity. Qed.
Lemma fs_all k : fs_read k $"ann" $"bob b" None
  = Ok [one $"user" 1 $"ann"; both $"user" 3 [$"ann"; $"bob b"]; one $"user" 4 $"ann"; one $"user" 2 $"bob b"; both $"user" 3 [$"ann"; $"bob b"]; one $"user" 5 $"bob b"].
Proof. destruct k; vm_compute; reflexivity. Qed.
