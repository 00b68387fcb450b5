(** Concrete cases for the theorems on streams in the storage of the adapters. *)
From Verif.Base Require Import Py PyFacts Value.
From Verif.Model Require Import Paths Dates Frames ReadRange Cursor Storage Writers Stream Adapters Reader Json.
From Verif.Spec Require Import Paths Dates Writers Stream Reader StreamRead.
From Verif.Spec Require Adapters.
From Verif.Spec Require Import System StreamStore.
From Verif.Proofs Require Import ReaderCases StreamReadCases.

(** what was there: a blob of another dataset *)
Definition ss_before (k : kind) : stored :=
  match k with
  | Disk => [(([], $"data/other/1.jsonl"), $"{}")]
  | _ => [(($"data", $"other/1.jsonl"), $"{}")]
  end.
Lemma ss_proper k : Adapters.proper k (ss_before k).
Proof.
  destruct k; (split; [repeat (constructor; [intros []|]); constructor|]); intros p v [H|[]]; injection H as <- <-;
    [vm_compute; reflexivity|..]; (split; [discriminate|split; [discriminate|cbv; intuition discriminate]]).
Qed.
Lemma ss_nothing k date : within (2024, 2, 28)%Z (2024, 3, 1)%Z date ->
  clean_folder (day_folder st_template date) /\
  listing k [] (range_hours 0%Z (of_fields 2024 2 28 0 0 0) (of_fields 2024 3 1 12 0 0)) (day_folder st_template date) (ss_before k) = [].
Proof.
  intros W. apply st_days in W as [->|[->| ->]]; (split;
    [intros c H; vm_compute in H; repeat (destruct H as [<-|H]; [vm_compute; intuition discriminate|]); destruct H
    |destruct k; vm_compute; reflexivity]).
Qed.

(** the blobs of the stream, stored by the inner writers of their folders *)
Definition ss_commit (k : kind) (t : list seg) (s : result stored) (e : nat * (str * str)) : result stored :=
  let* s := s in
  let* i := new_inner k (s_format st_base) $".jsonl" (join $"/" (removelast (split "/"%char (fst (snd e))))) in
  let* (_, _, s) := Adapters.commit k i None (s_node st_base) (s_clock st_base (fst e)) (snd (snd e)) s in
  Ok s.
Definition ss_after (k : kind) (t : list seg) : result stored :=
  fold_left (ss_commit k t) (combine (seq 0 (length (st_log t))) (st_log t)) (Ok (ss_before k)).
Definition ss_read (k : kind) (t : list seg) : result (list value) :=
  let* s := ss_after k t in
  records_read (read_stored loads unz no_other (fun _ => 0%Z) (fun _ => Raise ValueError) k 0%Z [] st_template
                 (of_fields 2024 2 28 0 0 0) (of_fields 2024 3 1 12 0 0) 10 s).
Lemma ss_records k : ss_read k st_template = Ok (map a_record [1; 2; 3; 4; 5]%Z) /\
                     ss_read k (st_template ++ hour_folders) = Ok (map a_record [1; 2; 3; 4; 5]%Z).
Proof. destruct k; split; vm_compute; reflexivity. Qed.
