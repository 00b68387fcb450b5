(** Concrete cases for reading a dataset without partitions. *)
From Verif.Base Require Import Py PyFacts Value.
From Verif.Model Require Import Paths Dates Frames ReadRange Cursor Storage Adapters Reader Json.
From Verif.Spec Require Import Paths Dates Reader Cursor.
From Verif.Spec Require Adapters.
From Verif.Spec Require Import System Unpartitioned.
From Verif.Proofs Require Import ReaderCases.

Definition line (r : value) : str := dumps r ++ ["010"%char].
(** two blobs, one in a folder below, something which is no data, and a blob of another dataset *)
Definition un_files : list (str * str) :=
  [($"set/2.jsonl", line (a_record 3)); ($"set/1/a.jsonl", line (a_record 1) ++ line (a_record 2)); ($"set/note.ignore", []);
   ($"sets/4.jsonl", line (a_record 4))].
Definition un_stored (k : kind) : stored :=
  map (fun e : str * str => (match k with Disk => ([], $"data/" ++ fst e) | _ => ($"data", fst e) end, snd e)) un_files.
Lemma un_folder : Adapters.folder [$"data"; $"set"].
Proof.
  split; [cbn; auto|]. split; [|cbv; intuition discriminate].
  intros c [<-|[<-|[]]]; repeat split; try discriminate; cbv; intuition discriminate.
Qed.
Lemma un_proper k : Adapters.proper k (un_stored k).
Proof.
  destruct k; (split; [repeat (constructor; [cbv; intuition discriminate|]); constructor|]);
    intros p v H; repeat (destruct H as [H|H]; [injection H as <- <-|]); try destruct H;
    try (vm_compute; reflexivity); (split; [discriminate|split; [discriminate|cbv; intuition discriminate]]).
Qed.
Lemma un_loose k name : stored_below k (un_stored k) $"data/set" name -> loose name.
Proof.
  intros (_ & _ & data & H).
  assert (G : In name [$"data/set/2.jsonl"; $"data/set/1/a.jsonl"; $"data/set/note.ignore"; $"data/sets/4.jsonl"]).
  { destruct k; cbn [Adapters.holds] in H;
      [repeat (destruct H as [H|H]; [injection H as <- <-; cbn; auto 6|]); destruct H|..];
      destruct H as (b & key & _ & -> & H); repeat (destruct H as [H|H]; [injection H as <- <- <-; cbn; auto 6|]); destruct H. }
  repeat (destruct G as [<-|G]; [vm_compute; auto|]). destruct G.
Qed.
Definition un_read (k : kind) (slash : str) (start stop : datetime) : result (list value) :=
  read_folder loads unz no_other pass_thru pass_thru_filter (fun _ => 0%Z) (fun _ => Raise ValueError) k 0%Z []
    ($"data/set" ++ slash) start stop 10 (un_stored k).
Lemma un_records k : un_read k [] (of_fields 2024 2 28 0 0 0) (of_fields 2024 3 1 12 0 0) = Ok (map a_record [1; 2; 3]%Z) /\
                     un_read k $"/" (of_fields 1999 1 1 0 0 0) (of_fields 1999 1 1 0 0 0) = Ok (map a_record [1; 2; 3]%Z).
Proof. destruct k; split; vm_compute; reflexivity. Qed.
