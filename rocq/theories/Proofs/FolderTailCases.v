(** A folder to which a blob is added between two reads. *)
From Coq Require Import Lia.
From Verif.Base Require Import Py PyFacts Value.
From Verif.Model Require Import Paths Dates Frames ReadRange Cursor Storage Adapters Reader Json.
From Verif.Spec Require Import Paths Dates Reader Cursor.
From Verif.Spec Require Adapters.
From Verif.Spec Require Import System Unpartitioned.
From Verif.Proofs Require Import ReaderCases UnpartitionedCases CursorExample.

Definition ft_place (k : kind) (file : str) : place := match k with Disk => ([], $"data/" ++ file) | _ => ($"data", file) end.
(** what is there later: one blob more *)
Definition ft_stored (k : kind) : stored := (ft_place k $"set/3.jsonl", line (a_record 7)) :: un_stored k.
Definition ft_olds : list str := [$"data/set/1/a.jsonl"; $"data/set/2.jsonl"].
Definition ft_news : list str := [$"data/set/3.jsonl"].

Lemma ft_proper k : Adapters.proper k (ft_stored k).
Proof.
  destruct k; (split; [repeat (constructor; [cbv; intuition discriminate|]); constructor|]);
    intros p v H; repeat (destruct H as [H|H]; [injection H as <- <-|]); try destruct H;
    try (vm_compute; reflexivity); (split; [discriminate|split; [discriminate|cbv; intuition discriminate]]).
Qed.
Lemma ft_below k name : stored_below k (ft_stored k) $"data/set" name -> In name [$"data/set/3.jsonl"; $"data/set/2.jsonl"; $"data/set/1/a.jsonl"; $"data/set/note.ignore"].
Proof.
  intros (A & _ & data & H).
  assert (G : In name [$"data/set/3.jsonl"; $"data/set/2.jsonl"; $"data/set/1/a.jsonl"; $"data/set/note.ignore"; $"data/sets/4.jsonl"]).
  { destruct k; cbn [Adapters.holds] in H;
      [repeat (destruct H as [H|H]; [injection H as <- <-; cbn; auto 7|]); destruct H|..];
      destruct H as (b & key & _ & -> & H); repeat (destruct H as [H|H]; [injection H as <- <- <-; cbn; auto 7|]); destruct H. }
  repeat (destruct G as [<-|G]; [try (cbn; auto 6; fail)|]); [|destruct G]. vm_compute in A. discriminate A.
Qed.
Lemma ft_holds k : Forall (fun file => exists data, Adapters.holds k (ft_stored k) ($"data/" ++ file) data) [$"set/3.jsonl"; $"set/2.jsonl"; $"set/1/a.jsonl"].
Proof.
  assert (C : component $"data") by (repeat split; try discriminate; cbv; intuition discriminate).
  destruct k; repeat (apply Forall_cons || apply Forall_nil); eexists; cbn [Adapters.holds];
    try (exists $"data"; eexists; split; [exact C|split; [reflexivity|]]); cbn; eauto 8.
Qed.
Lemma un_below k name : stored_below k (un_stored k) $"data/set" name -> In name [$"data/set/2.jsonl"; $"data/set/1/a.jsonl"; $"data/set/note.ignore"].
Proof.
  intros (A & _ & data & H).
  assert (G : In name [$"data/set/2.jsonl"; $"data/set/1/a.jsonl"; $"data/set/note.ignore"; $"data/sets/4.jsonl"]).
  { destruct k; cbn [Adapters.holds] in H;
      [repeat (destruct H as [H|H]; [injection H as <- <-; cbn; auto 7|]); destruct H|..];
      destruct H as (b & key & _ & -> & H); repeat (destruct H as [H|H]; [injection H as <- <- <-; cbn; auto 7|]); destruct H. }
  repeat (destruct G as [<-|G]; [try (cbn; auto 6; fail)|]); [|destruct G]. vm_compute in A. discriminate A.
Qed.
Lemma un_holds k : Forall (fun file => exists data, Adapters.holds k (un_stored k) ($"data/" ++ file) data) [$"set/2.jsonl"; $"set/1/a.jsonl"].
Proof.
  assert (C : component $"data") by (repeat split; try discriminate; cbv; intuition discriminate).
  destruct k; repeat (apply Forall_cons || apply Forall_nil); eexists; cbn [Adapters.holds];
    try (exists $"data"; eexists; split; [exact C|split; [reflexivity|]]); cbn; eauto 8.
Qed.
Lemma ft_olds_are k name : In name ft_olds <-> stored_below k (un_stored k) $"data/set" name /\ is_readable name = true.
Proof.
  split.
  - pose proof (un_holds k) as H. inversion H as [|? ? H2 H']; subst. inversion H' as [|? ? H1 _]; subst.
    intros [<-|[<-|[]]]; (split; [|reflexivity]); (split; [reflexivity|]); (split; [reflexivity|]); assumption.
  - intros [B Q]. apply un_below in B. destruct B as [<-|[<-|[<-|[]]]]; [cbn; auto..|discriminate Q].
Qed.
Lemma ft_all_are k name : In name (ft_olds ++ ft_news) <-> stored_below k (ft_stored k) $"data/set" name /\ is_readable name = true.
Proof.
  split.
  - pose proof (ft_holds k) as H. inversion H as [|? ? H3 H']; subst. inversion H' as [|? ? H2 H'']; subst. inversion H'' as [|? ? H1 _]; subst.
    intros [<-|[<-|[<-|[]]]]; (split; [|reflexivity]); (split; [reflexivity|]); (split; [reflexivity|]); assumption.
  - intros [B Q]. apply ft_below in B. destruct B as [<-|[<-|[<-|[<-|[]]]]]; [cbn; auto..|discriminate Q].
Qed.
Lemma ft_loose k name : stored_below k (un_stored k) $"data/set" name \/ stored_below k (ft_stored k) $"data/set" name -> loose name.
Proof.
  intros [H|H]; [exact (un_loose k name H)|]. apply ft_below in H.
  repeat (destruct H as [<-|H]; [vm_compute; auto|]). destruct H.
Qed.
Lemma ft_same k name : In name ft_olds -> get_blob_bytes k name (ft_stored k) = get_blob_bytes k name (un_stored k).
Proof. intros [<-|[<-|[]]]; destruct k; vm_compute; reflexivity. Qed.
Lemma ft_later old new : In old ft_olds -> In new ft_news -> str_ltb old new = true.
Proof. intros [<-|[<-|[]]] [<-|[]]; reflexivity. Qed.

Definition ft_read (k : kind) (t : transport) (i : nat) : result (list value * list value) :=
  let* (xs, sv) := read_folder_from loads unz no_other pass_thru pass_thru_filter ex_hash ex_loads k 0%Z [] $"data/set"
                     (of_fields 2024 2 28 0 0 0) (of_fields 2024 2 28 0 0 0) NoCursor i (un_stored k) in
  let* (ys, _) := read_folder_from loads unz no_other pass_thru pass_thru_filter ex_hash ex_loads k 0%Z [] $"data/set"
                     (of_fields 2024 2 29 0 0 0) (of_fields 2024 2 29 0 0 0) (keep ex_hash ex_dumps t sv) 9 (ft_stored k) in
  Ok (xs, ys).
Lemma ft_reads k : ft_read k KeepDict 2 = Ok (map a_record [1; 2]%Z, map a_record [3; 7]%Z) /\
                   ft_read k KeepText 9 = Ok (map a_record [1; 2; 3]%Z, map a_record [7]%Z).
Proof. destruct k; split; vm_compute; reflexivity. Qed.
