(** Concrete sets for the theorems about storage. *)
From Verif.Base Require Import Py PyFacts Value.
From Verif.Model Require Import Json Storage Collections.
From Verif.Spec Require Import Json Storage Collections.
From Verif.Proofs Require Import Json Storage.

Definition identity (s : str) : str := s.
Lemma identity_faithful : faithful_compression identity identity.
Proof. intro s. reflexivity. Qed.

(** six hundred numbered records: three batches, the last of them not full *)
Definition numbered (n : nat) : list value := map (fun i => VDict [($"n", VInt (Z.of_nat i)); ($"t", VStr $"a""b")]) (seq 0 n).

Lemma numbered_distinct n : Forall distinct_keys (numbered n).
Proof.
  apply Forall_forall. intros v H. apply in_map_iff in H as (i & <- & _). cbn. repeat split.
  repeat constructor; cbn; intuition discriminate.
Qed.
Lemma numbered_truthy n : Forall (fun r => truthy r = true) (numbered n).
Proof. apply Forall_forall. intros v H. apply in_map_iff in H as (i & <- & _). reflexivity. Qed.

Definition people : list record :=
  [[($"name", VStr $"ann"); ($"team", VStr $"x")]; [($"name", VStr $"bob"); ($"team", VInt 1)];
   [($"name", VStr $"cid"); ($"team", VStr $"x")]; [($"name", VStr $"dee"); ($"team", VBool true)];
   [($"name", VStr $"eve")]].

Lemma people_keys : Forall (fun r : record => NoDup (map fst r)) people.
Proof.
  apply Forall_forall. intros r H.
  assert (E : map fst r = [$"name"; $"team"] \/ map fst r = [$"name"]) by (repeat destruct H as [<-|H]; auto; destruct H).
  destruct E as [-> | ->]; repeat constructor; cbn [In].
  - intros [E|[]]. apply (f_equal (@hd_error ascii)) in E. discriminate E.
  - tauto.
  - tauto.
Qed.
