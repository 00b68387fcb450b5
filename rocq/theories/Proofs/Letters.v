(** Proofs: UPPER and LOWER. *)
From Verif.Base Require Import Py PyFacts Value.
From Verif.Model Require Import Evaluator.
From Verif.Spec Require Import Letters.

Lemma all_chars (P : ascii -> bool) : forallb P (map ascii_of_nat (seq 0 256)) = true -> forall c, P c = true.
Proof.
  intros H c. rewrite forallb_forall in H. apply H. apply in_map_iff. exists (nat_of_ascii c).
  split; [apply ascii_nat_embedding|]. apply in_seq. pose proof (nat_ascii_bounded c). lia.
Qed.
Definition maps (from to : str) (f : ascii -> ascii) (c : ascii) : bool :=
  existsb (fun p => Ascii.eqb (fst p) c && Ascii.eqb (snd p) (f c)) (combine from to) ||
  (negb (existsb (Ascii.eqb c) from) && Ascii.eqb (f c) c).
Lemma maps_spec from to f c : maps from to f c = true ->
  In (c, f c) (combine from to) \/ (~ In c from /\ f c = c).
Proof.
  unfold maps. rewrite orb_true_iff, andb_true_iff, negb_true_iff, existsb_exists. intros [([a b] & Hp & E)|[N E]].
  - left. cbn [fst snd] in E. apply andb_true_iff in E. destruct E as [E1 E2]. apply Ascii.eqb_eq in E1, E2. now subst.
  - right. apply Ascii.eqb_eq in E. split; auto. intro H.
    assert (existsb (Ascii.eqb c) from = true) by (apply existsb_exists; exists c; split; auto; apply Ascii.eqb_refl). congruence.
Qed.
Lemma upper_c_spec c : in_capitals c (upper_c c).
Proof. apply maps_spec. revert c. apply all_chars. vm_compute. reflexivity. Qed.
Lemma lower_c_spec c : in_small_letters c (lower_c c).
Proof. apply maps_spec. revert c. apply all_chars. vm_compute. reflexivity. Qed.
Lemma upper_spec s : Forall2 in_capitals s (upper s).
Proof. induction s; constructor; auto using upper_c_spec. Qed.
Lemma lower_spec s : Forall2 in_small_letters s (lower s).
Proof. induction s; constructor; auto using lower_c_spec. Qed.

Lemma case_fn : forall dumps other x, exists u l,
  functions dumps other $"UPPER" [x] = Ok (VStr u) /\ functions dumps other $"LOWER" [x] = Ok (VStr l) /\
  Forall2 in_capitals (py_str x) u /\ Forall2 in_small_letters (py_str x) l.
Proof.
  intros dumps other x. exists (upper (py_str x)), (lower (py_str x)).
  split; [reflexivity|]. split; [reflexivity|]. split; [apply upper_spec|apply lower_spec].
Qed.
