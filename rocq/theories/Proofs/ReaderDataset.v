(** Proofs: the paths a reader makes from its dataset and partitions. *)
From Verif.Base Require Import Py PyFacts.
From Verif.Model Require Import Paths ReadRange.
From Verif.Spec Require Import Paths System.
From Verif.Proofs Require Import Paths System.

Lemma reads_below names parts texts slash : folder_names names -> daily_partitions parts -> written_as parts texts ->
  slash = [] \/ slash = $"/" ->
  reader_dataset (join $"/" names ++ slash) texts = template_text (dataset_template (join $"/" names) parts) ++ $"/".
Proof.
  intros HN HP [NT HT] HS.
  assert (NE : endswith $"/" (join $"/" names) = false).
  { destruct (endswith _ _) eqn:Q; [|reflexivity]. exfalso. apply endswith_iff in Q as [z Hz]. destruct HN as [N C].
    destruct (exists_last N) as (l & c & El).
    assert (K : exists p, join $"/" names = p ++ c).
    { rewrite El. destruct l as [|a l]; [exists []; reflexivity|]. exists (join $"/" (a :: l) ++ $"/"). rewrite join_app by discriminate. rewrite <- app_assoc. reflexivity. }
    destruct K as [p K]. destruct (C c) as [(C1 & _ & C3) _]; [rewrite El; apply in_app_iff; right; now left|].
    destruct (exists_last C1) as (c' & ch & Ec). subst c. rewrite K, app_assoc in Hz. apply app_inj_tail in Hz as [_ ->].
    apply C3. apply in_app_iff. right. now left. }
  assert (D : (if endswith $"/" (join $"/" names ++ slash) then join $"/" names ++ slash else (join $"/" names ++ slash) ++ $"/") = join $"/" names ++ $"/").
  { destruct HS as [->| ->]; [rewrite app_nil_r, NE; reflexivity|].
    assert (Q : endswith $"/" (join $"/" names ++ $"/") = true) by (apply endswith_iff; eauto). rewrite Q. reflexivity. }
  unfold reader_dataset. rewrite D. destruct texts as [|x texts]; [congruence|].
  unfold template_text, dataset_template. cbn [map concat seg_text]. fold (slashed parts).
  rewrite (slashed_join seg_text); [|reflexivity|apply (daily_folders parts HP)]. rewrite HT. rewrite <- !app_assoc. reflexivity.
Qed.
