(** Proofs about the database writer. *)
From Verif.Base Require Import Py PyFacts.
From Verif.Model Require Import Database.
From Verif.Spec Require Import Database.

Section Database.
  Context {R : Type} (E : dbenv R).

  Definition full (b : list R) : Prop := (BATCH_SIZE <= Z.of_nat (length b))%Z.
  Definition dinv (s : dstate (R:=R)) (acc : list R) : Prop :=
    concat (d_sent s) ++ d_wal s = acc /\ d_records s = length acc /\
    Forall (fun b => b <> []) (d_sent s) /\
    completed_runs E (d_runs s) = (if db_finalizer E && d_done s then 1 else 0)%nat.

  Lemma commit_dinv s acc o s' : dinv s acc -> db_commit E s = (o, s') ->
    dinv s' acc /\ d_records s' = d_records s /\ d_runs s' = d_runs s /\ d_done s' = d_done s /\
    (forall x, o = Ok x -> d_wal s' = []) /\
    (d_sent s' = d_sent s \/ (d_wal s <> [] /\ d_sent s' = d_sent s ++ [d_wal s])) .
  Proof.
    intros (I1 & I2 & I3 & I4). unfold db_commit. destruct (d_wal s) as [|r w] eqn:Ew.
    - intros [= <- <-]. unfold dinv. rewrite Ew. repeat split; auto.
    - destruct (db_fails E (d_tries s)); intros [= <- <-]; unfold dinv; cbn [d_wal d_sent d_records d_runs d_done].
      + split; [repeat split; auto|]. repeat split; auto. discriminate.
      + rewrite concat_app. cbn [concat]. rewrite !app_nil_r. split.
        { repeat split; auto. apply Forall_app. split; auto. constructor; auto. discriminate. }
        repeat split; auto. right. split; [discriminate|auto].
  Qed.
  Lemma completed_S n : completed_runs E (S n) = (completed_runs E n + if db_ffails E n then 0 else 1)%nat.
  Proof.
    unfold completed_runs. rewrite seq_S, filter_app, app_length. cbn. destruct (db_ffails E n); reflexivity.
  Qed.
  Lemma inner_dinv s acc o s' : dinv s acc -> inner_finalize E s = (o, s') ->
    dinv s' acc /\ d_wal s' = d_wal s /\ d_records s' = d_records s /\ d_sent s' = d_sent s /\
    (forall x, o = Ok x -> d_done s' = true).
  Proof.
    intros (I1 & I2 & I3 & I4). unfold inner_finalize.
    destruct (db_finalizer E) eqn:Ef; cbn [andb] in *.
    - destruct (d_done s) eqn:Ed; cbn [negb] in *.
      + intros [= <- <-]. unfold dinv. cbn [d_wal d_sent d_records d_runs d_done]. rewrite Ef. cbn [andb]. repeat split; auto.
      + destruct (db_ffails E (d_runs s)) eqn:Er; intros [= <- <-]; unfold dinv; cbn [d_wal d_sent d_records d_runs d_done];
          rewrite Ef, completed_S, Er, I4; repeat split; auto; discriminate.
    - intros [= <- <-]. unfold dinv. cbn [d_wal d_sent d_records d_runs d_done]. rewrite Ef. cbn [andb]. repeat split; auto.
  Qed.
  Lemma finalize_dinv s acc o s' : dinv s acc -> db_finalize E s = (o, s') ->
    dinv s' acc /\ (forall n, o = Ok n -> d_wal s' = [] /\ n = length acc /\ d_done s' = true).
  Proof.
    intros I. unfold db_finalize. destruct (db_commit E s) as [o1 s1] eqn:E1.
    destruct (commit_dinv _ _ _ _ I E1) as (I1 & _ & _ & _ & W & _).
    destruct o1 as [x|e]; [|intros [= <- <-]; split; auto; discriminate].
    destruct (inner_finalize E s1) as [o2 s2] eqn:E2.
    destruct (inner_dinv _ _ _ _ I1 E2) as (I2 & W2 & _ & _ & D).
    destruct o2 as [y|e]; intros [= <- <-]; (split; [auto|]); [|discriminate].
    intros n [= <-]. rewrite W2. split; [eapply W; eauto|]. split; [apply I2|eapply D; eauto].
  Qed.
  Lemma append_dinv s acc r o s' : dinv s acc -> db_append E s r = (o, s') ->
    dinv s' (acc ++ rows E [DAppend r]).
  Proof.
    intros (I1 & I2 & I3 & I4). unfold db_append. cbn [rows]. destruct (db_check E r) as [u|e] eqn:Ec.
    2:{ intros [= <- <-]. rewrite app_nil_r. split; auto. }
    set (s1 := mkD _ _ _ _ _ _ _).
    assert (J: dinv s1 (acc ++ [r])).
    { unfold dinv, s1. cbn [d_wal d_sent d_records d_runs d_done]. rewrite app_assoc, I1, app_length, I2. cbn.
      repeat split; auto. lia. }
    destruct (_ <=? _)%Z.
    - destruct (db_commit E s1) as [o1 s2] eqn:E1.
      destruct (commit_dinv _ _ _ _ J E1) as (J2 & _ & _ & _ & W & _).
      destruct o1 as [x|e]; intros [= <- <-]; auto.
      specialize (W x eq_refl). destruct J2 as (K1 & K2 & K3 & K4). unfold dinv.
      cbn [d_wal d_sent d_records d_runs d_done]. rewrite W in K1. auto.
    - intros [= <- <-]. auto.
  Qed.
  Lemma del_dinv s acc : dinv s acc -> dinv (db_del E s) acc.
  Proof.
    intros I. unfold db_del. destruct (db_commit E s) as [o1 s1] eqn:E1.
    destruct (commit_dinv _ _ _ _ I E1) as (I1 & _). destruct o1; auto.
    destruct (db_finalize E s1) as [o2 s2] eqn:E2. apply (finalize_dinv _ _ _ _ I1 E2).
  Qed.
  Lemma rows_app a b : rows E (a ++ b) = rows E a ++ rows E b.
  Proof. induction a as [|[r| |] a IH]; cbn; auto. destruct (db_check E r); cbn; now rewrite IH. Qed.
  Lemma drun_dinv cs : forall s acc os s', dinv s acc -> drun E s cs = (os, s') -> dinv s' (acc ++ rows E cs).
  Proof.
    induction cs as [|c cs IH]; intros s acc os s' I; cbn [drun].
    - intros [= <- <-]. now rewrite app_nil_r.
    - destruct (dstep E s c) as [o s1] eqn:E1. destruct (drun E s1 cs) as [os1 s2] eqn:E2. intros [= <- <-].
      change (c :: cs) with ([c] ++ cs). rewrite rows_app, app_assoc. eapply IH; [|exact E2].
      destruct c; cbn [dstep] in E1.
      + eapply append_dinv; eauto.
      + cbn. rewrite app_nil_r. eapply finalize_dinv; eauto.
      + injection E1 as _ <-. cbn. rewrite app_nil_r. apply del_dinv; auto.
  Qed.
  Lemma dinv_new : dinv new_db [].
  Proof. unfold dinv. cbn. repeat split; auto. destruct (db_finalizer E); reflexivity. Qed.

  Lemma rows_conserved cs os s : drun E new_db cs = (os, s) ->
    concat (d_sent s) ++ d_wal s = rows E cs /\ Forall (fun b => b <> []) (d_sent s).
  Proof. intros H. destruct (drun_dinv _ _ _ _ _ dinv_new H) as (I1 & _ & I3 & _). auto. Qed.

  Lemma drun_app a : forall s b os s', drun E s (a ++ b) = (os, s') ->
    exists o1 s1 o2, drun E s a = (o1, s1) /\ drun E s1 b = (o2, s') /\ os = o1 ++ o2.
  Proof.
    induction a as [|c a IH]; intros s b os s'; cbn [drun app].
    - intros H. exists [], s, os. auto.
    - destruct (dstep E s c) as [o s1]. destruct (drun E s1 (a ++ b)) as [ox sx] eqn:Ex. intros [= <- <-].
      destruct (IH _ _ _ _ Ex) as (o1 & t & o2 & A & B & ->). rewrite A. exists (o :: o1), t, o2. auto.
  Qed.
  Lemma finalized cs os n s : drun E new_db (cs ++ [DFinalize]) = (os ++ [Ok n], s) ->
    concat (d_sent s) = rows E cs /\ n = length (rows E cs) /\
    completed_runs E (d_runs s) = if db_finalizer E then 1%nat else 0%nat.
  Proof.
    intros H. apply drun_app in H. destruct H as (o1 & s1 & o2 & A & B & Eo).
    pose proof (drun_dinv _ _ _ _ _ dinv_new A) as I. cbn [app] in I.
    cbn [drun dstep] in B. destruct (db_finalize E s1) as [of sf] eqn:Ef. injection B as <- ->.
    apply app_inj_tail in Eo. destruct Eo as [_ Eo].
    destruct (finalize_dinv _ _ _ _ I Ef) as ((J1 & J2 & J3 & J4) & K). destruct (K n (eq_sym Eo)) as (K1 & K2 & K3).
    rewrite K1, app_nil_r in J1. rewrite K3, andb_true_r in J4. auto.
  Qed.
  Lemma finalizer_at_most_once cs os s : drun E new_db cs = (os, s) -> (completed_runs E (d_runs s) <= 1)%nat.
  Proof.
    intros H. destruct (drun_dinv _ _ _ _ _ dinv_new H) as (_ & _ & _ & I4). rewrite I4. destruct (_ && _); lia.
  Qed.

  (** batch sizes, as long as the database does not fail *)
  Definition sized (s : dstate (R:=R)) : Prop :=
    Forall (fun b => Z.of_nat (length b) = BATCH_SIZE) (d_sent s) /\ (Z.of_nat (length (d_wal s)) < BATCH_SIZE)%Z.
  Hypothesis NF : forall n, db_fails E n = false.
  Lemma appends_sized rs : forall s os s', sized s -> drun E s (map DAppend rs) = (os, s') -> sized s'.
  Proof.
    induction rs as [|r rs IH]; intros s os s' S; cbn [map drun].
    - intros [= <- <-]. auto.
    - destruct (dstep E s (DAppend r)) as [o s1] eqn:E1. destruct (drun E s1 _) as [os1 s2] eqn:E2.
      intros [= <- <-]. eapply IH; [|exact E2]. clear IH E2. destruct S as [S1 S2].
      cbn [dstep] in E1. unfold db_append in E1. destruct (db_check E r); [|injection E1 as <- <-; split; auto].
      cbn [d_wal] in E1. rewrite app_length in E1. cbn [length] in E1.
      destruct (Z.leb_spec BATCH_SIZE (Z.of_nat (length (d_wal s) + 1))) as [L|L].
      + unfold db_commit in E1. cbn [d_wal] in E1. destruct (d_wal s ++ [r]) as [|x w] eqn:Ew; [destruct (d_wal s); discriminate|].
        cbn [d_tries] in E1. rewrite NF in E1. injection E1 as <- <-. split; cbn.
        * apply Forall_app. split; auto. constructor; [|constructor]. rewrite <- Ew, app_length. cbn. lia.
        * unfold BATCH_SIZE. lia.
      + injection E1 as <- <-. split; cbn; auto. rewrite app_length. cbn. lia.
  Qed.
  Lemma batches_sized rs os s : drun E new_db (map DAppend rs ++ [DFinalize]) = (os, s) ->
    exists full_batches last_batch,
      d_sent s = full_batches ++ (match last_batch with [] => [] | _ => [last_batch] end) /\
      Forall (fun b => Z.of_nat (length b) = BATCH_SIZE) full_batches /\
      (Z.of_nat (length last_batch) < BATCH_SIZE)%Z.
  Proof.
    intros H. apply drun_app in H. destruct H as (o1 & s1 & o2 & A & B & Eo).
    assert (S: sized s1).
    { eapply appends_sized; [|exact A]. split; cbn; auto. unfold BATCH_SIZE. lia. }
    destruct S as [S1 S2]. exists (d_sent s1), (d_wal s1). split; [|auto].
    cbn [drun dstep] in B. destruct (db_finalize E s1) as [of sf] eqn:Ef. injection B as _ <-.
    unfold db_finalize, db_commit in Ef. destruct (d_wal s1) as [|x w] eqn:Ew.
    - unfold inner_finalize in Ef. rewrite app_nil_r. destruct (_ && _); [destruct (db_ffails E _)|]; injection Ef as _ <-; reflexivity.
    - rewrite NF in Ef. unfold inner_finalize in Ef. destruct (_ && _); [destruct (db_ffails E _)|]; injection Ef as _ <-; reflexivity.
  Qed.
End Database.
