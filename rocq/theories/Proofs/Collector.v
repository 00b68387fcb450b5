(** Proofs about stream writers whose storage fails, and the destructors of their blob writers. *)
From Coq Require Import Permutation Sorted.
From Verif.Base Require Import Py PyFacts.
From Verif.Model Require Import Paths Frames Writers Stream Collector.
From Verif.Spec Require Import Paths Writers Stream Collector.
From Verif.Proofs Require Import Writers Stream.

Section Failing.
  Context {R V : Type} (M : streaming R V).
  Hypothesis Clean0 : clean_failures (m_base M).
  Lemma Clean id : clean_failures (m_writer M id).
  Proof. exact Clean0. Qed.

  Definition blob_of (id : str) (w : world) : str :=
    blob_name (s_filename (m_writer M id)) (s_node (m_writer M id)) (s_clock (m_writer M id) (attempts w)).

  (** an attempt leaves the storage as it is, or adds a blob *)
  Definition kept (w w' : world) : Prop := puts w' = puts w /\ (attempts w <= attempts w')%nat.
  Definition added (id : str) (g : list R) (w w' : world) : Prop :=
    g <> [] /\ (attempts w < attempts w')%nat /\
    exists data, holds (m_writer M id) g data /\ puts w' = puts w ++ [(blob_of id w, data)].

  (** the stored blobs with the attempts they were stored at, which ascend *)
  Notation row := (nat * (str * list R) * str)%type.
  Definition put_row (x : row) : str * str := (nth_name M (snd (fst x), fst (fst x)), snd x).
  (** those stored after a state of the storage *)
  Definition rowed_from (w0 : world) (blobs : list (str * list R)) (w : world) : Prop := exists rows : list row,
    puts w = puts w0 ++ map put_row rows /\ blobs = map (fun x => snd (fst x)) rows /\
    StronglySorted Peano.lt (map (fun x => fst (fst x)) rows) /\ (attempts w0 <= attempts w)%nat /\
    Forall (fun x => (attempts w0 <= fst (fst x))%nat /\ (fst (fst x) < attempts w)%nat /\
                     holds (m_base M) (snd (snd (fst x))) (snd x) /\ snd (snd (fst x)) <> []) rows.
  Definition rowed (blobs : list (str * list R)) (w : world) : Prop := exists rows : list row,
    puts w = map put_row rows /\ blobs = map (fun x => snd (fst x)) rows /\
    StronglySorted Peano.lt (map (fun x => fst (fst x)) rows) /\
    Forall (fun x => (fst (fst x) < attempts w)%nat /\ holds (m_base M) (snd (snd (fst x))) (snd x) /\ snd (snd (fst x)) <> []) rows.
  Lemma rowed_new blobs w : rowed_from (mkWorld 0 []) blobs w -> rowed blobs w.
  Proof.
    intros (rows & R1 & R2 & R3 & _ & R4). exists rows. split; [exact R1|]. split; [exact R2|]. split; [exact R3|].
    eapply Forall_impl; [|exact R4]. intros x (_ & X). exact X.
  Qed.
  Lemma rowed_contents blobs w : rowed blobs w -> contents M blobs (puts w).
  Proof.
    intros (rows & -> & -> & _ & R4). unfold contents. induction R4 as [|x rows (_ & X & _) F IH]; cbn [map]; constructor; [|exact IH].
    split; [exact X|]. unfold put_row, nth_name. cbn [fst snd]. eexists. reflexivity.
  Qed.

  Section From.
  Context (w0 : world).
  Lemma rowed_kept blobs w w' : rowed_from w0 blobs w -> kept w w' -> rowed_from w0 blobs w'.
  Proof.
    intros (rows & R1 & R2 & R3 & R5 & R4) [P A]. exists rows. split; [congruence|]. split; [exact R2|]. split; [exact R3|]. split; [lia|].
    eapply Forall_impl; [|exact R4]. intros x (X0 & X1 & X2). split; [exact X0|]. split; [lia|exact X2].
  Qed.
  Lemma rowed_added blobs id g w w' : rowed_from w0 blobs w -> added id g w w' -> rowed_from w0 (blobs ++ [(id, g)]) w'.
  Proof.
    intros (rows & R1 & R2 & R3 & R5 & R4) (N & A & data & Hd & P). exists (rows ++ [(attempts w, (id, g), data)]).
    split; [rewrite map_app, P, R1, <- app_assoc; reflexivity|]. split; [now rewrite map_app, R2|]. split; [|split; [lia|]].
    - rewrite map_app. cbn [map fst snd].
      assert (F: Forall (fun n => (n < attempts w)%nat) (map (fun x : row => fst (fst x)) rows)).
      { apply Forall_map. eapply Forall_impl; [|exact R4]. intros x (_ & X1 & _). exact X1. }
      revert F. clear -R3. induction R3 as [|n l S IH G]; intros F; cbn [app]; [repeat constructor|].
      inversion F; subst. constructor; [auto|]. apply Forall_app. split; [exact G|]. repeat constructor. assumption.
    - apply Forall_app. split.
      + eapply Forall_impl; [|exact R4]. intros x (X0 & X1 & X2). split; [exact X0|]. split; [lia|exact X2].
      + constructor; [|constructor]. cbn [fst snd]. split; [exact R5|]. split; [exact A|]. split; [exact Hd|exact N].
  Qed.

  Lemma commit_failing id b w p o b' w' : buffered (m_writer M id) b p ->
    commit (m_writer M id) b w = (o, (b', w')) ->
    (exists e, o = Raise e /\ b' = b /\ kept w w') \/
    (exists x, o = Ok x) /\ b' = open_buffer /\ ((p = [] /\ kept w w') \/ added id p w w').
  Proof.
    intros B C.
    destruct (commit_cases _ _ _ _ _ _ _ B (Clean id) C) as [(e & -> & -> & P)|[(-> & -> & -> & ->)|(N & -> & d & H & -> & ->)]].
    - left. exists e. auto.
    - right. split; [eauto|]. split; [reflexivity|]. left. split; [reflexivity|]. split; auto.
    - right. split; [eauto|]. split; [reflexivity|]. right. split; [exact N|]. cbn [attempts puts]. split; [lia|].
      exists d. split; [exact H|reflexivity].
  Qed.

  Lemma blob_append_failing id b w p r o b' w' : buffered (m_writer M id) b p ->
    blob_append (m_writer M id) b w r = (o, (b', w')) ->
    (exists e, o = Raise e /\ kept w w' /\
       (buffered (m_writer M id) b' p \/ buffered (m_writer M id) b' (p ++ [r]))) \/
    (exists n, o = Ok n /\ exists p', buffered (m_writer M id) b' p' /\
       ((p' = p ++ [r] /\ kept w w') \/ (exists g, g ++ p' = p ++ [r] /\ added id g w w'))).
  Proof.
    intros B. assert (K0: kept w w) by (split; auto). unfold blob_append. destruct (is_parquet _) eqn:Ep.
    - unfold arrow_append. set (b1 := mkBlobw _ _ _).
      assert (B1: buffered (m_writer M id) b1 (p ++ [r])).
      { destruct B as [B1 B2]. rewrite Ep in B2. split.
        - cbn. rewrite app_length. cbn. lia.
        - rewrite Ep. cbn. congruence. }
      destruct (_ <? _)%Z.
      + destruct (commit _ b1 w) as [oc [bc wc]] eqn:Ec.
        destruct (commit_failing _ _ _ _ _ _ _ B1 Ec) as [(e & -> & -> & P)|([x ->] & -> & [[H _]|Hp])].
        * intros [= <- <- <-]. left. exists e. auto.
        * destruct p; discriminate.
        * intros [= <- <- <-]. right. eexists. split; [reflexivity|]. exists []. split; [apply buffered_open|].
          right. exists (p ++ [r]). rewrite app_nil_r. auto.
      + intros [= <- <- <-]. right. eexists. split; [reflexivity|]. exists (p ++ [r]). auto.
    - unfold text_append. destruct (s_ser _ r) as [t|e] eqn:Es.
      2:{ intros [= <- <- <-]. left. exists e. auto. }
      assert (X: forall b p, buffered (m_writer M id) b p -> buffered (m_writer M id)
        (mkBlobw (buffer b ++ t) (wal b) (S (records_in_buffer b))) (p ++ [r])).
      { clear -Ep Es. intros b p [B1 B2]. rewrite Ep in B2. destruct B2 as (ts & T & Hb). split.
        - cbn. rewrite app_length. cbn. lia.
        - rewrite Ep. exists (ts ++ [t]). split; [apply Forall2_app_one; auto|].
          cbn. rewrite Hb, concat_app. cbn. now rewrite app_nil_r. }
      destruct (_ <? _)%Z.
      + destruct (commit _ b w) as [oc [bc wc]] eqn:Ec.
        destruct (commit_failing _ _ _ _ _ _ _ B Ec) as [(e & -> & -> & P)|([x ->] & -> & K)].
        * intros [= <- <- <-]. left. exists e. auto.
        * intros [= <- <- <-]. right. eexists. split; [reflexivity|]. exists [r].
          split; [apply (X open_buffer []), buffered_open|].
          destruct K as [(-> & P)|Hp]; [left; auto|right; exists p; auto].
      + intros [= <- <- <-]. right. eexists. split; [reflexivity|]. exists (p ++ [r]). auto.
  Qed.

  (** what is stored, in the pool, dropped and lost, against what was appended *)
  Definition cinv (c : cstate (R:=R)) (acc lost : str -> list R) : Prop :=
    let s := c_stream c in
    NoDup (map p_id (pool s)) /\
    exists blobs pend held,
      rowed_from w0 blobs (world_of s) /\
      (forall id, Permutation (stored_for id blobs ++ pend id ++ stored_for id held ++ lost id) (acc id)) /\
      (forall w, In w (pool s) -> buffered (m_writer M (p_id w)) (p_blob w) (pend (p_id w))) /\
      (forall id, ~ In id (map p_id (pool s)) -> pend id = []) /\
      Forall2 (fun w h => p_id w = fst h /\ buffered (m_writer M (p_id w)) (p_blob w) (snd h)) (c_dropped c) held.

  Lemma cinv_ext c acc acc' lost : (forall id, Permutation (acc id) (acc' id)) -> cinv c acc lost -> cinv c acc' lost.
  Proof.
    intros H (N & bl & pe & hs & C & S & K). split; auto. exists bl, pe, hs.
    split; [auto|]. split; [intros id; eapply Permutation_trans; [apply S|apply H]|]. exact K.
  Qed.

  Lemma pool_append_failing s d acc lost id r o s' : cinv (mkC s d) acc lost -> pool_append M s id r = (o, s') ->
    (exists e, o = Raise e /\ (cinv (mkC s' d) acc lost \/ cinv (mkC s' d) (plus acc id [r]) lost)) \/
    (exists n, o = Ok n) /\ cinv (mkC s' d) (plus acc id [r]) lost.
  Proof.
    intros (ND & bl & pe & hs & C & S & B & Z & Hh). cbn [c_stream c_dropped] in *. unfold pool_append.
    set (pos := match take_last id (pool s) with Some _ => _ | None => _ end).
    assert (P: exists a b rest, pos = (a, b, rest) /\ buffered (m_writer M id) b (pe id) /\
      NoDup (map p_id (a ++ mkPooled id (m_time M (ticks s)) b :: rest)) /\
      (forall w, In w a \/ In w rest -> In w (pool s) /\ p_id w <> id) /\
      (forall x, In x (map p_id (pool s)) -> x <> id -> In x (map p_id (a ++ rest)))).
    { unfold pos. destruct (take_last id (pool s)) as [[[a w] rest]|] eqn:Et.
      - destruct (take_last_Some _ _ _ _ _ Et) as [Ep Ew]. exists a, (p_blob w), rest.
        split; [reflexivity|]. rewrite Ep in *. rewrite map_app in ND. cbn [map] in ND.
        split; [|split; [|split]].
        + rewrite <- Ew. apply B. apply in_app_iff. right. left. auto.
        + rewrite map_app. cbn [map p_id]. now rewrite <- Ew.
        + intros v Hv. split.
          * apply in_app_iff. destruct Hv; [left|right; right]; auto.
          * apply NoDup_remove_2 in ND. intros Ev. apply ND. rewrite Ew. apply in_app_iff.
            destruct Hv as [Hv|Hv]; [left|right]; apply (in_map p_id) in Hv; congruence.
        + intros x Hx Nx. rewrite map_app in *. apply in_app_iff in Hx. apply in_app_iff.
          destruct Hx as [Hx|[Hx|Hx]]; auto. congruence.
      - apply take_last_None in Et. exists (pool s), open_buffer, []. split; [reflexivity|].
        split; [rewrite Z by auto; apply buffered_open|]. split; [|split].
        + rewrite map_app. cbn [map p_id]. apply (Permutation_NoDup (Permutation_cons_append _ _)).
          constructor; auto.
        + intros w [H|[]]. split; auto. intros <-. apply Et. now apply in_map.
        + intros x Hx _. now rewrite app_nil_r. }
    destruct P as (a & b & rest & Epos & Bb & ND' & Ho & Hk). rewrite Epos. clear Epos pos.
    destruct (blob_append _ b (world_of s) r) as [ob [b' w']] eqn:Ea. intros [= <- <-].
    assert (ND'': forall t b', NoDup (map p_id (a ++ mkPooled (R:=R) id t b' :: rest))).
    { intros. rewrite map_app in *. exact ND'. }
    assert (Out: forall x t b', ~ In x (map p_id (a ++ mkPooled (R:=R) id t b' :: rest)) -> pe x = [] /\ x <> id).
    { intros x t b0 Hx. split.
      - apply Z. intros H. destruct (str_eq_dec x id) as [->|Nx].
        + apply Hx. rewrite map_app. apply in_app_iff. right. left. auto.
        + apply Hx. specialize (Hk x H Nx). rewrite map_app in *. apply in_app_iff in Hk. apply in_app_iff.
          destruct Hk; [left|right; right]; auto.
      - intros ->. apply Hx. rewrite map_app. apply in_app_iff. right. left. auto. }
    (* the entry of [id] holds [p'] now, and [extra] was added to what is accounted for *)
    assert (Gen: forall bl' p' extra, rowed_from w0 bl' w' -> buffered (m_writer M id) b' p' ->
      (forall x, stored_for x bl' ++ (if str_eqb x id then p' else pe x) =
                 stored_for x bl ++ pe x ++ if str_eqb x id then extra else []) ->
      cinv (mkC (mkSState (a ++ mkPooled id (m_time M (ticks s)) b' :: rest) w' (Datatypes.S (ticks s))) d) (plus acc id extra) lost).
    { intros bl' p' extra C' Bp Eq. split; [cbn; apply ND''|]. cbn [c_stream c_dropped pool world_of].
      exists bl', (fun x => if str_eqb x id then p' else pe x), hs. split; [exact C'|]. split; [|split; [|split; [|exact Hh]]].
      - intros x. rewrite app_assoc, Eq. unfold plus.
        rewrite <- (S x), <- !app_assoc. do 2 apply Permutation_app_head.
        rewrite (app_assoc (stored_for x hs) (lost x) (if str_eqb x id then extra else [])). apply Permutation_app_comm.
      - intros w Hw. apply in_app_iff in Hw. destruct Hw as [Hw|[<-|Hw]].
        + destruct (Ho w (or_introl Hw)) as [H1 H2]. apply str_eqb_neq in H2. rewrite H2. auto.
        + cbn [p_id p_blob]. rewrite str_eqb_refl. auto.
        + destruct (Ho w (or_intror Hw)) as [H1 H2]. apply str_eqb_neq in H2. rewrite H2. auto.
      - intros x Hx. destruct (Out _ _ _ Hx) as [H1 H2]. apply str_eqb_neq in H2. now rewrite H2. }
    destruct (blob_append_failing _ _ _ _ _ _ _ _ Bb Ea) as [(e & -> & Hp & [Bp|Bp])|(n & -> & p' & Bp & [(-> & Hp)|(g & Hg & Hp)])].
    - left. exists e. split; [auto|]. left. eapply cinv_ext; [|apply (Gen bl (pe id) [])].
      + intros x. unfold plus. destruct (str_eqb x id); rewrite app_nil_r; reflexivity.
      + exact (rowed_kept _ _ _ C Hp).
      + exact Bp.
      + intros x. destruct (str_eqb_reflect x id) as [->|]; now rewrite app_nil_r.
    - left. exists e. split; [auto|]. right. apply (Gen bl (pe id ++ [r])).
      + exact (rowed_kept _ _ _ C Hp).
      + exact Bp.
      + intros x. destruct (str_eqb_reflect x id) as [->|]; [reflexivity|now rewrite app_nil_r].
    - right. split; [eauto|]. apply (Gen bl (pe id ++ [r])).
      + exact (rowed_kept _ _ _ C Hp).
      + exact Bp.
      + intros x. destruct (str_eqb_reflect x id) as [->|]; [reflexivity|now rewrite app_nil_r].
    - right. split; [eauto|]. apply (Gen (bl ++ [(id, g)]) p').
      + exact (rowed_added _ _ _ _ _ C Hp).
      + exact Bp.
      + intros x. rewrite stored_for_app, stored_for_one, <- !app_assoc. f_equal.
        destruct (str_eqb_reflect x id) as [->|]; [exact Hg|now rewrite app_nil_r].
  Qed.

  (** what a call adds of a record, and what it would have added but for the exception *)
  Lemma append_all_failing ids : forall s d acc lost r k o s', cinv (mkC s d) acc lost ->
    append_all M s ids r k = (o, s') ->
    let copies x := map (fun _ => r) (filter (str_eqb x) ids) in
    (exists e done missed, o = Raise e /\ (forall x, Permutation (done x ++ missed x) (copies x)) /\
       cinv (mkC s' d) (fun x => acc x ++ done x) lost) \/
    (exists n, o = Ok n) /\ cinv (mkC s' d) (fun x => acc x ++ copies x) lost.
  Proof.
    induction ids as [|id ids IH]; intros s d acc lost r k o s' I; cbn [append_all]; cbv zeta.
    - intros [= <- <-]. right. split; [eauto|]. eapply cinv_ext; [|exact I]. intros x; cbn. now rewrite app_nil_r.
    - destruct (pool_append M s id r) as [op s1] eqn:Ep.
      assert (Eone: forall x, map (fun _ : str => r) (filter (str_eqb x) (id :: ids)) =
                              (if str_eqb x id then [r] else []) ++ map (fun _ => r) (filter (str_eqb x) ids)).
      { intros x. cbn [filter]. destruct (str_eqb x id); reflexivity. }
      destruct (pool_append_failing _ _ _ _ _ _ _ _ I Ep) as [(e & -> & [I1|I1])|((n & ->) & I1)].
      + intros [= <- <-]. left. exists e, (fun _ => []), (fun x => map (fun _ => r) (filter (str_eqb x) (id :: ids))).
        split; [reflexivity|]. split; [intros; reflexivity|]. eapply cinv_ext; [|exact I1]. intros x. now rewrite app_nil_r.
      + intros [= <- <-]. left. exists e, (fun x => if str_eqb x id then [r] else []), (fun x => map (fun _ => r) (filter (str_eqb x) ids)).
        split; [reflexivity|]. split; [intros x; now rewrite Eone|]. exact I1.
      + intros Ha. pose proof (IH _ _ _ _ _ _ _ _ I1 Ha) as K. cbv zeta in K.
        destruct K as [(e & dn & ms & -> & P & I2)|((m & ->) & I2)].
        * left. exists e, (fun x => (if str_eqb x id then [r] else []) ++ dn x), ms. split; [reflexivity|]. split.
          -- intros x. rewrite Eone, <- app_assoc. apply Permutation_app_head, P.
          -- eapply cinv_ext; [|exact I2]. intros x. unfold plus. now rewrite <- app_assoc.
        * right. split; [eauto|]. eapply cinv_ext; [|exact I2]. intros x. unfold plus. now rewrite Eone, <- app_assoc.
  Qed.

  Lemma filter_others (l : list (pooled (R:=R))) id :
    (forall x, In x (map p_id (filter (fun w => negb (has_id id w)) l)) <-> In x (map p_id l) /\ x <> id).
  Proof.
    intros x. rewrite !in_map_iff. split.
    - intros (v & <- & Hv). apply filter_In in Hv. destruct Hv as [Hv Nv]. split; [eauto|].
      apply negb_true_iff, str_eqb_neq in Nv. auto.
    - intros [(v & <- & Hv) Nv]. exists v. split; auto. apply filter_In. split; auto.
      apply negb_true_iff, str_eqb_neq. auto.
  Qed.
  Lemma NoDup_filter_ids (f : pooled (R:=R) -> bool) l : NoDup (map p_id l) -> NoDup (map p_id (filter f l)).
  Proof.
    induction l as [|v l IH]; cbn; intros ND; [constructor|].
    inversion ND; subst. destruct (f v); cbn; auto. constructor; auto.
    intros H. apply H1. apply in_map_iff in H. destruct H as (u & Eu & Hu). apply filter_In in Hu.
    rewrite <- Eu. apply in_map. tauto.
  Qed.

  Lemma c_remove_failing c acc lost id o c' : cinv c acc lost -> c_remove M c id = (o, c') ->
    cinv c' acc lost /\
    (forall x, In x (map p_id (pool (c_stream c'))) <-> In x (map p_id (pool (c_stream c))) /\ x <> id).
  Proof.
    destruct c as [s d]. intros I. pose proof I as (ND & bl & pe & hs & C & S & B & Z & Hh). unfold c_remove, remove_writer.
    cbn [c_stream c_dropped] in *.
    destruct (filter (has_id id) (pool s)) as [|w [|w2 ws]] eqn:Ef.
    - intros [= <- <-]. split; [exact I|]. intros x. split; [|cbn; tauto]. cbn [c_stream]. intros H. split; auto. intros ->.
      apply in_map_iff in H. destruct H as (w & Ew & Hw).
      assert (K: In w (filter (has_id id) (pool s))) by (apply filter_In; split; auto; apply str_eqb_eq; auto).
      rewrite Ef in K. destruct K.
    - destruct (filter_unique _ _ _ ND Ef) as [Hw Ew].
      specialize (B w Hw) as Bw. rewrite Ew in Bw.
      set (pe' := fun x => if str_eqb x id then [] else pe x).
      assert (PB: forall v, In v (filter (fun w => negb (has_id id w)) (pool s)) ->
                  buffered (m_writer M (p_id v)) (p_blob v) (pe' (p_id v))).
      { intros v Hv. apply filter_In in Hv. destruct Hv as [Hv Nv]. apply negb_true_iff in Nv.
        unfold pe'. unfold has_id in Nv. rewrite Nv. auto. }
      assert (PZ: forall x, ~ In x (map p_id (filter (fun w => negb (has_id id w)) (pool s))) -> pe' x = []).
      { intros y Hy. unfold pe'. destruct (str_eqb_reflect y id); auto. apply Z. intros H. apply Hy. apply filter_others. auto. }
      destruct (commit _ (p_blob w) (world_of s)) as [oc [b' w']] eqn:Ec.
      destruct (commit_failing _ _ _ _ _ _ _ Bw Ec) as [(e & -> & -> & P)|([x ->] & -> & K)].
      + intros [= <- <-]. split; [|exact (filter_others (pool s) id)]. split; [cbn; now apply NoDup_filter_ids|].
        cbn [c_stream c_dropped pool world_of]. exists bl, pe', (hs ++ [(id, pe id)]).
        split; [exact (rowed_kept _ _ _ C P)|]. split; [|split; [exact PB|split; [exact PZ|]]].
        * intros y. rewrite stored_for_app, stored_for_one. rewrite <- (S y). unfold pe'. apply Permutation_app_head.
          destruct (str_eqb_reflect y id) as [->|]; [|now rewrite app_nil_r].
          rewrite <- app_assoc. cbn [app]. rewrite !app_assoc. apply Permutation_app_tail, Permutation_app_comm.
        * apply Forall2_app_one; [exact Hh|]. cbn [fst snd]. rewrite Ew. auto.
      + intros [= <- <-]. split; [|exact (filter_others (pool s) id)]. split; [cbn; now apply NoDup_filter_ids|].
        cbn [c_stream c_dropped pool world_of].
        destruct K as [(E0 & P)|Hp].
        * exists bl, pe', hs. split; [exact (rowed_kept _ _ _ C P)|]. split; [|auto]. intros y. rewrite <- (S y). unfold pe'.
          destruct (str_eqb_reflect y id) as [->|]; [now rewrite E0|auto].
        * exists (bl ++ [(id, pe id)]), pe', hs. split; [exact (rowed_added _ _ _ _ _ C Hp)|]. split; [|auto].
          intros y. rewrite stored_for_app, stored_for_one, <- app_assoc. rewrite <- (S y). unfold pe'.
          apply Permutation_app_head. destruct (str_eqb_reflect y id) as [->|]; reflexivity.
    - exfalso. pose proof (NoDup_filter_ids (has_id id) _ ND) as K.
      assert (A: forall v, In v (filter (has_id id) (pool s)) -> p_id v = id).
      { intros v Hv. apply filter_In in Hv. apply str_eqb_eq. tauto. }
      rewrite Ef in *. cbn in K. inversion K; subst. apply H1. left.
      rewrite (A w), (A w2); cbn; auto.
  Qed.
  Lemma c_remove_all_failing ids : forall c acc lost o c', cinv c acc lost -> c_remove_all M c ids = (o, c') -> cinv c' acc lost.
  Proof.
    induction ids as [|id ids IH]; intros c acc lost o c' I; cbn [c_remove_all].
    - intros [= <- <-]. exact I.
    - destruct (c_remove M c id) as [o1 c1] eqn:Er. destruct (c_remove_failing _ _ _ _ _ _ I Er) as (I1 & _).
      destruct o1; [intros Ha; eapply IH; eauto|intros [= <- <-]; exact I1].
  Qed.
  Lemma c_finalize_fold (ws : list (pooled (R:=R))) : forall c acc lost, cinv c acc lost ->
    let c' := fold_left (fun c w => snd (c_remove M c (p_id w))) ws c in
    cinv c' acc lost /\
    (forall x, In x (map p_id (pool (c_stream c'))) <-> In x (map p_id (pool (c_stream c))) /\ ~ In x (map p_id ws)).
  Proof.
    induction ws as [|w ws IH]; intros c acc lost I; cbn [fold_left].
    - split; auto. intros; cbn; tauto.
    - destruct (c_remove M c (p_id w)) as [o c1] eqn:Er.
      destruct (c_remove_failing _ _ _ _ _ _ I Er) as (I1 & P1). cbn [snd].
      destruct (IH c1 acc lost I1) as [I2 P2]. split; auto. intros x. rewrite P2, P1. cbn. intuition.
  Qed.
  Lemma c_finalize_failing c acc lost : cinv c acc lost ->
    cinv (c_finalize M c) acc lost /\ pool (c_stream (c_finalize M c)) = [].
  Proof.
    intros I. pose proof (c_finalize_fold (pool (c_stream c)) c acc lost I) as F. cbv zeta in F. destruct F as [I0 P].
    split; [exact I0|]. unfold c_finalize. set (c' := fold_left _ _ _) in *.
    assert (Q: forall x, ~ In x (map p_id (pool (c_stream c')))) by (intros x Hx; apply P in Hx; tauto).
    destruct (pool (c_stream c')) as [|w l]; auto. exfalso. apply (Q (p_id w)). left. auto.
  Qed.
  Lemma c_attend_failing c acc lost o c' : cinv c acc lost -> c_attend M c = (o, c') -> cinv c' acc lost.
  Proof.
    intros I. unfold c_attend. cbv zeta. set (c0 := mkC _ _).
    assert (I0: cinv c0 acc lost) by exact I.
    destruct (c_remove_all M c0 _) as [o1 c1] eqn:E1. pose proof (c_remove_all_failing _ _ _ _ _ _ I0 E1) as I1.
    destruct o1; [intros E2; exact (c_remove_all_failing _ _ _ _ _ _ I1 E2)|intros [= <- <-]; exact I1].
  Qed.

  Lemma Forall2_at {A B} (P : A -> B -> Prop) : forall l m n x, Forall2 P l m -> nth_error l n = Some x ->
    exists y m1 m2, m = m1 ++ y :: m2 /\ P x y /\ Forall2 P (firstn n l ++ skipn (S n) l) (m1 ++ m2).
  Proof.
    intros l m n x F. revert n x. induction F as [|a b l m H F IH]; intros [|n] x E; try discriminate.
    - injection E as <-. exists b, [], m. cbn. auto.
    - destruct (IH n x E) as (y & m1 & m2 & -> & Py & Fy). exists y, (b :: m1), m2. split; [reflexivity|]. split; [exact Py|].
      cbn [firstn app]. constructor; [exact H|exact Fy].
  Qed.
  Lemma collect_failing c acc lost n o c' : cinv c acc lost -> collect M c n = (o, c') ->
    pool (c_stream c') = pool (c_stream c) /\
    exists lost', cinv c' acc lost' /\ ((forall e, o <> Raise e) -> lost' = lost).
  Proof.
    destruct c as [s d]. intros I. pose proof I as (ND & bl & pe & hs & C & S & B & Z & Hh). unfold collect. cbn [c_stream c_dropped] in *.
    destruct (nth_error d n) as [w|] eqn:En.
    2:{ intros [= <- <-]. split; [reflexivity|]. exists lost. auto. }
    destruct (Forall2_at _ _ _ _ _ Hh En) as ((i & p) & h1 & h2 & -> & [Ei Bw] & F). cbn [fst snd] in *. subst i.
    destruct (commit _ (p_blob w) (world_of s)) as [oc [b' w']] eqn:Ec. intros [= <- <-]. split; [reflexivity|].
    assert (Q: forall x, stored_for (R:=R) x (h1 ++ (p_id w, p) :: h2) =
               stored_for x h1 ++ (if str_eqb x (p_id w) then p else []) ++ stored_for x h2).
    { intros x. change ((p_id w, p) :: h2) with ([(p_id w, p)] ++ h2). now rewrite !stored_for_app, stored_for_one. }
    destruct (commit_failing _ _ _ _ _ _ _ Bw Ec) as [(e & -> & -> & P)|([x ->] & -> & K)].
    - exists (fun x => (if str_eqb x (p_id w) then p else []) ++ lost x). split; [|intros N; now contradiction (N e)].
      split; [exact ND|]. cbn [c_stream c_dropped pool world_of]. exists bl, pe, (h1 ++ h2). split; [exact (rowed_kept _ _ _ C P)|].
      split; [|auto]. intros x. rewrite <- (S x), Q, stored_for_app, <- !app_assoc. do 3 apply Permutation_app_head.
      rewrite !app_assoc. apply Permutation_app_tail, Permutation_app_comm.
    - exists lost. split; [|auto]. split; [exact ND|]. cbn [c_stream c_dropped pool world_of].
      destruct K as [(-> & P)|Hp].
      + exists bl, pe, (h1 ++ h2). split; [exact (rowed_kept _ _ _ C P)|]. split; [|auto].
        intros y. rewrite <- (S y), Q, stored_for_app. now destruct (str_eqb y (p_id w)).
      + exists (bl ++ [(p_id w, p)]), pe, (h1 ++ h2). split; [exact (rowed_added _ _ _ _ _ C Hp)|]. split; [|auto].
        intros y. rewrite <- (S y), Q, stored_for_app, stored_for_one, stored_for_app, <- !app_assoc. apply Permutation_app_head.
        destruct (str_eqb y (p_id w)); [|reflexivity].
        rewrite (app_assoc (pe y) (stored_for y h1) (stored_for y h2 ++ lost y)), (app_assoc (pe y) (stored_for y h1) (p ++ stored_for y h2 ++ lost y)).
        apply Permutation_app_swap_app.
  Qed.

  Lemma meant_for_cons f e es o os x : meant_for M f (e :: es) (o :: os) x = meant_for M f [e] [o] x ++ meant_for M f es os x.
  Proof. destruct e as [[]|]; cbn; rewrite ?app_nil_r; reflexivity. Qed.

  (** of what an append that raised was meant to add a part was added *)
  Definition parts (es : list (cevent (R:=R))) (os : list (result nat)) (acc acc' : str -> list R) : Prop :=
    exists done, (forall x, Permutation (acc' x) (acc x ++ accepted_for M es os x ++ done x)) /\
                 forall x, exists missed, Permutation (done x ++ missed) (refused_for M es os x).

  Lemma cstep_failing c acc lost e o c' : cinv c acc lost -> cstep M c e = (o, c') ->
    exists acc' lost', cinv c' acc' lost' /\ parts [e] [o] acc acc' /\
      ((forall n x, ~ In (Collect n, Raise x) [(e, o)]) -> lost' = lost).
  Proof.
    intros I. assert (Nothing: (forall x, accepted_for M [e] [o] x = []) -> (forall x, refused_for M [e] [o] x = []) -> parts [e] [o] acc acc).
    { intros A N. exists (fun _ => []). split; [intros x; now rewrite A, !app_nil_r|]. intros x. exists []. now rewrite N. }
    destruct e as [[r now| |]|n]; cbn [cstep].
    - unfold stream_append. destruct (append_all M (c_stream c) _ r 0) as [oa s'] eqn:Ea. intros [= <- <-].
      destruct c as [s d]. cbn [c_stream c_dropped] in *.
      pose proof (append_all_failing _ _ _ _ _ _ _ _ _ I Ea) as K. cbv zeta in K.
      destruct K as [(e & dn & ms & -> & P & I2)|((m & ->) & I2)].
      + exists (fun x => acc x ++ dn x), lost. split; [exact I2|]. split; [|auto]. exists dn. split; [intros x; reflexivity|].
        intros x. exists (ms x). unfold refused_for. cbn. rewrite app_nil_r. apply P.
      + eexists _, lost. split; [exact I2|]. split; [|auto]. exists (fun _ => []). split.
        * intros x. unfold accepted_for. cbn. now rewrite !app_nil_r.
        * intros x. exists []. unfold refused_for. cbn. reflexivity.
    - destruct (c_attend M c) as [oa ca] eqn:Ea. intros [= <- <-].
      exists acc, lost. split; [eapply c_attend_failing; eauto|]. split; [|auto]. apply Nothing; reflexivity.
    - intros [= <- <-]. exists acc, lost. split; [apply c_finalize_failing, I|]. split; [|auto]. apply Nothing; reflexivity.
    - intros E. destruct (collect_failing _ _ _ _ _ _ I E) as (_ & lost' & I1 & L). exists acc, lost'. split; [exact I1|].
      split; [apply Nothing; reflexivity|]. intros N. apply L. intros x ->. apply (N n x). left. reflexivity.
  Qed.
  Lemma crun_failing es : forall c acc lost os c', cinv c acc lost -> crun M c es = (os, c') ->
    exists acc' lost', cinv c' acc' lost' /\ parts es os acc acc' /\ (destructors_succeed es os -> lost' = lost).
  Proof.
    induction es as [|e es IH]; intros c acc lost os c' I; cbn [crun].
    - intros [= <- <-]. exists acc, lost. split; [exact I|]. split; [|auto]. exists (fun _ => []).
      split; [intros x; cbn; now rewrite !app_nil_r|]. intros x. exists []. reflexivity.
    - destruct (cstep M c e) as [o c1] eqn:E1. destruct (crun M c1 es) as [os1 c2] eqn:E2. intros [= <- <-].
      destruct (cstep_failing _ _ _ _ _ _ I E1) as (acc1 & lost1 & I1 & (d1 & P1 & Q1) & L1).
      destruct (IH _ _ _ _ _ I1 E2) as (acc2 & lost2 & I2 & (d2 & P2 & Q2) & L2).
      exists acc2, lost2. split; [exact I2|]. split.
      + exists (fun x => d1 x ++ d2 x). split.
        * intros x. unfold accepted_for. rewrite meant_for_cons. fold (accepted_for M [e] [o] x). fold (accepted_for M es os1 x).
          rewrite P2, P1, <- !app_assoc. do 2 apply Permutation_app_head.
          rewrite !app_assoc. apply Permutation_app_tail, Permutation_app_comm.
        * intros x. destruct (Q1 x) as [m1 H1]. destruct (Q2 x) as [m2 H2]. exists (m1 ++ m2).
          unfold refused_for. rewrite meant_for_cons. fold (refused_for M [e] [o] x). fold (refused_for M es os1 x).
          rewrite <- H1, <- H2, <- !app_assoc. apply Permutation_app_head. rewrite !app_assoc.
          apply Permutation_app_tail, Permutation_app_comm.
      + intros N. rewrite L2, L1; [reflexivity| |].
        * intros n x [K|[]]. apply (N n x). left. exact K.
        * intros n x K. apply (N n x). right. exact K.
  Qed.
  Lemma cinv_from k : cinv (mkC (mkSState [] w0 k) []) (fun _ => []) (fun _ => []).
  Proof.
    split; [constructor|]. exists [], (fun _ => []), []. cbn. split.
    - exists []. cbn. rewrite app_nil_r. repeat split; constructor.
    - split; [reflexivity|]. split; [intros w []|]. split; [auto|constructor].
  Qed.

  (** ** The theorems *)
  Lemma at_most_from k es os c : crun M (mkC (mkSState [] w0 k) []) es = (os, c) ->
    exists blobs, rowed_from w0 blobs (world_of (c_stream c)) /\
      forall id, exists rest, Permutation (stored_for id blobs ++ rest) (accepted_for M es os id ++ refused_for M es os id).
  Proof.
    intros E. destruct (crun_failing _ _ _ _ _ _ (cinv_from k) E) as (acc & lost & (_ & bl & pe & hs & C & S & _) & (dn & P & Q) & _).
    exists bl. split; [exact C|]. intros id. destruct (Q id) as [ms Hm]. pose proof (P id) as P'. cbn [app] in P'.
    exists (pe id ++ stored_for id hs ++ lost id ++ ms). transitivity ((accepted_for M es os id ++ dn id) ++ ms).
    - rewrite <- P', <- (S id), <- !app_assoc. reflexivity.
    - rewrite <- app_assoc. apply Permutation_app_head, Hm.
  Qed.
  Lemma collects_pool ns : forall c acc lost os c', cinv c acc lost -> crun M c (map Collect ns) = (os, c') ->
    pool (c_stream c') = pool (c_stream c).
  Proof.
    induction ns as [|n ns IH]; intros c acc lost os c' I; cbn [map crun]; [now intros [= <- <-]|].
    cbn [cstep]. destruct (collect M c n) as [o c1] eqn:E1. destruct (crun M c1 (map Collect ns)) as [os1 c2] eqn:E2. intros [= <- <-].
    destruct (collect_failing _ _ _ _ _ _ I E1) as (P & lost' & I1 & _). rewrite <- P. eapply IH; eauto.
  Qed.
  Lemma crun_app es1 : forall c es2 os c', crun M c (es1 ++ es2) = (os, c') ->
    exists os1 c1 os2, crun M c es1 = (os1, c1) /\ crun M c1 es2 = (os2, c') /\ os = os1 ++ os2.
  Proof.
    induction es1 as [|e es1 IH]; intros c es2 os c'; cbn [crun app].
    - intros H. exists [], c, os. auto.
    - destruct (cstep M c e) as [o c1]. destruct (crun M c1 (es1 ++ es2)) as [osx sx] eqn:E. intros [= <- <-].
      destruct (IH _ _ _ _ E) as (o1 & t1 & o2 & A & B & ->). rewrite A. exists (o :: o1), t1, o2. auto.
  Qed.
  Lemma collected_from k es ns os c : crun M (mkC (mkSState [] w0 k) []) (es ++ Event SFinalize :: map Collect ns) = (os, c) ->
    c_dropped c = [] -> destructors_succeed (es ++ Event SFinalize :: map Collect ns) os ->
    exists blobs, rowed_from w0 blobs (world_of (c_stream c)) /\
      forall id, exists some rest,
        Permutation (stored_for id blobs) (accepted_for M (es ++ Event SFinalize :: map Collect ns) os id ++ some) /\
        Permutation (some ++ rest) (refused_for M (es ++ Event SFinalize :: map Collect ns) os id).
  Proof.
    intros E D N.
    assert (Pool: pool (c_stream c) = []).
    { pose proof E as E'. apply crun_app in E'. destruct E' as (o1 & c1 & o2 & E1 & E2 & _).
      destruct (crun_failing _ _ _ _ _ _ (cinv_from k) E1) as (acc1 & lost1 & I1 & _).
      cbn [crun cstep] in E2. destruct (crun M (c_finalize M c1) (map Collect ns)) as [os3 c3] eqn:E3. injection E2 as _ <-.
      destruct (c_finalize_failing _ _ _ I1) as [I2 P2]. rewrite <- P2. eapply collects_pool; eauto. }
    destruct (crun_failing _ _ _ _ _ _ (cinv_from k) E) as (acc & lost & (_ & bl & pe & hs & C & S & _ & Z & F) & (dn & P & Q) & L).
    exists bl. split; [exact C|]. intros id. destruct (Q id) as [ms Hm]. exists (dn id), ms. split; [|exact Hm].
    pose proof (P id) as P'. cbn [app] in P'. rewrite <- P', <- (S id).
    rewrite D in F. inversion F; subst. rewrite (L N), (Z id) by (rewrite Pool; intros []). cbn. now rewrite app_nil_r.
  Qed.
  End From.

  Lemma at_most_rowed es os c : crun M new_collected es = (os, c) ->
    exists blobs, rowed blobs (world_of (c_stream c)) /\
      forall id, exists rest, Permutation (stored_for id blobs ++ rest) (accepted_for M es os id ++ refused_for M es os id).
  Proof. intros E. destruct (at_most_from (mkWorld 0 []) _ es os c E) as (bl & C & S). exists bl. split; [apply rowed_new, C|exact S]. Qed.
  Lemma at_most_once es os c : crun M new_collected es = (os, c) ->
    exists blobs, contents M blobs (puts (world_of (c_stream c))) /\
      forall id, exists rest, Permutation (stored_for id blobs ++ rest) (accepted_for M es os id ++ refused_for M es os id).
  Proof. intros E. destruct (at_most_rowed _ _ _ E) as (bl & C & S). exists bl. split; [exact (rowed_contents _ _ C)|exact S]. Qed.
  Lemma collected_rowed es ns os c : crun M new_collected (es ++ Event SFinalize :: map Collect ns) = (os, c) ->
    c_dropped c = [] -> destructors_succeed (es ++ Event SFinalize :: map Collect ns) os ->
    exists blobs, rowed blobs (world_of (c_stream c)) /\
      forall id, exists some rest,
        Permutation (stored_for id blobs) (accepted_for M (es ++ Event SFinalize :: map Collect ns) os id ++ some) /\
        Permutation (some ++ rest) (refused_for M (es ++ Event SFinalize :: map Collect ns) os id).
  Proof.
    intros E D N. destruct (collected_from (mkWorld 0 []) _ es ns os c E D N) as (bl & C & S). exists bl. split; [apply rowed_new, C|exact S].
  Qed.
  Lemma collected es ns os c : crun M new_collected (es ++ Event SFinalize :: map Collect ns) = (os, c) ->
    c_dropped c = [] -> destructors_succeed (es ++ Event SFinalize :: map Collect ns) os ->
    exists blobs, contents M blobs (puts (world_of (c_stream c))) /\
      forall id, exists some rest,
        Permutation (stored_for id blobs) (accepted_for M (es ++ Event SFinalize :: map Collect ns) os id ++ some) /\
        Permutation (some ++ rest) (refused_for M (es ++ Event SFinalize :: map Collect ns) os id).
  Proof.
    intros E D N. destruct (collected_rowed _ _ _ _ E D N) as (bl & C & S). exists bl. split; [exact (rowed_contents _ _ C)|exact S].
  Qed.

  (** without collections it is the stream writer of before *)
  Lemma c_remove_stream c id : fst (c_remove M c id) = fst (remove_writer M (c_stream c) id) /\
    c_stream (snd (c_remove M c id)) = snd (remove_writer M (c_stream c) id).
  Proof. unfold c_remove. destruct (remove_writer M (c_stream c) id) as [[[]|] s']; auto. Qed.
End Failing.

Section Same.
  Context {R V : Type} (M : streaming R V).
  Lemma remove_all_same ids : forall c : cstate (R:=R), fst (c_remove_all M c ids) = fst (remove_all M (c_stream c) ids) /\
    c_stream (snd (c_remove_all M c ids)) = snd (remove_all M (c_stream c) ids).
  Proof.
    induction ids as [|id ids IH]; intros c; cbn [c_remove_all remove_all]; [auto|].
    destruct (c_remove_stream M c id) as [A B]. destruct (c_remove M c id) as [o c1]. destruct (remove_writer M (c_stream c) id) as [o' s1].
    cbn [fst snd] in *. subst. destruct o'; auto.
  Qed.
  Lemma finalize_same (ws : list (pooled (R:=R))) : forall c : cstate (R:=R), c_stream (fold_left (fun c w => snd (c_remove M c (p_id w))) ws c) =
    fold_left (fun s w => snd (remove_writer M s (p_id w))) ws (c_stream c).
  Proof.
    induction ws as [|w ws IH]; intros c; cbn [fold_left]; [reflexivity|]. rewrite IH.
    now rewrite (proj2 (c_remove_stream M c (p_id w))).
  Qed.
  Lemma step_same (c : cstate (R:=R)) e : fst (cstep M c (Event e)) = fst (sstep M (c_stream c) e) /\
    c_stream (snd (cstep M c (Event e))) = snd (sstep M (c_stream c) e).
  Proof.
    destruct e as [r now| |]; cbn [cstep sstep].
    - destruct (stream_append M (c_stream c) r now); auto.
    - assert (K: fst (c_attend M c) = fst (attend M (c_stream c)) /\ c_stream (snd (c_attend M c)) = snd (attend M (c_stream c))).
      { unfold c_attend, attend. cbv zeta. set (c0 := mkC _ _).
        destruct (remove_all_same (stale (m_time M (ticks (c_stream c))) (m_idle M) (pool (c_stream c))) c0) as [A B].
        cbn [c_stream c0] in A, B |- *.
        destruct (c_remove_all M c0 _) as [o c1]. destruct (remove_all M _ _) as [o' s1]. cbn [fst snd] in *. subst.
        destruct o'; [|auto]. apply remove_all_same. }
      destruct K as [A B]. destruct (c_attend M c) as [o c1]. destruct (attend M (c_stream c)) as [o' s1]. cbn [fst snd] in *. subst.
      destruct o'; auto.
    - split; [reflexivity|]. cbn [snd]. unfold c_finalize, stream_finalize. apply finalize_same.
  Qed.
  Lemma run_same es : forall c : cstate (R:=R), fst (crun M c (map Event es)) = fst (srun M (c_stream c) es) /\
    c_stream (snd (crun M c (map Event es))) = snd (srun M (c_stream c) es).
  Proof.
    induction es as [|e es IH]; intros c; cbn [map crun srun]; [auto|].
    destruct (step_same c e) as [A B]. destruct (cstep M c (Event e)) as [o c1]. destruct (sstep M (c_stream c) e) as [o' s1].
    cbn [fst snd] in A, B. subst. destruct (IH c1) as [A B]. destruct (crun M c1 _) as [os c2]. destruct (srun M _ es) as [os' s2].
    cbn [fst snd] in *. subst. auto.
  Qed.
End Same.
