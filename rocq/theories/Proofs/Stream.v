(** Proofs about the stream writer. *)
From Coq Require Import Permutation Sorted.
From Verif.Base Require Import Py PyFacts.
From Verif.Model Require Import Paths Frames Writers Stream.
From Verif.Spec Require Import Paths Writers Stream.
From Verif.Proofs Require Import Paths Writers.

Section Conservation.
  Context {R V : Type} (M : streaming R V).
  Hypothesis Rel0 : reliable (m_base M).
  Lemma Rel id : reliable (m_writer M id).
  Proof. exact Rel0. Qed.

  Lemma commit_reliable id b w p o b' w' : buffered (m_writer M id) b p ->
    commit (m_writer M id) b w = (o, (b', w')) ->
    (exists x, o = Ok x) /\ b' = open_buffer /\
    ((p = [] /\ w' = w) \/
     (exists data, holds (m_writer M id) p data /\ p <> [] /\
       attempts w' = S (attempts w) /\
       puts w' = puts w ++ [(blob_name (s_filename (m_writer M id)) (s_node (m_writer M id))
                               (s_clock (m_writer M id) (attempts w)), data)])).
  Proof.
    intros B C. destruct (Rel id) as [F P].
    assert (CF: clean_failures (m_writer M id)) by (intros n k; rewrite F; discriminate).
    destruct (commit_cases _ _ _ _ _ _ _ B CF C) as [(e & -> & _)|[(-> & -> & -> & ->)|(N & -> & d & H & -> & ->)]].
    - exfalso. unfold commit in C. destruct (_ <? _)%nat; [|discriminate].
      unfold inner_commit in C. rewrite F in C.
      destruct (write_buffer _ b) eqn:W; [discriminate|].
      unfold write_buffer in W. destruct (s_format _); try discriminate.
      destruct (P (wal b)) as [d Hd]. congruence.
    - repeat split; eauto.
    - split; [eauto|]. split; [reflexivity|]. right. exists d. repeat split; auto.
  Qed.

  (** what was stored, by which of the commits *)
  Definition nth_name (bi : (str * list R) * nat) : str :=
    blob_name (s_filename (m_writer M (fst (fst bi)))) (s_node (m_base M)) (s_clock (m_base M) (snd bi)).
  Definition timed (blobs : list (str * list R)) (w : world) : Prop :=
    attempts w = length (puts w) /\
    Forall2 (fun b put => holds (m_writer M (fst b)) (snd b) (snd put) /\ snd b <> []) blobs (puts w) /\
    map fst (puts w) = map nth_name (combine blobs (seq 0 (length blobs))).
  Lemma combine_app {A B} (a a' : list A) : forall (b b' : list B), length a = length b ->
    combine (a ++ a') (b ++ b') = combine a b ++ combine a' b'.
  Proof. induction a as [|x a IH]; intros [|y b] b' H; try discriminate; [reflexivity|]. cbn. f_equal. apply IH. now injection H. Qed.
  Lemma timed_one blobs w w' id g data : timed blobs w -> holds (m_writer M id) g data -> g <> [] ->
    attempts w' = S (attempts w) ->
    puts w' = puts w ++ [(blob_name (s_filename (m_writer M id)) (s_node (m_writer M id)) (s_clock (m_writer M id) (attempts w)), data)] ->
    timed (blobs ++ [(id, g)]) w'.
  Proof.
    intros (A & F & N) H G A' P. assert (L : length blobs = length (puts w)).
    { clear -F. induction F; cbn; congruence. }
    split; [rewrite A', P, app_length; cbn; lia|]. split; [rewrite P; apply Forall2_app_one; auto|].
    rewrite P, !app_length, map_app, N. cbn [length]. rewrite seq_app, combine_app by (now rewrite seq_length).
    rewrite map_app. cbn [map fst seq combine plus]. rewrite A, L. reflexivity.
  Qed.
  Lemma timed_contents blobs w : timed blobs w -> contents M blobs (puts w).
  Proof.
    intros (_ & F & N). unfold contents. revert N. generalize 0%nat. induction F as [|b put bl log H F IH]; intros k N; constructor.
    - cbn [map length seq combine] in N. injection N as N _. split; [apply H|]. eexists. exact N.
    - cbn [map length seq combine] in N. injection N as _ N. exact (IH _ N).
  Qed.

  (** blobs stored before come first *)
  Context (bl0 : list (str * list R)).
  Definition timed_since (blobs : list (str * list R)) (w : world) : Prop :=
    timed blobs w /\ exists new, blobs = bl0 ++ new.
  Lemma timed_since_one blobs w w' id g data : timed_since blobs w -> holds (m_writer M id) g data -> g <> [] ->
    attempts w' = S (attempts w) ->
    puts w' = puts w ++ [(blob_name (s_filename (m_writer M id)) (s_node (m_writer M id)) (s_clock (m_writer M id) (attempts w)), data)] ->
    timed_since (blobs ++ [(id, g)]) w'.
  Proof.
    intros [T [new ->]] H G A P. split; [eapply timed_one; eauto|]. exists (new ++ [(id, g)]). now rewrite app_assoc.
  Qed.

  (** what is in the pool, and what was stored *)
  Definition sinv (s : sstate (R:=R)) (acc : str -> list R) : Prop :=
    NoDup (map p_id (pool s)) /\
    exists blobs pend,
      timed_since blobs (world_of s) /\
      (forall id, stored_for id blobs ++ pend id = acc id) /\
      (forall w, In w (pool s) -> buffered (m_writer M (p_id w)) (p_blob w) (pend (p_id w))) /\
      (forall id, ~ In id (map p_id (pool s)) -> pend id = []).

  Lemma stored_for_app id a b : stored_for (R:=R) id (a ++ b) = stored_for id a ++ stored_for id b.
  Proof. unfold stored_for. rewrite filter_app, map_app, concat_app. reflexivity. Qed.
  Lemma stored_for_one id x g : stored_for (R:=R) id [(x, g)] = if str_eqb id x then g else [].
  Proof. unfold stored_for. cbn. destruct (str_eqb id x); cbn; auto using app_nil_r. Qed.

  Lemma take_last_Some id l a w b : take_last (R:=R) id l = Some (a, w, b) ->
    l = a ++ w :: b /\ p_id w = id.
  Proof.
    revert a w b; induction l as [|x l IH]; intros a w b; cbn; [discriminate|].
    destruct (take_last id l) as [[[a' w'] b']|].
    - intros [= <- <- <-]. destruct (IH _ _ _ eq_refl) as [-> E]. auto.
    - destruct (has_id id x) eqn:E; [|discriminate]. intros [= <- <- <-]. split; auto.
      now apply str_eqb_eq.
  Qed.
  Lemma take_last_None id l : take_last (R:=R) id l = None -> ~ In id (map p_id l).
  Proof.
    induction l as [|x l IH]; cbn; auto.
    destruct (take_last id l) as [[[? ?] ?]|]; [discriminate|].
    destruct (has_id id x) eqn:E; [discriminate|]. intros _ [H|H]; [|now apply IH].
    apply str_eqb_neq in E. auto.
  Qed.

  (** one append on a blob writer *)
  Lemma blob_append_reliable id b w p r o b' w' : buffered (m_writer M id) b p ->
    blob_append (m_writer M id) b w r = (o, (b', w')) ->
    (exists e, o = Raise e /\ s_ser (m_writer M id) r = Raise e /\
               is_parquet (s_format (m_writer M id)) = false /\ b' = b /\ w' = w) \/
    (exists n, o = Ok n /\ exists p', buffered (m_writer M id) b' p' /\
       ((p' = p ++ [r] /\ w' = w) \/
        (exists g data, holds (m_writer M id) g data /\ g <> [] /\ g ++ p' = p ++ [r] /\ attempts w' = S (attempts w) /\
           puts w' = puts w ++ [(blob_name (s_filename (m_writer M id)) (s_node (m_writer M id))
                                   (s_clock (m_writer M id) (attempts w)), data)]))).
  Proof.
    intros B. unfold blob_append. destruct (is_parquet _) eqn:Ep.
    - unfold arrow_append. set (b1 := mkBlobw _ _ _).
      assert (B1: buffered (m_writer M id) b1 (p ++ [r])).
      { destruct B as [B1 B2]. rewrite Ep in B2. split.
        - cbn. rewrite app_length. cbn. lia.
        - rewrite Ep. cbn. congruence. }
      destruct (_ <? _)%Z.
      + destruct (commit _ b1 w) as [oc [bc wc]] eqn:Ec.
        destruct (commit_reliable _ _ _ _ _ _ _ B1 Ec) as ([x ->] & -> & [[H _]|(d & Hd & Hn & Ha & Hp)]).
        { destruct p; discriminate. }
        intros [= <- <- <-]. right. eexists. split; [reflexivity|]. exists []. split; [apply buffered_open|].
        right. exists (p ++ [r]), d. rewrite app_nil_r. auto.
      + intros [= <- <- <-]. right. eexists. split; [reflexivity|]. exists (p ++ [r]). auto.
    - unfold text_append. destruct (s_ser _ r) as [t|e] eqn:Es.
      2:{ intros [= <- <- <-]. left. exists e. auto. }
      assert (X: forall b p, buffered (m_writer M id) b p -> buffered (m_writer M id)
        (mkBlobw (buffer b ++ t) (wal b) (S (records_in_buffer b))) (p ++ [r])).
      { clear -Ep Es. intros b p [B1 B2]. rewrite Ep in B2. destruct B2 as (ts & T & Hb). split.
        - cbn. rewrite app_length. cbn. lia.
        - rewrite Ep. exists (ts ++ [t]). split; [apply Forall2_app_one; auto|].
          cbn. rewrite Hb, concat_app. cbn. now rewrite app_nil_r. }
      destruct (_ <? _)%Z.
      + destruct (commit _ b w) as [oc [bc wc]] eqn:Ec.
        destruct (commit_reliable _ _ _ _ _ _ _ B Ec) as ([x ->] & -> & K).
        intros [= <- <- <-]. right. eexists. split; [reflexivity|]. exists [r].
        split; [apply (X open_buffer []), buffered_open|].
        destruct K as [(-> & ->)|(d & Hd & Hn & Ha & Hp)]; [left; auto|right; exists p, d; auto].
      + intros [= <- <- <-]. right. eexists. split; [reflexivity|]. exists (p ++ [r]). auto.
  Qed.

  Definition plus (acc : str -> list R) (id : str) (l : list R) : str -> list R :=
    fun x => acc x ++ if str_eqb x id then l else [].

  Lemma sinv_ext s acc acc' : (forall id, acc id = acc' id) -> sinv s acc -> sinv s acc'.
  Proof.
    intros H (N & bl & pe & C & S & B & Z). split; auto. exists bl, pe.
    split; [auto|]. split; [intros; now rewrite <- H|]. auto.
  Qed.

  Lemma pool_append_inv s acc id r o s' : sinv s acc -> pool_append M s id r = (o, s') ->
    (exists e, o = Raise e /\ s_ser (m_writer M id) r = Raise e /\
               is_parquet (s_format (m_writer M id)) = false /\ sinv s' acc) \/
    (exists n, o = Ok n) /\ sinv s' (plus acc id [r]).
  Proof.
    intros (ND & bl & pe & C & S & B & Z). unfold pool_append.
    set (pos := match take_last id (pool s) with Some _ => _ | None => _ end).
    assert (P: exists a b rest, pos = (a, b, rest) /\ buffered (m_writer M id) b (pe id) /\
      NoDup (map p_id (a ++ mkPooled id (m_time M (ticks s)) b :: rest)) /\
      (forall w, In w a \/ In w rest -> In w (pool s) /\ p_id w <> id) /\
      (forall x, In x (map p_id (pool s)) -> x <> id -> In x (map p_id (a ++ rest)))).
    { unfold pos. destruct (take_last id (pool s)) as [[[a w] rest]|] eqn:Et.
      - destruct (take_last_Some _ _ _ _ _ Et) as [Ep Ew]. exists a, (p_blob w), rest.
        split; [reflexivity|]. rewrite Ep in *. rewrite map_app in ND. cbn [map] in ND.
        split; [|split; [|split]].
        + rewrite <- Ew. apply B. apply in_app_iff. right. left. auto.
        + rewrite map_app. cbn [map p_id]. now rewrite <- Ew.
        + intros v Hv. split.
          * apply in_app_iff. destruct Hv; [left|right; right]; auto.
          * apply NoDup_remove_2 in ND. intros Ev. apply ND. rewrite Ew. apply in_app_iff.
            destruct Hv as [Hv|Hv]; [left|right]; apply (in_map p_id) in Hv; congruence.
        + intros x Hx Nx. rewrite map_app in *. apply in_app_iff in Hx. apply in_app_iff.
          destruct Hx as [Hx|[Hx|Hx]]; auto. congruence.
      - apply take_last_None in Et. exists (pool s), open_buffer, []. split; [reflexivity|].
        split; [rewrite Z by auto; apply buffered_open|]. split; [|split].
        + rewrite map_app. cbn [map p_id]. apply (Permutation_NoDup (Permutation_cons_append _ _)).
          constructor; auto.
        + intros w [H|[]]. split; auto. intros <-. apply Et. now apply in_map.
        + intros x Hx _. now rewrite app_nil_r. }
    destruct P as (a & b & rest & Epos & Bb & ND' & Ho & Hk). rewrite Epos. clear Epos pos.
    destruct (blob_append _ b (world_of s) r) as [ob [b' w']] eqn:Ea. intros [= <- <-].
    assert (ND'': forall t b', NoDup (map p_id (a ++ mkPooled (R:=R) id t b' :: rest))).
    { intros. rewrite map_app in *. exact ND'. }
    assert (Out: forall x t b', ~ In x (map p_id (a ++ mkPooled (R:=R) id t b' :: rest)) -> pe x = [] /\ x <> id).
    { intros x t b0 Hx. split.
      - apply Z. intros H. destruct (str_eq_dec x id) as [->|Nx].
        + apply Hx. rewrite map_app. apply in_app_iff. right. left. auto.
        + apply Hx. specialize (Hk x H Nx). rewrite map_app in *. apply in_app_iff in Hk. apply in_app_iff.
          destruct Hk; [left|right; right]; auto.
      - intros ->. apply Hx. rewrite map_app. apply in_app_iff. right. left. auto. }
    destruct (blob_append_reliable _ _ _ _ _ _ _ _ Bb Ea) as [(e & -> & Hs & Hp & -> & ->)|(n & -> & p' & Bp & K)].
    - left. exists e. split; [auto|]. split; [auto|]. split; [auto|]. split; [apply ND''|].
      exists bl, pe. cbn [pool world_of]. split; [auto|]. split; [auto|]. split.
      + intros w Hw. apply in_app_iff in Hw. destruct Hw as [Hw|[<-|Hw]]; auto.
        * apply B, Ho; auto.
        * apply B, Ho; auto.
      + intros x Hx. eapply Out; eauto.
    - right. split; [eauto|]. split; [apply ND''|]. cbn [pool world_of].
      set (pe' := fun x => if str_eqb x id then p' else pe x).
      assert (PB: forall w, In w (a ++ mkPooled id (m_time M (ticks s)) b' :: rest) ->
                  buffered (m_writer M (p_id w)) (p_blob w) (pe' (p_id w))).
      { intros w Hw. unfold pe'. apply in_app_iff in Hw. destruct Hw as [Hw|[<-|Hw]].
        - destruct (Ho w (or_introl Hw)) as [H1 H2]. apply str_eqb_neq in H2. rewrite H2. auto.
        - cbn [p_id p_blob]. rewrite str_eqb_refl. auto.
        - destruct (Ho w (or_intror Hw)) as [H1 H2]. apply str_eqb_neq in H2. rewrite H2. auto. }
      assert (PZ: forall x, ~ In x (map p_id (a ++ mkPooled id (m_time M (ticks s)) b' :: rest)) -> pe' x = []).
      { intros x Hx. destruct (Out _ _ _ Hx) as [H1 H2]. unfold pe'. apply str_eqb_neq in H2. now rewrite H2. }
      destruct K as [(-> & ->)|(g & d & Hd & Hn & Hg & Ha & Hp)].
      + exists bl, pe'. split; [auto|]. split; [|auto]. intros x. unfold plus, pe'. rewrite <- S.
        destruct (str_eqb_reflect x id) as [->|]; [now rewrite app_assoc|now rewrite app_nil_r].
      + exists (bl ++ [(id, g)]), pe'. split; [|split; [|auto]].
        * eapply timed_since_one; eauto.
        * intros x. rewrite stored_for_app, stored_for_one. unfold plus, pe'. rewrite <- S.
          destruct (str_eqb_reflect x id) as [->|]; [|now rewrite !app_nil_r].
          rewrite <- !app_assoc. f_equal. exact Hg.
  Qed.

  Lemma append_all_inv ids : forall s acc r k o s', sinv s acc ->
    (forall i j, s_format (m_writer M i) = s_format (m_writer M j) /\
                 s_ser (m_writer M i) = s_ser (m_writer M j)) ->
    append_all M s ids r k = (o, s') ->
    (exists e, o = Raise e /\ sinv s' acc) \/
    (o = Ok (k + length ids)%nat /\
     sinv s' (fun x => acc x ++ map (fun _ => r) (filter (str_eqb x) ids))).
  Proof.
    assert (G: forall ids s acc r k o s', sinv s acc ->
      (is_parquet (s_format (m_writer M [])) = false -> exists t, s_ser (m_writer M []) r = Ok t) ->
      (forall i j, s_format (m_writer M i) = s_format (m_writer M j) /\
                 s_ser (m_writer M i) = s_ser (m_writer M j)) ->
      append_all M s ids r k = (o, s') ->
      o = Ok (k + length ids)%nat /\
      sinv s' (fun x => acc x ++ map (fun _ => r) (filter (str_eqb x) ids))).
    { clear ids. induction ids as [|id ids IH]; intros s acc r k o s' I Hs Same; cbn [append_all].
      - intros [= <- <-]. split; [cbn; f_equal; lia|]. eapply sinv_ext; [|exact I]. intros; cbn. now rewrite app_nil_r.
      - destruct (pool_append M s id r) as [op s1] eqn:Ep.
        destruct (pool_append_inv _ _ _ _ _ _ I Ep) as [(e & -> & Es & Epq & _)|((n & ->) & I1)].
        + exfalso. destruct (Same id []) as [S1 S2]. rewrite S1 in Epq. destruct (Hs Epq) as [t Ht].
          rewrite S2 in Es. congruence.
        + intros Ha. destruct (IH _ _ _ _ _ _ I1 Hs Same Ha) as [-> I2]. split; [cbn; f_equal; lia|].
          eapply sinv_ext; [|exact I2]. intros x. unfold plus. cbn [filter].
          destruct (str_eqb x id); cbn [map]; rewrite <- !app_assoc; reflexivity. }
    intros s acc r k o s' I Same Ha.
    destruct (is_parquet (s_format (m_writer M []))) eqn:Epq.
    { right. eapply G; eauto. congruence. }
    destruct (s_ser (m_writer M []) r) as [t|e] eqn:Es.
    { right. eapply G; eauto. }
    destruct ids as [|id ids]; cbn [append_all] in Ha.
    { right. injection Ha as <- <-. split; [cbn; f_equal; lia|]. eapply sinv_ext; [|exact I]. intros; cbn. now rewrite app_nil_r. }
    left. destruct (pool_append M s id r) as [op s1] eqn:Ep.
    destruct (pool_append_inv _ _ _ _ _ _ I Ep) as [(e' & -> & _ & _ & I1)|((n & ->) & I1)].
    - injection Ha as <- <-. eauto.
    - exfalso. clear I1 Ha. unfold pool_append in Ep.
      destruct (match take_last id (pool s) with Some _ => _ | None => _ end) as [[a b] rest].
      destruct (blob_append _ b (world_of s) r) as [ob [b' w']] eqn:Ea. injection Ep as -> _.
      unfold blob_append in Ea. destruct (Same id []) as [S1 S2]. rewrite S1, Epq in Ea.
      unfold text_append in Ea. rewrite S2, Es in Ea. discriminate.
  Qed.

  Lemma filter_unique (l : list (pooled (R:=R))) id w : NoDup (map p_id l) -> filter (has_id id) l = [w] ->
    In w l /\ p_id w = id.
  Proof.
    intros _ H. assert (I: In w (filter (has_id id) l)) by (rewrite H; left; auto).
    apply filter_In in I. destruct I as [I E]. split; auto. now apply str_eqb_eq.
  Qed.

  Lemma remove_writer_inv s acc id o s' : sinv s acc -> remove_writer M s id = (o, s') ->
    o = Ok tt /\ sinv s' acc /\
    (forall x, In x (map p_id (pool s')) <-> In x (map p_id (pool s)) /\ x <> id).
  Proof.
    intros I. pose proof I as (ND & bl & pe & C & S & B & Z). unfold remove_writer.
    destruct (filter (has_id id) (pool s)) as [|w [|w2 ws]] eqn:Ef.
    - intros [= <- <-]. split; [auto|]. split; [auto|]. intros x. split; [|tauto]. intros H. split; auto. intros ->.
      apply in_map_iff in H. destruct H as (w & Ew & Hw).
      assert (K: In w (filter (has_id id) (pool s))) by (apply filter_In; split; auto; apply str_eqb_eq; auto).
      rewrite Ef in K. destruct K.
    - destruct (filter_unique _ _ _ ND Ef) as [Hw Ew].
      specialize (B w Hw) as Bw. rewrite Ew in Bw.
      assert (Hin: forall x, In x (map p_id (filter (fun w => negb (has_id id w)) (pool s))) <->
                             In x (map p_id (pool s)) /\ x <> id).
      { intros x. rewrite !in_map_iff. split.
        - intros (v & <- & Hv). apply filter_In in Hv. destruct Hv as [Hv Nv]. split; [eauto|].
          apply negb_true_iff, str_eqb_neq in Nv. auto.
        - intros [(v & <- & Hv) Nv]. exists v. split; auto. apply filter_In. split; auto.
          apply negb_true_iff, str_eqb_neq. auto. }
      destruct (commit _ (p_blob w) (world_of s)) as [oc [b' w']] eqn:Ec.
      destruct (commit_reliable _ _ _ _ _ _ _ Bw Ec) as ([x ->] & -> & K).
      intros [= <- <-]. split; [auto|]. split; [|exact Hin].
      split.
      { cbn [pool]. clear -ND. induction (pool s) as [|v l IH]; cbn; [constructor|].
        inversion ND; subst. destruct (negb _); cbn; auto. constructor; auto.
        intros H. apply H1. apply in_map_iff in H. destruct H as (u & Eu & Hu). apply filter_In in Hu.
        rewrite <- Eu. apply in_map. tauto. }
      cbn [pool world_of].
      set (pe' := fun x => if str_eqb x id then [] else pe x).
      assert (PB: forall v, In v (filter (fun w => negb (has_id id w)) (pool s)) ->
                  buffered (m_writer M (p_id v)) (p_blob v) (pe' (p_id v))).
      { intros v Hv. apply filter_In in Hv. destruct Hv as [Hv Nv]. apply negb_true_iff in Nv.
        unfold pe'. unfold has_id in Nv. rewrite Nv. auto. }
      assert (PZ: forall x, ~ In x (map p_id (filter (fun w => negb (has_id id w)) (pool s))) -> pe' x = []).
      { intros y Hy. unfold pe'. destruct (str_eqb_reflect y id); auto. apply Z. intros H. apply Hy. apply Hin. auto. }
      destruct K as [(E0 & ->)|(d & Hd & Hn & Ha & Hp)].
      + exists bl, pe'. split; [auto|]. split; [|auto]. intros y. unfold pe'. rewrite <- S.
        destruct (str_eqb_reflect y id) as [->|]; [now rewrite E0|auto].
      + exists (bl ++ [(id, pe id)]), pe'. split; [|split; [|auto]].
        * eapply timed_since_one; eauto.
        * intros y. rewrite stored_for_app, stored_for_one. unfold pe'. rewrite <- S.
          destruct (str_eqb_reflect y id) as [->|]; now rewrite !app_nil_r.
    - exfalso. assert (K: NoDup (map p_id (filter (has_id id) (pool s)))).
      { clear -ND. induction (pool s) as [|v l IH]; cbn; [constructor|].
        inversion ND; subst. destruct (has_id _ _); cbn; auto. constructor; auto.
        intros H. apply H1. apply in_map_iff in H. destruct H as (u & Eu & Hu). apply filter_In in Hu.
        rewrite <- Eu. apply in_map. tauto. }
      assert (A: forall v, In v (filter (has_id id) (pool s)) -> p_id v = id).
      { intros v Hv. apply filter_In in Hv. apply str_eqb_eq. tauto. }
      rewrite Ef in *. cbn in K. inversion K; subst. apply H1. left.
      rewrite (A w), (A w2); cbn; auto.
  Qed.
  Lemma remove_all_inv ids : forall s acc o s', sinv s acc -> remove_all M s ids = (o, s') ->
    o = Ok tt /\ sinv s' acc /\
    (forall x, In x (map p_id (pool s')) <-> In x (map p_id (pool s)) /\ ~ In x ids).
  Proof.
    induction ids as [|id ids IH]; intros s acc o s' I; cbn [remove_all].
    - intros [= <- <-]. split; [auto|]. split; [auto|]. intros; cbn; tauto.
    - destruct (remove_writer M s id) as [o1 s1] eqn:Er.
      destruct (remove_writer_inv _ _ _ _ _ I Er) as (-> & I1 & P1). intros Ha.
      destruct (IH _ _ _ _ I1 Ha) as (-> & I2 & P2). split; auto. split; auto.
      intros x. rewrite P2, P1. cbn. intuition.
  Qed.
  Lemma finalize_fold (ws : list (pooled (R:=R))) : forall s acc, sinv s acc ->
    let s' := fold_left (fun s w => snd (remove_writer M s (p_id w))) ws s in
    sinv s' acc /\ (forall x, In x (map p_id (pool s')) <-> In x (map p_id (pool s)) /\ ~ In x (map p_id ws)).
  Proof.
    induction ws as [|w ws IH]; intros s acc I; cbn [fold_left].
    - split; auto. intros; cbn; tauto.
    - destruct (remove_writer M s (p_id w)) as [o s1] eqn:Er.
      destruct (remove_writer_inv _ _ _ _ _ I Er) as (-> & I1 & P1). cbn [snd].
      destruct (IH s1 acc I1) as [I2 P2]. split; auto. intros x. rewrite P2, P1. cbn. intuition.
  Qed.
  Lemma finalize_inv s acc : sinv s acc -> sinv (stream_finalize M s) acc /\ pool (stream_finalize M s) = [].
  Proof.
    intros I. pose proof (finalize_fold (pool s) s acc I) as F. cbv zeta in F. destruct F as [I0 P]. split; [exact I0|].
    unfold stream_finalize. set (s' := fold_left _ _ _) in *.
    assert (Q: forall x, ~ In x (map p_id (pool s'))) by (intros x Hx; apply P in Hx; tauto).
    destruct (pool s') as [|w l]; auto. exfalso. apply (Q (p_id w)). left. auto.
  Qed.
  Lemma attend_inv s acc o s' : sinv s acc -> attend M s = (o, s') -> o = Ok tt /\ sinv s' acc.
  Proof.
    intros I. unfold attend. cbn zeta. set (s0 := mkSState _ _ _).
    assert (I0: sinv s0 acc) by exact I.
    destruct (remove_all M s0 _) as [o1 s1] eqn:E1.
    destruct (remove_all_inv _ _ _ _ _ I0 E1) as (-> & I1 & _). intros E2.
    destruct (remove_all_inv _ _ _ _ _ I1 E2) as (-> & I2 & _). auto.
  Qed.

  Lemma Same i j : s_format (m_writer M i) = s_format (m_writer M j) /\
                   s_ser (m_writer M i) = s_ser (m_writer M j).
  Proof. split; reflexivity. Qed.

  Definition gained (e : event) (o : result nat) (x : str) : list R := sent M [e] [o] x.
  Lemma sstep_inv s acc e o s' : sinv s acc -> sstep M s e = (o, s') ->
    sinv s' (fun x => acc x ++ gained e o x).
  Proof.
    intros I. destruct e as [r now| |]; cbn [sstep].
    - unfold stream_append. intros Ha.
      destruct (append_all_inv _ _ _ _ _ _ _ I Same Ha) as [(e & -> & I1)|(-> & I1)];
        (eapply sinv_ext; [|exact I1]); intros x; unfold gained; cbn; now rewrite app_nil_r.
    - destruct (attend M s) as [oa sa] eqn:Ea. destruct (attend_inv _ _ _ _ I Ea) as [-> I1].
      intros [= <- <-]. eapply sinv_ext; [|exact I1]. intros; unfold gained; cbn; now rewrite app_nil_r.
    - intros [= <- <-]. eapply sinv_ext; [|apply finalize_inv, I]. intros; unfold gained; cbn; now rewrite app_nil_r.
  Qed.
  Lemma sent_cons e es o os x : sent M (e :: es) (o :: os) x = gained e o x ++ sent M es os x.
  Proof. unfold gained. destruct e, o; cbn; rewrite ?app_nil_r; reflexivity. Qed.
  Lemma srun_inv es : forall s acc os s', sinv s acc -> srun M s es = (os, s') ->
    sinv s' (fun x => acc x ++ sent M es os x).
  Proof.
    induction es as [|e es IH]; intros s acc os s' I; cbn [srun].
    - intros [= <- <-]. eapply sinv_ext; [|exact I]. intros; cbn; now rewrite app_nil_r.
    - destruct (sstep M s e) as [o s1] eqn:E1. destruct (srun M s1 es) as [os1 s2] eqn:E2. intros [= <- <-].
      eapply sinv_ext; [|eapply IH; [eapply sstep_inv; eauto|eauto]]. intros x. cbn beta.
      rewrite sent_cons, app_assoc. reflexivity.
  Qed.
  Lemma sinv_start w k : timed bl0 w -> sinv (mkSState [] w k) (fun id => stored_for id bl0).
  Proof.
    intros T. split; [constructor|]. exists bl0, (fun _ => []). cbn [pool world_of].
    split; [split; [exact T|exists []; now rewrite app_nil_r]|]. split; [intros; apply app_nil_r|]. split; [intros v []|auto].
  Qed.
  Lemma srun_app es1 : forall s es2 os s', srun M s (es1 ++ es2) = (os, s') ->
    exists os1 s1 os2, srun M s es1 = (os1, s1) /\ srun M s1 es2 = (os2, s') /\ os = os1 ++ os2.
  Proof.
    induction es1 as [|e es1 IH]; intros s es2 os s'; cbn [srun app].
    - intros H. exists [], s, os. auto.
    - destruct (sstep M s e) as [o s1]. destruct (srun M s1 (es1 ++ es2)) as [osx sx] eqn:E. intros [= <- <-].
      destruct (IH _ _ _ _ E) as (o1 & t1 & o2 & A & B & ->). rewrite A. exists (o :: o1), t1, o2. auto.
  Qed.
  (** a writer started on what was stored before, up to its finalize *)
  Lemma timed_after w k es os s : timed bl0 w -> srun M (mkSState [] w k) (es ++ [SFinalize]) = (os, s) ->
    exists new, timed (bl0 ++ new) (world_of s) /\
      forall id, stored_for id new = sent M (es ++ [SFinalize]) os id.
  Proof.
    intros T E. pose proof E as E'. apply srun_app in E'. destruct E' as (o1 & s1 & o2 & E1 & E2 & Eo).
    destruct (srun_inv _ _ _ _ _ (sinv_start w k T) E) as (_ & bl & pe & (C & new & ->) & S & _ & Z).
    exists new. split; auto. intros id. specialize (S id). rewrite stored_for_app, <- app_assoc in S.
    apply app_inv_head in S. rewrite <- S, (Z id); [now rewrite app_nil_r|].
    cbn in E2. injection E2 as _ <-.
    destruct (finalize_inv s1 _ (srun_inv _ _ _ _ _ (sinv_start w k T) E1)) as [_ P]. rewrite P. intros [].
  Qed.
End Conservation.

Section Runs.
  Context {R V : Type} (M : streaming R V).
  Hypothesis Rel0 : reliable (m_base M).
  Lemma timed_nothing : timed M [] (mkWorld 0 []).
  Proof. split; [reflexivity|]. split; [constructor|reflexivity]. Qed.
  Lemma sinv_new : sinv M [] new_stream (fun _ => []).
  Proof. exact (sinv_start M [] (mkWorld 0 []) 0 timed_nothing). Qed.

  Lemma never_duplicated es os s : srun M new_stream es = (os, s) ->
    exists blobs, contents M blobs (puts (world_of s)) /\
      forall id, exists waiting, stored_for id blobs ++ waiting = sent M es os id.
  Proof.
    intros E. destruct (srun_inv M Rel0 [] _ _ _ _ _ sinv_new E) as (_ & bl & pe & [C _] & S & _).
    exists bl. split; [now apply timed_contents|]. intros id. exists (pe id). apply S.
  Qed.
  Lemma all_timed es os s : srun M new_stream (es ++ [SFinalize]) = (os, s) ->
    exists blobs, timed M blobs (world_of s) /\
      forall id, stored_for id blobs = sent M (es ++ [SFinalize]) os id.
  Proof.
    intros E. destruct (timed_after M Rel0 [] (mkWorld 0 []) 0 es os s timed_nothing E) as (new & T & S). exists new. auto.
  Qed.
  Lemma all_stored es os s : srun M new_stream (es ++ [SFinalize]) = (os, s) ->
    exists blobs, contents M blobs (puts (world_of s)) /\
      forall id, stored_for id blobs = sent M (es ++ [SFinalize]) os id.
  Proof. intros E. destruct (all_timed es os s E) as (bl & T & Q). exists bl. split; [now apply timed_contents|exact Q]. Qed.
End Runs.
