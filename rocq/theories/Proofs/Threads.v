(** Proofs about threads which share a stream writer: every schedule is equivalent to one of whole calls. *)
From Verif.Base Require Import Py PyFacts.
From Verif.Model Require Import Paths Frames Writers Stream Threads.
From Verif.Spec Require Import Paths Writers Stream Threads.
From Verif.Proofs Require Import Writers Stream.

Section Lists.
  Context {A : Type}.
  Lemma set_nth_length n (x : A) : forall l, length (set_nth n x l) = length l.
  Proof. induction n as [|n IH]; intros [|y l]; cbn; auto. Qed.
  Lemma nth_set_nth n (x d : A) : forall l, n < length l -> nth n (set_nth n x l) d = x.
  Proof. induction n as [|n IH]; intros [|y l] H; cbn in *; try lia; auto. apply IH. lia. Qed.
  Lemma nth_set_other n m (x d : A) : n <> m -> forall l, nth m (set_nth n x l) d = nth m l d.
  Proof. revert m. induction n as [|n IH]; intros [|m] H [|y l]; cbn; auto; try lia; apply IH; lia. Qed.
  Lemma nth_error_set n (x : A) : forall l, n < length l -> nth_error (set_nth n x l) n = Some x.
  Proof. induction n as [|n IH]; intros [|y l] H; cbn in *; try lia; auto. apply IH. lia. Qed.
  Lemma nth_error_set_other n m (x : A) : n <> m -> forall l, nth_error (set_nth n x l) m = nth_error l m.
  Proof. revert m. induction n as [|n IH]; intros [|m] H [|y l]; cbn; auto; try lia; apply IH; lia. Qed.
  Lemma nth_error_lt n (x : A) : forall l, nth_error l n = Some x -> n < length l.
  Proof. intros l H. apply nth_error_Some. congruence. Qed.
End Lists.

Section Atomic.
  Context {R V : Type} (M : streaming R V).

  Definition abs (s : shared (R:=R)) : sstate := mkSState (map (entry_pooled s) (entries s)) (storage s) (clock s).
  Definition good (s : shared (R:=R)) : Prop :=
    NoDup (map e_ref (entries s)) /\ forall e, In e (entries s) -> e_ref e < length (heap s).

  Lemma find_last_Some id l : forall a e b, find_last id l = Some (a, e, b) -> l = a ++ e :: b /\ e_id e = id.
  Proof.
    induction l as [|x l IH]; intros a e b H; [discriminate|]. cbn in H.
    destruct (find_last id l) as [[[a' e'] b']|].
    - injection H as <- <- <-. destruct (IH _ _ _ eq_refl) as [-> E]. auto.
    - unfold e_has in H. destruct (str_eqb (e_id x) id) eqn:E; [|discriminate]. injection H as <- <- <-.
      apply str_eqb_eq in E. auto.
  Qed.
  Lemma take_last_map (f : entry -> pooled (R:=R)) id l : (forall e, p_id (f e) = e_id e) ->
    take_last id (map f l) = match find_last id l with Some (a, e, b) => Some (map f a, f e, map f b) | None => None end.
  Proof.
    intros F. induction l as [|x l IH]; [reflexivity|]. cbn [map take_last find_last]. rewrite IH.
    destruct (find_last id l) as [[[a e] b]|]; [reflexivity|]. unfold has_id, e_has. rewrite F. now destruct (str_eqb (e_id x) id).
  Qed.
  Lemma filter_map_id (f : entry -> pooled (R:=R)) id l : (forall e, p_id (f e) = e_id e) ->
    filter (has_id id) (map f l) = map f (filter (e_has id) l) /\
    filter (fun w => negb (has_id id w)) (map f l) = map f (filter (fun e => negb (e_has id e)) l).
  Proof.
    intros F. induction l as [|x l [IH1 IH2]]; [auto|]. cbn [map filter].
    assert (E : has_id id (f x) = e_has id x) by (unfold has_id, e_has; now rewrite F).
    rewrite E, IH1, IH2. destruct (e_has id x); auto.
  Qed.

  (** a change of a writer no entry refers to is not seen *)
  Lemma pooled_other (l : list entry) es w k b h ref hp x : (forall e, In e l -> e_ref e <> ref) ->
    map (entry_pooled (R:=R) (mkShared es (set_nth ref x hp) w k b h)) l = map (entry_pooled (mkShared es hp w k b h)) l.
  Proof.
    intros H. apply map_ext_in. intros e He. unfold entry_pooled, the_writer. cbn [heap]. rewrite nth_set_other; auto.
    intros E. now apply (H e).
  Qed.

  Lemma append_atomic s id r : good s ->
    let '(ref, s1) := get_writer M s id in
    let '(o, s2) := writer_append M s1 id ref r in
    pool_append M (abs s) id r = (o, abs s2) /\ good s1 /\ good s2 /\
    holder s1 = holder s /\ holder s2 = holder s.
  Proof.
    intros (N & L). unfold get_writer, pool_append.
    assert (Ab : abs s = mkSState (map (entry_pooled s) (entries s)) (storage s) (clock s)) by reflexivity. rewrite Ab. cbn [pool ticks world_of].
    rewrite (take_last_map (entry_pooled s)) by reflexivity.
    destruct (find_last id (entries s)) as [[[a e] b]|] eqn:F.
    - apply find_last_Some in F as (E & I). unfold writer_append. cbn [storage the_writer heap].
      change (the_writer (mkShared (a ++ mkEntry (e_id e) (m_time M (clock s)) (e_ref e) :: b) (heap s) (storage s) (S (clock s)) (running s) (holder s)) (e_ref e))
        with (the_writer s (e_ref e)).
      assert (PB : p_blob (entry_pooled s e) = the_writer s (e_ref e)) by reflexivity. rewrite PB.
      destruct (blob_append (m_writer M id) (the_writer s (e_ref e)) (storage s) r) as [o [b' w']] eqn:Eb. cbn [running holder clock entries].
      rewrite E in N, L. rewrite map_app in N. cbn [map] in N.
      assert (NE : forall x, In x (a ++ b) -> e_ref x <> e_ref e).
      { apply NoDup_remove_2 in N. intros x Hx Q. apply N. rewrite <- Q, <- map_app. now apply in_map. }
      assert (Le : e_ref e < length (heap s)) by (apply L, in_app_iff; right; left; reflexivity).
      assert (G1 : good (mkShared (a ++ mkEntry (e_id e) (m_time M (clock s)) (e_ref e) :: b) (heap s) (storage s) (S (clock s)) (running s) (holder s))).
      { split; cbn [entries heap]; [rewrite map_app; exact N|]. intros x Hx. apply in_app_iff in Hx as [Hx|[<-|Hx]]; cbn [e_ref]; auto;
          apply L, in_app_iff; [left|right; right]; auto. }
      split; [|split; [exact G1|split; [|auto]]].
      + unfold abs. cbn [entries storage clock]. f_equal. f_equal. rewrite map_app. cbn [map].
        f_equal; [|f_equal].
        * symmetry. rewrite pooled_other; [reflexivity|]. intros x Hx. apply NE, in_app_iff. auto.
        * unfold entry_pooled, the_writer. cbn [e_id e_last e_ref heap]. rewrite nth_set_nth by exact Le. now rewrite I.
        * symmetry. rewrite pooled_other; [reflexivity|]. intros x Hx. apply NE, in_app_iff. auto.
      + destruct G1 as [G1 G1']. split; cbn [entries heap] in *; [exact G1|]. rewrite set_nth_length. exact G1'.
    - unfold writer_append. cbn [storage heap].
      assert (TW : the_writer (mkShared (entries s ++ [mkEntry id (m_time M (clock s)) (length (heap s))]) (heap s ++ [open_buffer]) (storage s) (S (clock s)) (running s) (holder s)) (length (heap s)) = open_buffer).
      { unfold the_writer. cbn [heap]. rewrite app_nth2, Nat.sub_diag by lia. reflexivity. }
      rewrite TW. destruct (blob_append (m_writer M id) open_buffer (storage s) r) as [o [b' w']] eqn:Eb.
      assert (NE : forall x, In x (entries s) -> e_ref x <> length (heap s)) by (intros x Hx; specialize (L x Hx); lia).
      assert (G1 : good (mkShared (entries s ++ [mkEntry id (m_time M (clock s)) (length (heap s))]) (heap s ++ [open_buffer]) (storage s) (S (clock s)) (running s) (holder s))).
      { split; cbn [entries heap].
        - rewrite map_app. cbn [map e_ref]. apply NoDup_Add with (a := length (heap s)) (l := map e_ref (entries s)).
          + pose proof (Add_app (length (heap s)) (map e_ref (entries s)) []) as Q. now rewrite app_nil_r in Q.
          + split; [exact N|]. intros Hx. apply in_map_iff in Hx as (e & Q & He). now apply (NE e).
        - rewrite app_length. cbn [length]. intros x Hx. apply in_app_iff in Hx as [Hx|[<-|[]]]; [specialize (L x Hx)|cbn [e_ref]]; lia. }
      split; [|split; [exact G1|split; [|auto]]].
      + unfold abs. cbn [entries storage clock]. f_equal. f_equal. rewrite map_app. cbn [map].
        f_equal; [|f_equal].
        * rewrite pooled_other by exact NE. apply map_ext_in. intros x Hx. unfold entry_pooled, the_writer. cbn [heap].
          rewrite app_nth1; auto.
        * unfold entry_pooled, the_writer. cbn [e_id e_last e_ref heap]. rewrite nth_set_nth; [reflexivity|]. rewrite app_length. cbn. lia.
      + destruct G1 as [G1 G1']. split; cbn [entries heap] in *; [exact G1|]. rewrite set_nth_length. exact G1'.
  Qed.

  Lemma remove_atomic s id : good s ->
    match take_out s id with
    | (Some ref, s1) => let '(o, s2) := writer_commit M s1 id ref in
        remove_writer M (abs s) id = (o, abs s2) /\ good s1 /\ good s2 /\ holder s1 = holder s /\ holder s2 = holder s
    | (None, s1) => remove_writer M (abs s) id = (Ok tt, abs s1) /\ good s1 /\ holder s1 = holder s
    end.
  Proof.
    intros (N & L). unfold take_out, remove_writer.
    assert (Ab : abs s = mkSState (map (entry_pooled s) (entries s)) (storage s) (clock s)) by reflexivity. rewrite Ab. cbn [pool ticks world_of].
    destruct (filter_map_id (entry_pooled s) id (entries s)) as [E1 E2]; [reflexivity|]. rewrite E1, E2.
    destruct (filter (e_has id) (entries s)) as [|e [|e' l]] eqn:F; cbn [map].
    - split; [reflexivity|split; [split; assumption|reflexivity]].
    - unfold writer_commit. cbn [storage].
      change (the_writer (mkShared (filter (fun e0 => negb (e_has id e0)) (entries s)) (heap s) (storage s) (clock s) (running s) (holder s)) (e_ref e))
        with (the_writer s (e_ref e)).
      assert (PB : p_blob (entry_pooled s e) = the_writer s (e_ref e)) by reflexivity. rewrite PB.
      destruct (commit (m_writer M id) (the_writer s (e_ref e)) (storage s)) as [o [b' w']] eqn:Ec.
      assert (He : In e (entries s) /\ e_has id e = true) by (apply filter_In; rewrite F; left; reflexivity).
      assert (NE : forall x, In x (filter (fun e0 => negb (e_has id e0)) (entries s)) -> e_ref x <> e_ref e).
      { intros x Hx Q. apply filter_In in Hx as [Hx Hn].
        assert (x = e); [|subst x; destruct He as [_ He]; rewrite He in Hn; discriminate].
        destruct He as [He _]. clear -N Hx He Q. induction (entries s) as [|y l IH]; [destruct Hx|]. cbn in N. inversion N as [|? ? N1 N2]; subst.
        destruct Hx as [->|Hx], He as [->|He]; auto; exfalso; apply N1; [rewrite Q|rewrite <- Q]; now apply in_map. }
      assert (G1 : good (mkShared (filter (fun e0 => negb (e_has id e0)) (entries s)) (heap s) (storage s) (clock s) (running s) (holder s))).
      { split; cbn [entries heap].
        - clear -N. induction (entries s) as [|y l IH]; [constructor|]. cbn in N. inversion N as [|? ? N1 N2]; subst. cbn [filter].
          destruct (negb (e_has id y)); cbn [map]; auto. constructor; auto. intros H. apply N1. apply in_map_iff in H as (x & Q & Hx).
          apply filter_In in Hx as [Hx _]. rewrite <- Q. now apply in_map.
        - intros x Hx. apply filter_In in Hx as [Hx _]. auto. }
      split; [|split; [exact G1|split; [|auto]]].
      + unfold abs. cbn [entries storage clock]. rewrite pooled_other by exact NE. destruct o; reflexivity.
      + destruct G1 as [G1 G1']. split; cbn [entries heap] in *; [exact G1|]. rewrite set_nth_length. exact G1'.
    - split; [reflexivity|split; [split; assumption|reflexivity]].
  Qed.

  (** what a thread inside the lock still does, as if it were alone *)
  Definition counted (x : result unit * sstate (R:=R)) : result nat * sstate :=
    let '(o, s) := x in (match o with Ok _ => Ok 0 | Raise e => Raise e end, s).
  Definition evict_rest (ids : list str) (stale_ones : bool) (s : sstate) : result unit * sstate :=
    match remove_all M s ids with
    | (Ok u, s') => if stale_ones then remove_all M s' (nominate (m_pool_size M) (pool s')) else (Ok u, s')
    | x => x
    end.
  Definition close_rest (ids : list str) (s : sstate) : sstate :=
    fold_left (fun s id => snd (remove_writer M s id)) ids s.
  Definition rest (d : doing) (s : shared) : result nat * sstate :=
    match d with
    | Finding r ids writes => append_all M (abs s) ids r writes
    | Appending r id ref ids writes =>
        match writer_append M s id ref r with
        | (Ok _, s') => append_all M (abs s') ids r (S writes)
        | (Raise e, s') => (Raise e, abs s')
        end
    | Searching => counted (attend M (abs s))
    | Evicting ids b => counted (evict_rest ids b (abs s))
    | Committing id ref ids b =>
        match writer_commit M s id ref with
        | (Ok _, s') => counted (evict_rest ids b (abs s'))
        | (Raise e, s') => (Raise e, abs s')
        end
    | Closing ids => (Ok 0, close_rest ids (abs s))
    | Storing id ref ids => (Ok 0, close_rest ids (abs (snd (writer_commit M s id ref))))
    | Leaving o => (o, abs s)
    | _ => (Ok 0, abs s)
    end.
  Lemma writer_append_good s id ref r o s' : good s -> writer_append M s id ref r = (o, s') -> good s' /\ holder s' = holder s.
  Proof.
    intros [G G']. unfold writer_append. destruct (blob_append _ _ _ _) as [o' [b w]]. intros [= <- <-].
    split; [split; cbn [entries heap]; [exact G|rewrite set_nth_length; exact G']|reflexivity].
  Qed.
  Lemma writer_commit_good s id ref o s' : good s -> writer_commit M s id ref = (o, s') -> good s' /\ holder s' = holder s.
  Proof.
    intros [G G']. unfold writer_commit. destruct (commit _ _ _) as [o' [b w]]. intros [= <- <-].
    split; [split; cbn [entries heap]; [exact G|rewrite set_nth_length; exact G']|reflexivity].
  Qed.
  Lemma inner_rest d s d' s' : good s -> inner M d s = (d', s') ->
    rest d' s' = rest d s /\ good s' /\ holder s' = holder s.
  Proof.
    intros G. destruct d as [|e|r ids k|r id ref ids k| |ids b|id ref ids b|ids|id ref ids|o|]; cbn [inner].
    - intros [= <- <-]. auto.
    - intros [= <- <-]. auto.
    - destruct ids as [|id ids]; [intros [= <- <-]; auto|].
      pose proof (append_atomic s id r G) as A. destruct (get_writer M s id) as [ref s1]. intros [= <- <-]. cbn [rest append_all].
      destruct (writer_append M s1 id ref r) as [o s2]. destruct A as (A & G1 & G2 & H1 & H2). rewrite A.
      destruct o; auto.
    - destruct (writer_append M s id ref r) as [o s1] eqn:E.
      pose proof (writer_append_good s id ref r _ _ G E) as [G1 H1].
      destruct o as [n|x]; intros [= <- <-]; cbn [rest]; rewrite E; auto.
    - intros [= <- <-]. split; [|split; [exact G|reflexivity]]. reflexivity.
    - destruct ids as [|id ids].
      + destruct b; intros [= <- <-]; cbn [rest]; auto. split; [|auto]. unfold evict_rest. cbn [remove_all].
        f_equal. change (nominated M s) with (nominate (m_pool_size M) (pool (abs s))).
        destruct (remove_all M (abs s) (nominate (m_pool_size M) (pool (abs s)))) as [[u|x] s1]; [destruct u|]; reflexivity.
      + pose proof (remove_atomic s id G) as A. destruct (take_out s id) as [[ref|] s1].
        * intros [= <- <-]. cbn [rest]. unfold evict_rest at 2. cbn [remove_all].
          destruct (writer_commit M s1 id ref) as [o s2]. destruct A as (A & G1 & G2 & H1 & H2). rewrite A.
          destruct o as [u|x]; auto.
        * intros [= <- <-]. cbn [rest]. unfold evict_rest at 2. cbn [remove_all]. destruct A as (A & G1 & H1). rewrite A. auto.
    - destruct (writer_commit M s id ref) as [o s1] eqn:E.
      pose proof (writer_commit_good s id ref _ _ G E) as [G1 H1].
      destruct o as [n|x]; intros [= <- <-]; cbn [rest]; rewrite E; auto.
    - destruct ids as [|id ids]; [intros [= <- <-]; auto|].
      pose proof (remove_atomic s id G) as A. unfold rest at 2. unfold close_rest. cbn [fold_left]. destruct (take_out s id) as [[ref|] s1].
      + intros [= <- <-]. cbn [rest]. destruct (writer_commit M s1 id ref) as [o s2] eqn:E. destruct A as (A & G1 & G2 & H1 & H2). rewrite A.
        auto.
      + intros [= <- <-]. cbn [rest]. destruct A as (A & G1 & H1). rewrite A. auto.
    - destruct (writer_commit M s id ref) as [o s1] eqn:E.
      pose proof (writer_commit_good s id ref _ _ G E) as [G1 H1]. intros [= <- <-]. cbn [rest]. rewrite E. auto.
    - intros [= <- <-]. auto.
    - intros [= <- <-]. auto.
  Qed.
  Lemma inner_section d s d' s' : in_section d = true -> inner M d s = (d', s') -> in_section d' = true \/ exists o, d' = Leaving o.
  Proof.
    intros I. destruct d as [|e|r ids k|r id ref ids k| |ids b|id ref ids b|ids|id ref ids|o|]; try discriminate I; cbn [inner].
    - destruct ids as [|id ids]; [intros [= <- <-]; eauto|]. destruct (get_writer M s id) as [ref s1]. intros [= <- <-]. auto.
    - destruct (writer_append M s id ref r) as [[n|x] s1]; intros [= <- <-]; eauto.
    - intros [= <- <-]. auto.
    - destruct ids as [|id ids]; [destruct b; intros [= <- <-]; eauto|]. destruct (take_out s id) as [[ref|] s1]; intros [= <- <-]; auto.
    - destruct (writer_commit M s id ref) as [[n|x] s1]; intros [= <- <-]; eauto.
    - destruct ids as [|id ids]; [intros [= <- <-]; eauto|]. destruct (take_out s id) as [[ref|] s1]; intros [= <- <-]; auto.
    - destruct (writer_commit M s id ref) as [o s1]. intros [= <- <-]. auto.
  Qed.
  Lemma enter_rest s e h : rest (enter M s e) (hold s h) = sstep M (abs s) e /\ in_section (enter M s e) = true.
  Proof.
    destruct e as [r now| |]; split; try reflexivity. cbn [enter rest sstep]. f_equal. unfold close_rest, stream_finalize.
    change (abs (hold s h)) with (abs s). cbn [abs pool].
    assert (Q : forall l st, fold_left (fun s id => snd (remove_writer M s id)) (map e_id l) st =
      fold_left (fun s0 w => snd (remove_writer M s0 (p_id w))) (map (entry_pooled s) l) st).
    { induction l as [|x l IH]; intros st; [reflexivity|]. cbn [map fold_left]. apply IH. }
    apply Q.
  Qed.

  (** ** The invariant *)
  Definition quiet (t : thread (R:=R)) : Prop :=
    match at_ t with Ready e => asked t = Some e | Outside | Dead => asked t = None | _ => False end.
  Definition busy (t : thread (R:=R)) (e : event) : Prop :=
    asked t = Some e /\ (in_section (at_ t) = true \/ exists o, at_ t = Leaving o).
  Definition ran (h : list (nat * event * result nat)) (s : sstate) : Prop :=
    srun M new_stream (events_of h) = (outcomes_of h, s).
  Definition cinv (c : config) : Prop :=
    good (common c) /\
    match holder (common c) with
    | None => Forall quiet (threads c) /\ ran (history c) (abs (common c))
    | Some i => exists t e s0, nth_error (threads c) i = Some t /\ busy t e /\
        (forall j u, j <> i -> nth_error (threads c) j = Some u -> quiet u) /\
        ran (history c) s0 /\ rest (at_ t) (common c) = sstep M s0 e
    end.
  Lemma srun_snoc es : forall s e os s' o s'', srun M s es = (os, s') -> sstep M s' e = (o, s'') ->
    srun M s (es ++ [e]) = (os ++ [o], s'').
  Proof.
    induction es as [|x es IH]; intros s e os s' o s''; cbn [srun app].
    - intros [= <- <-] H. rewrite H. reflexivity.
    - destruct (sstep M s x) as [o1 s1]. destruct (srun M s1 es) as [os1 s2] eqn:E. intros [= <- <-] H.
      rewrite (IH _ _ _ _ _ _ E H). reflexivity.
  Qed.
  Lemma quiet_not_section t : quiet t -> in_section (at_ t) = false /\ forall o, at_ t <> Leaving o.
  Proof. unfold quiet. destruct (at_ t); intros H; try contradiction; split; try reflexivity; discriminate. Qed.
  Lemma quiet_all (P : thread (R:=R) -> Prop) ths : (forall j u, nth_error ths j = Some u -> P u) <-> Forall P ths.
  Proof.
    rewrite Forall_forall. split.
    - intros H x Hx. apply In_nth_error in Hx as (j & Hj). eauto.
    - intros H j u Hj. eapply H, nth_error_In, Hj.
  Qed.
  (** a thread outside the lock goes on *)
  Lemma quiet_step s ths h i t t' s' : cinv (mkConfig s ths h) -> nth_error ths i = Some t -> quiet t -> quiet t' ->
    good s' -> holder s' = holder s -> abs s' = abs s -> (forall d, in_section d = true \/ (exists o, d = Leaving o) -> rest d s' = rest d s) ->
    cinv (mkConfig s' (set_nth i t' ths) h).
  Proof.
    intros (G & C) Hi Q Q' G' Hh Ha Hr. split; [exact G'|]. cbn [common threads history] in *. rewrite Hh.
    destruct (holder s) as [k|].
    - destruct C as (u & e & s0 & Hk & B & O & Rn & Rs). exists u, e, s0.
      assert (i <> k).
      { intros ->. rewrite Hk in Hi. injection Hi as ->. destruct B as (_ & B). apply quiet_not_section in Q as [Q1 Q2].
        destruct B as [B|(o & B)]; [congruence|]. now apply (Q2 o). }
      split; [now rewrite nth_error_set_other|]. split; [exact B|]. split; [|split; [exact Rn|]].
      + intros j v Hj Hv. destruct (Nat.eq_dec i j) as [<-|N].
        * rewrite nth_error_set in Hv by (eapply nth_error_lt; eassumption). congruence.
        * rewrite nth_error_set_other in Hv by exact N. eapply O; eauto.
      + rewrite Hr; [exact Rs|]. apply B.
    - destruct C as (F & Rn). rewrite Ha. split; [|exact Rn]. rewrite <- quiet_all in *. intros j v Hv.
      destruct (Nat.eq_dec i j) as [<-|N].
      + rewrite nth_error_set in Hv by (eapply nth_error_lt; eassumption). congruence.
      + rewrite nth_error_set_other in Hv by exact N. eapply F; eauto.
  Qed.
  Lemma stop_rest d s : rest d (stop_attendant s) = rest d s.
  Proof.
    destruct d as [|e|r ids k|r id ref ids k| |ids b|id ref ids b|ids|id ref ids|o|]; try reflexivity; cbn [rest];
      unfold writer_append, writer_commit; change (the_writer (stop_attendant s) ref) with (the_writer s ref);
      change (storage (stop_attendant s)) with (storage s).
    - destruct (blob_append (m_writer M id) (the_writer s ref) (storage s) r) as [[n|x] [b w]]; reflexivity.
    - destruct (commit (m_writer M id) (the_writer s ref) (storage s)) as [[n|x] [b' w]]; reflexivity.
    - destruct (commit (m_writer M id) (the_writer s ref) (storage s)) as [[n|x] [b' w]]; reflexivity.
  Qed.
  Lemma turn_inv c c' : turn M c c' -> cinv c -> cinv c'.
  Proof.
    intros T I. destruct T as [i s ths h r asks now Hi|i s ths h asks Hi|i s ths h Hi Hr|i s ths h p e Hi Hn|i s ths h p d a d' s' Hi Hd Hin|i s ths h p o e Hi].
    - eapply quiet_step; eauto; try reflexivity. apply I.
    - eapply quiet_step; eauto; try reflexivity; [apply I|]. intros d D. apply stop_rest.
    - eapply quiet_step; eauto; try reflexivity. apply I.
    - destruct I as (G & C). cbn [common threads history] in *. rewrite Hn in C. destruct C as (F & Rn). split; [exact G|].
      cbn [common threads history hold holder]. destruct (enter_rest s e (Some i)) as [Er Es].
      exists (mkThread p (enter M s e) (Some e)), e, (abs s). cbn [at_ asked].
      split; [apply nth_error_set; eapply nth_error_lt; eassumption|]. split; [split; [reflexivity|left; exact Es]|].
      split; [|split; [exact Rn|exact Er]]. intros j u Hj Hu. rewrite nth_error_set_other in Hu by auto.
      rewrite <- quiet_all in F. eapply F; eauto.
    - destruct I as (G & C). cbn [common threads history] in *. destruct (inner_rest d s d' s' G Hin) as (Er & G' & Hh).
      split; [exact G'|]. cbn [common threads history]. rewrite Hh. destruct (holder s) as [k|].
      + destruct C as (u & e & s0 & Hk & B & O & Rn & Rs).
        assert (i = k).
        { destruct (Nat.eq_dec i k) as [E|N]; [exact E|exfalso]. specialize (O i _ N Hi). apply quiet_not_section in O as [O _].
          cbn [at_] in O. congruence. }
        subst k. rewrite Hi in Hk. injection Hk as <-. exists (mkThread p d' a), e, s0. cbn [at_ asked] in *.
        split; [apply nth_error_set; eapply nth_error_lt; eassumption|].
        destruct B as (B1 & _). split; [split; [exact B1|eapply inner_section; eassumption]|]. split; [|split; [exact Rn|now rewrite Er]].
        intros j v Hj Hv. rewrite nth_error_set_other in Hv by auto. eapply O; eauto.
      + exfalso. destruct C as (F & _). rewrite <- quiet_all in F. specialize (F i _ Hi). apply quiet_not_section in F as [F _].
        cbn [at_] in F. congruence.
    - destruct I as (G & C). cbn [common threads history] in *. split; [exact G|]. cbn [common threads history hold holder].
      destruct (holder s) as [k|].
      + destruct C as (u & e' & s0 & Hk & B & O & Rn & Rs).
        assert (i = k).
        { destruct (Nat.eq_dec i k) as [E|N]; [exact E|exfalso]. specialize (O i _ N Hi). apply quiet_not_section in O as [_ O].
          now apply (O o). }
        subst k. rewrite Hi in Hk. injection Hk as <-. destruct B as (B1 & _). cbn [at_ asked rest] in *. injection B1 as <-.
        split.
        * rewrite <- quiet_all. intros j v Hv. destruct (Nat.eq_dec i j) as [<-|N].
          -- rewrite nth_error_set in Hv by (eapply nth_error_lt; eassumption). injection Hv as <-. unfold quiet. cbn [at_ asked].
             destruct p, o; reflexivity.
          -- rewrite nth_error_set_other in Hv by auto. eapply O; eauto.
        * unfold ran, events_of, outcomes_of in *. rewrite !map_app. cbn [map fst snd]. eapply srun_snoc; [exact Rn|].
          rewrite <- Rs. reflexivity.
      + exfalso. destruct C as (F & _). rewrite <- quiet_all in F. specialize (F i _ Hi). apply quiet_not_section in F as [_ F].
        now apply (F o).
  Qed.
  Lemma start_inv programs : cinv (start programs).
  Proof.
    split; [split; [constructor|intros e []]|]. cbn. split; [|reflexivity]. rewrite Forall_app. split; [|repeat constructor].
    apply Forall_forall. intros t Ht. apply in_map_iff in Ht as (p & <- & _). reflexivity.
  Qed.
  Lemma turns_inv programs c : turns M (start programs) c -> cinv c.
  Proof.
    intros T. remember (start programs) as c0 eqn:E. induction T as [c|c c' c'' T IH S]; subst.
    - apply start_inv.
    - eapply turn_inv; eauto.
  Qed.
End Atomic.

(** ** Every thread's calls, in its order *)
Section Programs.
  Context {R V : Type} (M : streaming R V).
  Notation ended := (list (nat * event (R:=R) * result nat)).

  Definition pending (t : thread (R:=R)) : list event := match asked t with Some e => [e] | None => [] end.
  Definition pinv (programs : list (list (ask (R:=R)))) (c : config) : Prop :=
    length (threads c) = S (length programs) /\
    (forall i t, nth_error (threads c) i = Some t ->
       match nth_error programs i with
       | Some p => exists asks, todo t = Client asks /\ p = asks_of (events_of (by_thread i (history c))) ++ asks_of (pending t) ++ asks
       | None => todo t = Attendant /\ (asked t = None \/ asked t = Some Attend)
       end) /\
    (forall x, In x (history c) -> fst (fst x) < S (length programs) /\ (nth_error programs (fst (fst x)) = None -> snd (fst x) = Attend)).

  Lemma by_thread_app i (h h' : ended) : by_thread i (h ++ h') = by_thread i h ++ by_thread i h'.
  Proof. apply filter_app. Qed.
  Lemma asks_app (a b : list (event (R:=R))) : asks_of (a ++ b) = asks_of a ++ asks_of b.
  Proof. apply flat_map_app. Qed.

  Lemma turn_pinv programs c c' : turn M c c' -> cinv M c -> pinv programs c -> pinv programs c'.
  Proof.
    intros T CI (L & P & H). destruct T as [i s ths h r asks now Hi|i s ths h asks Hi|i s ths h Hi Hr|i s ths h p e Hi Hn|i s ths h p d a d' s' Hi Hd Hin|i s ths h p o e Hi];
      unfold pinv in *; cbn [threads history common] in *; rewrite set_nth_length; (split; [exact L|]).
    1-5: split; [|exact H]; intros j t Ht; destruct (Nat.eq_dec i j) as [<-|N];
      [rewrite nth_error_set in Ht by (eapply nth_error_lt; eassumption); injection Ht as <-; specialize (P i _ Hi)
      |rewrite nth_error_set_other in Ht by exact N; now apply P].
    - destruct (nth_error programs i); [|destruct P as [P _]; discriminate]. destruct P as (as' & E & Q). cbn in E. injection E as <-.
      exists asks. split; [reflexivity|]. rewrite Q. reflexivity.
    - destruct (nth_error programs i); [|destruct P as [P _]; discriminate]. destruct P as (as' & E & Q). cbn in E. injection E as <-.
      exists asks. split; [reflexivity|]. rewrite Q. reflexivity.
    - destruct (nth_error programs i); [destruct P as (as' & E & _); discriminate|]. cbn [todo asked]. auto.
    - exact P.
    - exact P.
    - pose proof (nth_error_lt _ _ _ Hi) as Li. pose proof (P i _ Hi) as Pi. split.
      + intros j t Ht. rewrite by_thread_app. cbn [by_thread filter fst]. destruct (Nat.eqb_spec i j) as [<-|N].
        * rewrite nth_error_set in Ht by exact Li. injection Ht as <-. cbn [todo asked] in Pi |- *.
          unfold events_of in *. rewrite map_app, asks_app. destruct (nth_error programs i).
          -- destruct Pi as (as' & E & Q). exists as'. split; [exact E|]. rewrite Q. unfold pending. cbn [asked asks_of flat_map map fst snd app].
             rewrite app_nil_r, <- app_assoc. reflexivity.
          -- destruct Pi as (E & _). auto.
        * rewrite nth_error_set_other in Ht by exact N. rewrite app_nil_r. now apply P.
      + intros x Hx. apply in_app_iff in Hx as [Hx|[<-|[]]]; [now apply H|]. cbn [fst snd]. split; [lia|].
        intros E. rewrite E in Pi. cbn [asked] in Pi. destruct Pi as (_ & [Pi|Pi]); congruence.
  Qed.
  Lemma start_pinv programs : pinv programs (start programs).
  Proof.
    split; [|split; [|intros x []]]; cbn [threads start history].
    - rewrite app_length, map_length. cbn. lia.
    - intros i t Ht. destruct (nth_error programs i) as [p|] eqn:E.
      + rewrite nth_error_app1, nth_error_map, E in Ht by (rewrite map_length; eapply nth_error_lt; eassumption).
        injection Ht as <-. exists p. auto.
      + apply nth_error_None in E. rewrite nth_error_app2 in Ht by (rewrite map_length; exact E).
        apply nth_error_In in Ht as [<-|[]]. auto.
  Qed.
  Lemma turns_pinv programs c : turns M (start programs) c -> pinv programs c.
  Proof.
    intros T. pose proof T as T0. remember (start programs) as c0 eqn:E. induction T as [c|c c' c'' T IH S]; subst.
    - apply start_pinv.
    - eapply turn_pinv; [exact S|eapply turns_inv; exact T|]. now apply IH.
  Qed.

  (** ** The history is an interleaving of the threads' own *)
  Lemma interleaved_block {A} (x : list A) : forall a l b rest, interleaved (a ++ l :: b) rest -> interleaved (a ++ (x ++ l) :: b) (x ++ rest).
  Proof. induction x as [|y x IH]; intros a l b r H; [exact H|]. cbn [app]. constructor. now apply IH. Qed.
  Lemma interleaved_map {A} (f g : nat -> list A) x k n rest : k < n ->
    f k = x ++ g k -> (forall j, j <> k -> f j = g j) -> interleaved (map g (seq 0 n)) rest -> interleaved (map f (seq 0 n)) (x ++ rest).
  Proof.
    intros Hk E O. replace n with (k + S (n - S k)) by lia. rewrite seq_app, !map_app. cbn [seq map Nat.add].
    assert (Ef : forall l, ~ In k l -> map f l = map g l).
    { intros l Hl. apply map_ext_in. intros j Hj. apply O. intros ->. auto. }
    rewrite (Ef (seq 0 k)), (Ef (seq (S k) (n - S k))) by (rewrite in_seq; lia). rewrite E. apply interleaved_block.
  Qed.
  Lemma history_interleaved id n (h : ended) :
    (forall x, In x h -> fst (fst x) < n \/ snd (fst x) = Attend) ->
    interleaved (map (fun i => sent M (events_of (by_thread i h)) (outcomes_of (by_thread i h)) id) (seq 0 n))
                (sent M (events_of h) (outcomes_of h) id).
  Proof.
    induction h as [|[[k e] o] h IH]; intros H.
    - cbn. constructor. intros l Hl. apply in_map_iff in Hl as (i & <- & _). reflexivity.
    - assert (IH' := IH (fun x Hx => H x (or_intror Hx))). clear IH.
      change (events_of ((k, e, o) :: h)) with (e :: events_of h). change (outcomes_of ((k, e, o) :: h)) with (o :: outcomes_of h).
      rewrite sent_cons. destruct (H _ (or_introl eq_refl)) as [Hk|Hk]; cbn [fst snd] in Hk.
      + eapply interleaved_map; [exact Hk| | |exact IH'].
        * cbn [by_thread filter fst]. rewrite Nat.eqb_refl. cbn [events_of outcomes_of map fst snd]. rewrite sent_cons. reflexivity.
        * intros j N. cbn [by_thread filter fst]. destruct (Nat.eqb_spec k j) as [->|_]; [lia|reflexivity].
      + subst e. unfold gained. assert (Q : sent M [Attend] [o] id = []) by (destruct o; reflexivity). rewrite Q. cbn [app].
        erewrite map_ext; [exact IH'|]. intros i. cbn [by_thread filter fst]. destruct (k =? i); [|reflexivity].
        cbn [events_of outcomes_of map fst snd]. rewrite sent_cons. unfold gained. rewrite Q. reflexivity.
  Qed.

  (** ** After the last finalize *)
  Lemma idle es : forall s os s', pool s = [] -> (forall r now, ~ In (SAppend r now) es) -> srun M s es = (os, s') ->
    world_of s' = world_of s /\ pool s' = [].
  Proof.
    induction es as [|e es IH]; intros s os s' P N; cbn [srun].
    - intros [= <- <-]. auto.
    - destruct (sstep M s e) as [o s1] eqn:E1. destruct (srun M s1 es) as [os1 s2] eqn:E2. intros [= <- <-].
      assert (Q : pool s1 = [] /\ world_of s1 = world_of s).
      { destruct e as [r now| |]; [exfalso; apply (N r now); left; reflexivity| |].
        - cbn [sstep] in E1. unfold attend in E1. cbn zeta in E1. rewrite P in E1. cbn in E1.
          unfold nominate in E1. cbn [isort map length] in E1.
          assert (Z : forall z (l : list (pooled (R:=R))), l = [] -> slice_to l z = []).
          { intros z l ->. unfold slice_to. now rewrite firstn_nil. }
          rewrite (Z _ (slice_to [] _)) in E1 by now apply Z. cbn in E1. injection E1 as _ <-. auto.
        - cbn [sstep] in E1. unfold stream_finalize in E1. rewrite P in E1. cbn in E1. injection E1 as _ <-. auto. }
      destruct Q as [Q1 Q2]. destruct (IH _ _ _ Q1 (fun r now H => N r now (or_intror H)) E2) as [A B]. split; congruence.
  Qed.

  Hypothesis Rel0 : reliable (m_base M).
  Lemma threads_stored programs c : turns M (start programs) c -> holder (common c) = None -> finalized_last (history c) ->
    exists blobs, contents M blobs (puts (storage (common c))) /\
      forall id, interleaved (map (fun i => sent M (events_of (by_thread i (history c))) (outcomes_of (by_thread i (history c))) id)
                                  (seq 0 (length programs)))
                             (stored_for id blobs).
  Proof.
    intros T Hn (h1 & i & o & h2 & Eh & Na). destruct (turns_inv M programs c T) as (G & C). rewrite Hn in C. destruct C as (_ & Rn).
    destruct (turns_pinv programs c T) as (L & _ & Ph).
    assert (E : events_of (history c) = (events_of h1 ++ [SFinalize]) ++ events_of h2).
    { rewrite Eh. unfold events_of. rewrite map_app. cbn [map fst snd]. now rewrite <- app_assoc. }
    unfold ran in Rn. pose proof Rn as Rn0. rewrite E in Rn. apply srun_app in Rn as (os1 & s1 & os2 & R1 & R2 & Eo).
    destruct (srun_inv M Rel0 [] _ _ _ _ _ (sinv_new M) Rn0) as (_ & bl & pe & [Ct _] & St & _ & Z).
    assert (P : pool (abs (common c)) = []).
    { pose proof R1 as R1'. apply srun_app in R1 as (oa & sa & ob & Ra & Rb & _). cbn in Rb. injection Rb as _ <-.
      destruct (finalize_inv M Rel0 [] sa _ (srun_inv M Rel0 [] _ _ _ _ _ (sinv_new M) Ra)) as [_ Pf].
      now destruct (idle _ _ _ _ Pf Na R2) as [_ Q]. }
    exists bl. split; [exact (timed_contents M _ _ Ct)|]. intros id. specialize (St id). cbn beta in St. cbn [app] in St.
    rewrite (Z id), app_nil_r in St by (rewrite P; intros []). rewrite St. apply history_interleaved.
    intros x Hx. destruct (Ph x Hx) as [A B]. destruct (nth_error programs (fst (fst x))) eqn:En; [left; eapply nth_error_lt; eassumption|auto].
  Qed.

  (** at any time the lock is free, what is stored is the beginning of an interleaving *)
  Lemma threads_never_twice programs c : turns M (start programs) c -> holder (common c) = None ->
    exists blobs, contents M blobs (puts (storage (common c))) /\
      forall id, exists waiting,
        interleaved (map (fun i => sent M (events_of (by_thread i (history c))) (outcomes_of (by_thread i (history c))) id)
                                  (seq 0 (length programs)))
                    (stored_for id blobs ++ waiting).
  Proof.
    intros T Hn. destruct (turns_inv M programs c T) as (G & C). rewrite Hn in C. destruct C as (_ & Rn).
    destruct (turns_pinv programs c T) as (L & _ & Ph).
    destruct (never_duplicated M Rel0 _ _ _ Rn) as (bl & Ct & W). exists bl. split; [exact Ct|]. intros id. destruct (W id) as (w & Q).
    exists w. rewrite Q. apply history_interleaved.
    intros x Hx. destruct (Ph x Hx) as [A B]. destruct (nth_error programs (fst (fst x))) eqn:En; [left; eapply nth_error_lt; eassumption|auto].
  Qed.
End Programs.

(** ** No thread waits for ever *)
Section Progress.
  Context {R V : Type} (M : streaming R V).

  Inductive alone : doing -> shared (R:=R) -> doing -> shared -> Prop :=
  | alone_done d s : alone d s d s
  | alone_step d s d1 s1 d' s' : in_section d = true -> inner M d s = (d1, s1) -> alone d1 s1 d' s' -> alone d s d' s'.
  Definition leaves (d : doing) (s : shared) : Prop := exists o s', alone d s (Leaving o) s'.
  Lemma leaves_step d s d1 s1 : in_section d = true -> inner M d s = (d1, s1) -> leaves d1 s1 -> leaves d s.
  Proof. intros I E (o & s' & A). exists o, s'. econstructor; eauto. Qed.
  Lemma leaves_now o s : leaves (Leaving o) s.
  Proof. exists o, s. constructor. Qed.
  Lemma finding_leaves r ids : forall k s, leaves (Finding r ids k) s.
  Proof.
    induction ids as [|id ids IH]; intros k s.
    - eapply leaves_step; [reflexivity..|apply leaves_now].
    - destruct (get_writer M s id) as [ref s1] eqn:E1. eapply leaves_step; [reflexivity|cbn [inner]; rewrite E1; reflexivity|].
      destruct (writer_append M s1 id ref r) as [o s2] eqn:E2. destruct o as [n|x];
        (eapply leaves_step; [reflexivity|cbn [inner]; rewrite E2; reflexivity|]); [apply IH|apply leaves_now].
  Qed.
  Lemma evicting_leaves b : (forall s, leaves (Evicting [] b) s) -> forall ids s, leaves (Evicting ids b) s.
  Proof.
    intros H0. induction ids as [|id ids IH]; intros s; [apply H0|].
    destruct (take_out s id) as [[ref|] s1] eqn:E1;
      (eapply leaves_step; [reflexivity|cbn [inner]; rewrite E1; reflexivity|]); [|apply IH].
    destruct (writer_commit M s1 id ref) as [o s2] eqn:E2. destruct o as [n|x];
      (eapply leaves_step; [reflexivity|cbn [inner]; rewrite E2; reflexivity|]); [apply IH|apply leaves_now].
  Qed.
  Lemma evicting_all b : forall ids s, leaves (Evicting ids b) s.
  Proof.
    assert (F : forall ids s, leaves (Evicting ids false) s).
    { apply evicting_leaves. intros s. eapply leaves_step; [reflexivity..|apply leaves_now]. }
    destruct b; [|exact F]. apply evicting_leaves. intros s. eapply leaves_step; [reflexivity..|apply F].
  Qed.
  Lemma closing_leaves ids : forall s, leaves (Closing ids) s.
  Proof.
    induction ids as [|id ids IH]; intros s; [eapply leaves_step; [reflexivity..|apply leaves_now]|].
    destruct (take_out s id) as [[ref|] s1] eqn:E1;
      (eapply leaves_step; [reflexivity|cbn [inner]; rewrite E1; reflexivity|]); [|apply IH].
    destruct (writer_commit M s1 id ref) as [o s2] eqn:E2.
    eapply leaves_step; [reflexivity|cbn [inner]; rewrite E2; reflexivity|apply IH].
  Qed.
  Lemma section_leaves d s : in_section d = true -> leaves d s.
  Proof.
    destruct d as [|e|r ids k|r id ref ids k| |ids b|id ref ids b|ids|id ref ids|o|]; try discriminate; intros _.
    - apply finding_leaves.
    - destruct (writer_append M s id ref r) as [[n|x] s2] eqn:E2;
        (eapply leaves_step; [reflexivity|cbn [inner]; rewrite E2; reflexivity|]); [apply finding_leaves|apply leaves_now].
    - eapply leaves_step; [reflexivity..|apply evicting_all].
    - apply evicting_all.
    - destruct (writer_commit M s id ref) as [[n|x] s2] eqn:E2;
        (eapply leaves_step; [reflexivity|cbn [inner]; rewrite E2; reflexivity|]); [apply evicting_all|apply leaves_now].
    - apply closing_leaves.
    - destruct (writer_commit M s id ref) as [o s2] eqn:E2.
      eapply leaves_step; [reflexivity|cbn [inner]; rewrite E2; reflexivity|apply closing_leaves].
  Qed.

  Lemma set_set {A} i (x y : A) : forall l, set_nth i x (set_nth i y l) = set_nth i x l.
  Proof. induction i as [|i IH]; intros [|z l]; cbn; auto. now rewrite IH. Qed.
  Lemma set_same {A} i (x : A) : forall l, nth_error l i = Some x -> set_nth i x l = l.
  Proof. induction i as [|i IH]; intros [|z l]; cbn; try discriminate; [now intros [= ->]|]. intros H. now rewrite IH. Qed.
  Lemma turns_trans a b c : turns M a b -> turns M b c -> turns M a c.
  Proof. intros H T. revert H. induction T as [x|x y z T IH S]; intros H; [exact H|]. econstructor; [apply IH, H|exact S]. Qed.
  Lemma turns_one a b : turn M a b -> turns M a b.
  Proof. intros T. econstructor; [constructor|exact T]. Qed.

  Lemma alone_turns i p a h d s d' s' : alone d s d' s' -> forall ths, i < length ths ->
    turns M (mkConfig s (set_nth i (mkThread p d a) ths) h) (mkConfig s' (set_nth i (mkThread p d' a) ths) h).
  Proof.
    induction 1 as [d s|d s d1 s1 d' s' I E A IH]; intros ths L; [constructor|].
    eapply turns_trans; [|apply IH, L]. apply turns_one.
    replace (set_nth i (mkThread p d1 a) ths) with (set_nth i (mkThread p d1 a) (set_nth i (mkThread p d a) ths)) by apply set_set.
    eapply inside; [|exact I|exact E]. apply nth_error_set. exact L.
  Qed.
  (** from anywhere inside the lock to its release *)
  Lemma to_release i p d e s ths h : i < length ths -> in_section d = true \/ (exists o, d = Leaving o) ->
    exists s' o, holder s' = None /\
      turns M (mkConfig s (set_nth i (mkThread p d (Some e)) ths) h) (mkConfig s' (set_nth i (mkThread p (after p o) None) ths) (h ++ [(i, e, o)])).
  Proof.
    intros L D.
    assert (A : exists o s1, alone d s (Leaving o) s1).
    { destruct D as [D|(o & ->)]; [now apply section_leaves|]. exists o, s. constructor. }
    destruct A as (o & s1 & A). exists (hold s1 None), o. split; [reflexivity|].
    eapply turns_trans; [eapply alone_turns; eassumption|]. apply turns_one.
    replace (set_nth i (mkThread p (after p o) None) ths)
      with (set_nth i (mkThread p (after p o) None) (set_nth i (mkThread p (Leaving o) (Some e)) ths)) by apply set_set.
    apply release. apply nth_error_set. exact L.
  Qed.
  Lemma ready_ends i p e s ths h : i < length ths -> holder s = None ->
    exists s' o, holder s' = None /\
      turns M (mkConfig s (set_nth i (mkThread p (Ready e) (Some e)) ths) h)
              (mkConfig s' (set_nth i (mkThread p (after p o) None) ths) (h ++ [(i, e, o)])).
  Proof.
    intros L Hn.
    destruct (to_release i p (enter M s e) e (hold s (Some i)) ths h L) as (s' & o & Hs & T).
    { left. apply (enter_rest M s e None). }
    exists s', o. split; [exact Hs|]. eapply turns_trans; [|exact T]. apply turns_one.
    replace (set_nth i (mkThread p (enter M s e) (Some e)) ths)
      with (set_nth i (mkThread p (enter M s e) (Some e)) (set_nth i (mkThread p (Ready e) (Some e)) ths)) by apply set_set.
    apply acquire; [|exact Hn]. apply nth_error_set. exact L.
  Qed.
  Lemma client_after asks o : after (Client (R:=R) asks) o = Outside.
  Proof. destruct o; reflexivity. Qed.
  Lemma client_ends i asks : forall s ths h, i < length ths -> holder s = None ->
    exists s' h', holder s' = None /\
      turns M (mkConfig s (set_nth i (mkThread (Client asks) Outside None) ths) h)
              (mkConfig s' (set_nth i (mkThread (Client []) Outside None) ths) h').
  Proof.
    induction asks as [|[r|] asks IH]; intros s ths h L Hn.
    - exists s, h. split; [exact Hn|constructor].
    - destruct (ready_ends i (Client asks) (SAppend r (mkMoment 1 1 1 0 0 0)) s ths h L Hn) as (s1 & o & H1 & T1).
      rewrite client_after in T1. destruct (IH s1 ths (h ++ [(i, SAppend r (mkMoment 1 1 1 0 0 0), o)]) L H1) as (s2 & h2 & H2 & T2). exists s2, h2. split; [exact H2|].
      eapply turns_trans; [|exact T2]. eapply turns_trans; [|exact T1]. apply turns_one.
      replace (set_nth i (mkThread (Client asks) (Ready (SAppend r (mkMoment 1 1 1 0 0 0))) (Some (SAppend r (mkMoment 1 1 1 0 0 0)))) ths)
        with (set_nth i (mkThread (Client asks) (Ready (SAppend r (mkMoment 1 1 1 0 0 0))) (Some (SAppend r (mkMoment 1 1 1 0 0 0))))
               (set_nth i (mkThread (Client (AskAppend r :: asks)) Outside None) ths)) by apply set_set.
      apply call_append. apply nth_error_set. exact L.
    - destruct (ready_ends i (Client asks) SFinalize (stop_attendant s) ths h L Hn) as (s1 & o & H1 & T1).
      rewrite client_after in T1. destruct (IH s1 ths (h ++ [(i, SFinalize, o)]) L H1) as (s2 & h2 & H2 & T2). exists s2, h2. split; [exact H2|].
      eapply turns_trans; [|exact T2]. eapply turns_trans; [|exact T1]. apply turns_one.
      replace (set_nth i (mkThread (Client asks) (Ready SFinalize) (Some SFinalize)) ths)
        with (set_nth i (mkThread (Client asks) (Ready SFinalize) (Some SFinalize))
               (set_nth i (mkThread (Client (AskFinalize :: asks)) Outside None) ths)) by apply set_set.
      apply call_finalize. apply nth_error_set. exact L.
  Qed.

  Definition client_alive (t : thread (R:=R)) : Prop := (exists asks, todo t = Client asks) -> at_ t <> Dead.
  Lemma alive_inv programs c : turns M (start programs) c -> Forall client_alive (threads c).
  Proof.
    intros T. remember (start programs) as c0 eqn:E. induction T as [c|c c' c'' T IH S]; subst.
    - cbn. rewrite Forall_app. split; [|repeat constructor; intros _; discriminate].
      apply Forall_forall. intros t Ht. apply in_map_iff in Ht as (p & <- & _). intros _. discriminate.
    - specialize (IH eq_refl). clear T. rewrite <- quiet_all in *.
      assert (K : forall i t' ths, (forall j u, nth_error ths j = Some u -> client_alive u) -> i < length ths -> client_alive t' ->
                forall j u, nth_error (set_nth i t' ths) j = Some u -> client_alive u).
      { intros i t' ths A L C j u Hu. destruct (Nat.eq_dec i j) as [<-|N].
        - rewrite nth_error_set in Hu by exact L. injection Hu as <-. exact C.
        - rewrite nth_error_set_other in Hu by exact N. eapply A; eauto. }
      destruct S as [i s ths h r asks now Hi|i s ths h asks Hi|i s ths h Hi Hr|i s ths h p e Hi Hn|i s ths h p d a d' s' Hi Hd Hin|i s ths h p o e Hi];
        cbn [threads] in *; (apply K; [exact IH|eapply nth_error_lt; eassumption|]); intros C; cbn [at_ todo] in *; try discriminate.
      + destruct e; discriminate.
      + destruct (inner_section M d s d' s' Hd Hin) as [Q|(o & Q)]; intros Z; rewrite Z in Q; discriminate.
      + destruct C as (asks & ->). rewrite client_after. discriminate.
  Qed.
  Lemma never_stuck programs c : turns M (start programs) c ->
    exists c', turns M c c' /\ holder (common c') = None /\
      forall i t, i < length programs -> nth_error (threads c') i = Some t -> finished t.
  Proof.
    intros T.
    (* the lock is given back *)
    assert (A : exists c1, turns M c c1 /\ holder (common c1) = None).
    { destruct (turns_inv M programs c T) as (G & C). destruct (holder (common c)) as [k|] eqn:Hk; [|exists c; split; [constructor|exact Hk]].
      destruct C as (t & e & s0 & Ht & (B1 & B2) & _). destruct c as [s ths h], t as [p d a]. cbn [common threads history asked at_] in *. subst a.
      destruct (to_release k p d e s ths h) as (s' & o & H1 & T1); [eapply nth_error_lt; eassumption|exact B2|].
      rewrite (set_same k) in T1 by exact Ht. eexists. split; [exact T1|exact H1]. }
    destruct A as (c1 & T1 & H1).
    (* one thread after the other *)
    assert (B : forall n, n <= length programs -> exists c2, turns M c1 c2 /\ holder (common c2) = None /\
               forall i t, i < n -> nth_error (threads c2) i = Some t -> finished t).
    { induction n as [|n IH]; intros Hn; [exists c1; split; [constructor|]; split; [exact H1|intros; lia]|].
      destruct IH as (c2 & T2 & H2 & F2); [lia|].
      assert (TT : turns M (start programs) c2) by (eapply turns_trans; [exact T|]; eapply turns_trans; eauto).
      destruct (turns_pinv M programs c2 TT) as (L & P & _). destruct (turns_inv M programs c2 TT) as (_ & C). rewrite H2 in C. destruct C as (Q & _).
      pose proof (alive_inv programs c2 TT) as AL. rewrite <- quiet_all in Q, AL.
      destruct c2 as [s ths h]. cbn [common threads history] in *.
      assert (Ln : n < length ths) by lia.
      destruct (nth_error ths n) as [t|] eqn:Et; [|apply nth_error_None in Et; lia].
      specialize (P n t Et). specialize (Q n t Et). specialize (AL n t Et).
      destruct (nth_error programs n) as [p|] eqn:Ep; [|apply nth_error_None in Ep; lia]. destruct P as (asks & Etd & _).
      assert (D : exists s' h', holder s' = None /\ turns M (mkConfig s ths h) (mkConfig s' (set_nth n (mkThread (Client []) Outside None) ths) h')).
      { destruct t as [td d a]. cbn [todo at_ asked] in *. subst td. unfold quiet in Q. cbn [at_ asked] in Q.
        destruct d as [|e|? ? ?|? ? ? ? ?| |? ?|? ? ? ?|?|? ? ?|?|]; try contradiction; subst a.
        - destruct (client_ends n asks s ths h Ln H2) as (s' & h' & H' & T'). rewrite (set_same n) in T' by exact Et. eauto.
        - destruct (ready_ends n (Client asks) e s ths h Ln H2) as (s' & o & H' & T'). rewrite (set_same n) in T' by exact Et.
          rewrite client_after in T'. destruct (client_ends n asks s' ths (h ++ [(n, e, o)]) Ln H') as (s3 & h3 & H3 & T3).
          exists s3, h3. split; [exact H3|]. eapply turns_trans; eauto.
        - exfalso. apply AL; [exists asks; reflexivity|reflexivity]. }
      destruct D as (s' & h' & H' & T'). eexists. split; [eapply turns_trans; [exact T2|exact T']|]. split; [exact H'|].
      intros i u Hi Hu. cbn [threads] in Hu. destruct (Nat.eq_dec n i) as [<-|N].
      - rewrite nth_error_set in Hu by exact Ln. injection Hu as <-. split; reflexivity.
      - rewrite nth_error_set_other in Hu by exact N. apply (F2 i); [lia|exact Hu]. }
    destruct (B (length programs) (Nat.le_refl _)) as (c2 & T2 & H2 & F2). exists c2. split; [eapply turns_trans; eauto|]. auto.
  Qed.
End Progress.

(** ** In the words of the properties *)
Section Words.
  Context {R V : Type} (M : streaming R V).
  Lemma as_if_alone programs c : turns M (start programs) c -> holder (common c) = None ->
    exists s, srun M new_stream (events_of (history c)) = (outcomes_of (history c), s) /\
      world_of s = storage (common c) /\ map p_id (pool s) = map e_id (entries (common c)).
  Proof.
    intros T Hn. destruct (turns_inv M programs c T) as (_ & C). rewrite Hn in C. destruct C as (_ & Rn).
    exists (abs (common c)). split; [exact Rn|]. split; [reflexivity|]. cbn [abs pool]. rewrite map_map. reflexivity.
  Qed.
  Lemma one_inside programs c i j t u : turns M (start programs) c ->
    nth_error (threads c) i = Some t -> nth_error (threads c) j = Some u ->
    in_section (at_ t) = true -> in_section (at_ u) = true -> i = j.
  Proof.
    intros T Hi Hj It Iu. destruct (turns_inv M programs c T) as (_ & C). destruct (holder (common c)) as [k|].
    - destruct C as (t' & e & s0 & Hk & _ & O & _).
      assert (K : forall x v, nth_error (threads c) x = Some v -> in_section (at_ v) = true -> x = k).
      { intros x v Hx Ix. destruct (Nat.eq_dec x k) as [E|N]; [exact E|exfalso]. specialize (O x v N Hx).
        apply quiet_not_section in O as [O _]. congruence. }
      rewrite (K i t), (K j u); auto.
    - destruct C as (F & _). rewrite <- quiet_all in F. specialize (F i t Hi). apply quiet_not_section in F as [F _]. congruence.
  Qed.
  Lemma calls_in_order programs c i p : turns M (start programs) c -> nth_error programs i = Some p ->
    exists t later, nth_error (threads c) i = Some t /\ p = asks_of (events_of (by_thread i (history c))) ++ later /\
      (finished t -> later = []).
  Proof.
    intros T Hp. destruct (turns_pinv M programs c T) as (L & P & _).
    destruct (nth_error (threads c) i) as [t|] eqn:Et.
    2: { apply nth_error_None in Et. pose proof (nth_error_lt _ _ _ Hp). lia. }
    specialize (P i t Et). rewrite Hp in P. destruct P as (asks & Et' & E). exists t, (asks_of (pending t) ++ asks).
    split; [reflexivity|]. split; [exact E|]. intros (F1 & F2). rewrite F2 in Et'. injection Et' as <-. rewrite app_nil_r.
    destruct (turns_inv M programs c T) as (_ & C). assert (Q : quiet t).
    { destruct (holder (common c)) as [k|].
      - destruct C as (t' & e & s0 & Hk & (_ & B) & O & _). destruct (Nat.eq_dec i k) as [<-|N]; [|exact (O i t N Et)].
        rewrite Et in Hk. injection Hk as <-. rewrite F1 in B. destruct B as [B|(o & B)]; discriminate.
      - destruct C as (F & _). rewrite <- quiet_all in F. exact (F i t Et). }
    unfold quiet in Q. rewrite F1 in Q. unfold pending. now rewrite Q.
  Qed.
End Words.
