(** A concrete schedule of threads which share a stream writer. *)
From Verif.Base Require Import Py PyFacts Value.
From Verif.Model Require Import Paths Frames Storage Writers Stream Threads.
From Verif.Spec Require Import Paths Writers Stream Threads StreamRead.
From Verif.Proofs Require Import Threads ReaderCases StreamReadCases.

(** the next step of a thread, as a function; appends are made at the given time *)
Definition next {R V} (M : streaming R V) (i : nat) (now : moment) (c : config) : option config :=
  let '(mkConfig s ths h) := c in
  match nth_error ths i with
  | Some (mkThread (Client (AskAppend r :: asks)) Outside None) =>
      Some (mkConfig s (set_nth i (mkThread (Client asks) (Ready (SAppend r now)) (Some (SAppend r now))) ths) h)
  | Some (mkThread (Client (AskFinalize :: asks)) Outside None) =>
      Some (mkConfig (stop_attendant s) (set_nth i (mkThread (Client asks) (Ready SFinalize) (Some SFinalize)) ths) h)
  | Some (mkThread Attendant Outside None) =>
      if running s then Some (mkConfig s (set_nth i (mkThread Attendant (Ready Attend) (Some Attend)) ths) h) else None
  | Some (mkThread p (Ready e) _) =>
      match holder s with
      | None => Some (mkConfig (hold s (Some i)) (set_nth i (mkThread p (enter M s e) (Some e)) ths) h)
      | Some _ => None
      end
  | Some (mkThread p (Leaving o) (Some e)) =>
      Some (mkConfig (hold s None) (set_nth i (mkThread p (after p o) None) ths) (h ++ [(i, e, o)]))
  | Some (mkThread p d a) =>
      if in_section d then let '(d', s') := inner M d s in Some (mkConfig s' (set_nth i (mkThread p d' a) ths) h) else None
  | None => None
  end.
(** the threads take turns as listed; one which cannot go on waits *)
Definition schedule {R V} (M : streaming R V) (l : list (nat * moment)) (c : config) : config :=
  fold_left (fun c x => match next M (fst x) (snd x) c with Some c' => c' | None => c end) l c.
Lemma next_turn {R V} (M : streaming R V) programs i now c c' : turns M (start programs) c -> next M i now c = Some c' -> turn M c c'.
Proof.
  intros T. destruct (turns_inv M programs c T) as (_ & C). destruct c as [s ths h]. cbn [common threads history] in C. unfold next.
  destruct (nth_error ths i) as [[p d a]|] eqn:Hi; [|discriminate].
  assert (RD : forall e, d = Ready e -> a = Some e).
  { intros e ->. destruct (holder s) as [k|].
    - destruct C as (t & e' & s0 & Hk & (B1 & B2) & O & _). destruct (Nat.eq_dec i k) as [<-|N].
      + rewrite Hi in Hk. injection Hk as <-. cbn in B2. destruct B2 as [B2|(o & B2)]; discriminate.
      + specialize (O i _ N Hi). exact O.
    - destruct C as (F & _). rewrite <- quiet_all in F. exact (F i _ Hi). }
  destruct d as [|e|r ids k|r id ref ids k| |ids b|id ref ids b|ids|id ref ids|o|].
  - destruct p as [[|[r|] asks]|], a as [x|]; try discriminate.
    + intros [= <-]. now apply call_append.
    + intros [= <-]. now apply call_finalize.
    + destruct (running s) eqn:Er; [|discriminate]. intros [= <-]. now apply next_round.
  - specialize (RD e eq_refl). subst a. destruct (holder s) eqn:Eh; [destruct p as [[|[|] ?]|]; discriminate|].
    assert (Q : Some (mkConfig (hold s (Some i)) (set_nth i (mkThread p (enter M s e) (Some e)) ths) h) = Some c' -> turn M (mkConfig s ths h) c').
    { intros [= <-]. now apply acquire. }
    destruct p as [[|[|] ?]|]; exact Q.
  - destruct (inner M (Finding r ids k) s) as [d' s'] eqn:E. intros Q.
    assert (Q' : c' = mkConfig s' (set_nth i (mkThread p d' a) ths) h) by (destruct p as [[|[|] ?]|], a; now injection Q).
    subst c'. eapply inside; eauto.
  - destruct (inner M (Appending r id ref ids k) s) as [d' s'] eqn:E. intros Q.
    assert (Q' : c' = mkConfig s' (set_nth i (mkThread p d' a) ths) h) by (destruct p as [[|[|] ?]|], a; now injection Q).
    subst c'. eapply inside; eauto.
  - destruct (inner M Searching s) as [d' s'] eqn:E. intros Q.
    assert (Q' : c' = mkConfig s' (set_nth i (mkThread p d' a) ths) h) by (destruct p as [[|[|] ?]|], a; now injection Q).
    subst c'. eapply inside; eauto.
  - destruct (inner M (Evicting ids b) s) as [d' s'] eqn:E. intros Q.
    assert (Q' : c' = mkConfig s' (set_nth i (mkThread p d' a) ths) h) by (destruct p as [[|[|] ?]|], a; now injection Q).
    subst c'. eapply inside; eauto.
  - destruct (inner M (Committing id ref ids b) s) as [d' s'] eqn:E. intros Q.
    assert (Q' : c' = mkConfig s' (set_nth i (mkThread p d' a) ths) h) by (destruct p as [[|[|] ?]|], a; now injection Q).
    subst c'. eapply inside; eauto.
  - destruct (inner M (Closing ids) s) as [d' s'] eqn:E. intros Q.
    assert (Q' : c' = mkConfig s' (set_nth i (mkThread p d' a) ths) h) by (destruct p as [[|[|] ?]|], a; now injection Q).
    subst c'. eapply inside; eauto.
  - destruct (inner M (Storing id ref ids) s) as [d' s'] eqn:E. intros Q.
    assert (Q' : c' = mkConfig s' (set_nth i (mkThread p d' a) ths) h) by (destruct p as [[|[|] ?]|], a; now injection Q).
    subst c'. eapply inside; eauto.
  - destruct a as [e|]; [|destruct p as [[|[|] ?]|]; discriminate]. intros Q.
    assert (Q' : c' = mkConfig (hold s None) (set_nth i (mkThread p (after p o) None) ths) (h ++ [(i, e, o)]))
      by (destruct p as [[|[|] ?]|]; now injection Q).
    subst c'. now apply release.
  - destruct p as [[|[|] ?]|], a; discriminate.
Qed.
Lemma schedule_turns {R V} (M : streaming R V) programs l : forall c, turns M (start programs) c -> turns M (start programs) (schedule M l c).
Proof.
  induction l as [|[i now] l IH]; intros c T; [exact T|]. cbn [schedule fold_left fst snd].
  destruct (next M i now c) as [c'|] eqn:E; [|now apply IH]. apply IH. econstructor; [exact T|]. eapply next_turn; eauto.
Qed.

(** Two threads append three records each; the first one finalizes when both are done.  The threads and the attendant take
    turns step by step, so that a thread with the lock is interrupted at every step. *)
Definition th_moments : list moment :=
  [mkMoment 2024 2 28 23 59 59; mkMoment 2024 2 29 0 0 0; mkMoment 2024 2 29 0 0 1].
Definition th_programs : list (list (ask (R:=value))) :=
  [[AskAppend (a_record 1); AskAppend (a_record 2); AskAppend (a_record 3)];
   [AskAppend (a_record 4); AskAppend (VDict []); AskAppend (a_record 5)]; [AskFinalize]].
Definition th_round (now : moment) : list (nat * moment) := [(0, now); (3, now); (1, now); (0, now); (1, now)]%nat.
Definition th_schedule : list (nat * moment) :=
  concat (map (fun now => concat (repeat (th_round now) 8)) th_moments) ++ concat (repeat (th_round (mkMoment 2024 2 29 1 1 1)) 20) ++
  repeat (2, mkMoment 2024 3 1 0 0 0)%nat 1 ++ repeat (3, mkMoment 2024 3 1 0 0 0)%nat 9 ++ repeat (2, mkMoment 2024 3 1 0 0 0)%nat 20.
Definition th_end : config := schedule (st_writer st_template) th_schedule (start th_programs).
Lemma th_turns : turns (st_writer st_template) (start th_programs) th_end.
Proof. apply schedule_turns. constructor. Qed.
