(** Proofs: reading in several threads. *)
From Coq Require Import Permutation.
From Verif.Base Require Import Py PyFacts Value ValueFacts.
From Verif.Model Require Import Threaded.
From Verif.Spec Require Import Threaded.
Local Open Scope nat_scope.

(** ** Permutations of concatenations *)
Lemma perm_add_nil {A} (a b : list A) : Permutation (a ++ []) (b ++ []) -> Permutation a b.
Proof. now rewrite !app_nil_r. Qed.
Lemma perm_rotate {A} (g y r : list A) : Permutation g (r ++ y ++ []) -> Permutation g (y ++ r).
Proof. intros H. rewrite H, app_nil_r. apply Permutation_app_comm. Qed.
Ltac blocks := rewrite <- ?app_assoc, ?app_nil_l.
Ltac perm := apply perm_add_nil; cbn [app];
  repeat match goal with |- context [?x :: ?l] => lazymatch l with [] => fail | _ => change (x :: l) with ([x] ++ l) end end; blocks;
  do 60 try match goal with
  | |- Permutation [] [] => apply perm_nil
  | |- Permutation (?X ++ _) (?X ++ _) => apply Permutation_app_head
  | |- Permutation _ (?Y ++ ?R) => apply perm_rotate; blocks
  end.
Example ex_perm : forall (a b c d : list nat) x, Permutation (a ++ x :: b ++ (c ++ d)) ((d ++ b) ++ c ++ a ++ [x]).
Proof. intros. perm. Qed.

Section Threaded.
  Context {B C : Type} (pages : B -> list C * bool).
  Implicit Types (s : state B C) (items : list B).

  (** ** Where the blobs are *)
  Definition queued (q : list (message B)) : list B := flat_map (fun m => match m with Item b => [b] | Terminate => [] end) q.
  Definition signals (q : list (message B)) : nat := length (filter (fun m => match m with Terminate => true | _ => false end) q).
  Definition working (ws : list (worker B C)) : list (B * list C) := flat_map (fun w => match w with Working b cs => [(b, cs)] | _ => [] end) ws.
  Definition ends (q : list (reply B C)) : list B := flat_map (fun x => match x with EndOf b => [b] | _ => [] end) q.
  Definition given (q : list (reply B C)) : list (B * C) := flat_map (fun x => match x with Page b c => [(b, c)] | _ => [] end) q.
  Definition count_stopped (ws : list (worker B C)) : nat := length (filter (fun w => match w with Stopped => true | _ => false end) ws).
  Definition count_starting (ws : list (worker B C)) : nat := length (filter (fun w => match w with Starting => true | _ => false end) ws).

  Lemma queued_app a b : queued (a ++ b) = queued a ++ queued b. Proof. apply flat_map_app. Qed.
  Lemma working_app a b : working (a ++ b) = working a ++ working b. Proof. apply flat_map_app. Qed.
  Lemma ends_app a b : ends (a ++ b) = ends a ++ ends b. Proof. apply flat_map_app. Qed.
  Lemma given_app a b : given (a ++ b) = given a ++ given b. Proof. apply flat_map_app. Qed.
  Lemma signals_app a b : signals (a ++ b) = signals a + signals b. Proof. unfold signals. now rewrite filter_app, app_length. Qed.
  Lemma count_stopped_app a b : count_stopped (a ++ b) = count_stopped a + count_stopped b. Proof. unfold count_stopped. now rewrite filter_app, app_length. Qed.
  Lemma count_starting_app a b : count_starting (a ++ b) = count_starting a + count_starting b. Proof. unfold count_starting. now rewrite filter_app, app_length. Qed.
  Lemma queued_items l : queued (map Item l) = l. Proof. induction l; cbn; [|f_equal]; auto. Qed.
  Lemma signals_items l : signals (map Item l) = 0. Proof. induction l; cbn; auto. Qed.
  Lemma working_start n : working (repeat Starting n) = []. Proof. induction n; cbn; auto. Qed.
  Lemma count_stopped_start n : count_stopped (repeat Starting n) = 0. Proof. induction n; cbn; auto. Qed.
  Lemma count_starting_start n : count_starting (repeat Starting n) = n. Proof. unfold count_starting. induction n; cbn; auto. Qed.
  Lemma all_stopped ws : (forall w : worker B C, In w ws -> w = Stopped) -> count_stopped ws = length ws /\ count_starting ws = 0 /\ working ws = [].
  Proof.
    unfold count_stopped, count_starting, working.
    induction ws as [|w ws IH]; intros H; [auto|]. rewrite (H w (or_introl eq_refl)). cbn.
    destruct IH as (-> & -> & ->); [intros; apply H; right; auto|]. auto.
  Qed.

  Definition places s : list B :=
    finished s ++ ends (replies s) ++ died s ++ map fst (working (workers s)) ++ queued (send s) ++ unsent s.

  Lemma places_step e s s' : step pages e s s' -> Permutation (places s') (places s).
  Proof.
    intros [e' s0 s1 H|e' l w r w' q out dead s0 Hw H]; unfold places.
    - destruct H as [w1 s2 Hr|s2 Hr|b c q s2 Hr Hq|b q s2 Hr Hq|s2 Hr|s2 Hr|b c q s2 Hr Hq]; cbn [send replies workers unsent delivered finished died]; try reflexivity.
      + rewrite Hq. reflexivity.
      + rewrite Hq. change (ends (EndOf b :: q)) with (b :: ends q). destruct (unsent s2) as [|b1 u]; rewrite queued_app; cbn [queued flat_map]; perm.
    - cbn [send replies workers unsent delivered finished died]. rewrite Hw, !working_app, !map_app, ends_app.
      unfold queued, working, ends. destruct H; cbn [flat_map map app fst]; perm.
  Qed.
  Lemma places_steps es s s' : steps pages es s s' -> Permutation (places s') (places s).
  Proof. induction 1 as [|e es s s1 s2 H _ IH]; [reflexivity|]. rewrite IH. eapply places_step; eauto. Qed.
  Lemma places_start items slots : places (start items slots) = items.
  Proof. unfold places, start. cbn [send replies workers unsent delivered finished died]. rewrite working_start, queued_items. cbn. apply firstn_skipn. Qed.

  (** ** Counting *)
  Definition counts items slots (h : list event) s : Prop :=
    length (workers s) = slots /\
    count_stopped (workers s) = times gave_up h + times stopped_first h + times (fun e => match e with Stop => true | _ => false end) h + length (died s) /\
    count_starting (workers s) + times took_first h + times stopped_first h + times gave_up h = slots /\
    length (finished s) + length (unsent s) =
      length (skipn slots items) + signals (send s) + times stopped_first h + times (fun e => match e with Stop => true | _ => false end) h /\
    (unsent s <> [] -> signals (send s) + times stopped_first h + times (fun e => match e with Stop => true | _ => false end) h = 0).
  Lemma times_app p h h' : times p (h ++ h') = times p h + times p h'.
  Proof. unfold times. now rewrite filter_app, app_length. Qed.
  Lemma counts_step items slots h e s s' : counts items slots h s -> step pages e s s' -> counts items slots (h ++ [e]) s'.
  Proof.
    intros (A1 & A2 & A3 & A4 & A5) H. unfold counts. rewrite !times_app.
    destruct H as [e' s0 s1 H|e' l w r w' q out dead s0 Hw H].
    - destruct H as [w1 s2 Hr|s2 Hr|b c q s2 Hr Hq|b q s2 Hr Hq|s2 Hr|s2 Hr|b c q s2 Hr Hq]; cbn [send replies workers unsent delivered finished died]; cbn [times filter gave_up stopped_first took_first length]; rewrite ?Nat.add_0_r; auto.
      rewrite signals_app, app_length. cbn [length].
      split; [exact A1|]. split; [exact A2|]. split; [exact A3|].
      destruct (unsent s2) as [|b1 u]; cbn [signals filter length] in *.
      + split; [lia|]. intros []. reflexivity.
      + assert (b1 :: u <> []) as N by discriminate. specialize (A5 N). split; [lia|]. intros _. lia.
    - cbn [send replies workers unsent delivered finished died]. rewrite Hw in *. rewrite !app_length in *. rewrite !count_stopped_app, !count_starting_app in *.
      unfold times, count_stopped, count_starting, signals in *.
      destruct H; cbn [filter gave_up stopped_first took_first length] in *;
        (split; [lia|]); (split; [lia|]); (split; [lia|]); (split; [lia|]); intros U; specialize (A5 U); lia.
  Qed.
  Lemma counts_steps items slots es : forall h s s', counts items slots h s -> steps pages es s s' -> counts items slots (h ++ es) s'.
  Proof.
    induction es as [|e es IH]; intros h s s' HC H; inversion H as [|e' es' s0 s1 s2 H1 H2]; subst; [now rewrite app_nil_r|].
    change (e :: es) with ([e] ++ es). rewrite app_assoc. eapply IH; [|exact H2]. eapply counts_step; eauto.
  Qed.
  Lemma counts_start items slots : counts items slots [] (start items slots).
  Proof.
    unfold counts, start. cbn [send replies workers unsent delivered finished died]. rewrite repeat_length, count_stopped_start, count_starting_start, signals_items.
    cbn. repeat split; auto; lia.
  Qed.
  Lemma reached items slots es s : steps pages es (start items slots) s -> counts items slots es s /\ Permutation (places s) items.
  Proof.
    intros H. split.
    - exact (counts_steps items slots es [] _ _ (counts_start items slots) H).
    - rewrite (places_steps _ _ _ H), places_start. reflexivity.
  Qed.
  (** the reader has left the loop by its condition *)
  Lemma ended_step e s s' : (reader s = Ended -> forall w, In w (workers s) -> w = Stopped) -> step pages e s s' ->
    reader s' = Ended -> forall w, In w (workers s') -> w = Stopped.
  Proof.
    intros HE H. destruct H as [e' s0 s1 H|e' l w0 r w' q out dead s0 Hw H].
    - destruct H; cbn [reader workers]; try discriminate. auto.
    - cbn [reader workers]. intros E. specialize (HE E). rewrite Hw in HE.
      assert (S : w0 = Stopped) by (apply HE, in_or_app; right; left; reflexivity). subst w0. inversion H.
  Qed.
  Lemma ended_stopped items slots es s : steps pages es (start items slots) s -> reader s = Ended -> forall w, In w (workers s) -> w = Stopped.
  Proof.
    assert (G : forall es s s', steps pages es s s' -> (reader s = Ended -> forall w, In w (workers s) -> w = Stopped) ->
              reader s' = Ended -> forall w, In w (workers s') -> w = Stopped).
    { induction 1 as [|e es0 s0 s1 s2 H _ IH]; intros HE; [exact HE|]. apply IH. eapply ended_step; eauto. }
    intros H. eapply G; [exact H|]. cbn. discriminate.
  Qed.
  Lemma all_finished items slots es s : steps pages es (start items slots) s -> reader s = Ended -> died s = [] -> 0 < slots ->
    times gave_up es <= slots - length items -> Permutation (finished s) items.
  Proof.
    intros H E D K G. pose proof (ended_stopped _ _ _ _ H E) as S. apply all_stopped in S as (S1 & S2 & S3).
    destruct (reached _ _ _ _ H) as ((A1 & A2 & A3 & A4 & A5) & P).
    rewrite D in A2. cbn [length] in A2.
    pose proof (Permutation_length P) as PL. unfold places in PL, P. rewrite !app_length in PL.
    rewrite skipn_length in A4.
    assert (L : length items <= length (finished s)).
    { destruct (unsent s) as [|b u].
      - cbn [length] in *. lia.
      - assert (N : b :: u <> []) by discriminate. specialize (A5 N). cbn [length] in *. lia. }
    assert (Z : ends (replies s) ++ died s ++ map fst (working (workers s)) ++ queued (send s) ++ unsent s = []).
    { apply length_zero_iff_nil. rewrite !app_length. lia. }
    rewrite Z, app_nil_r in P. exact P.
  Qed.
  Lemma never_ends items slots es s : steps pages es (start items slots) s -> died s = [] -> length items <= slots ->
    length items < times took_first es + times stopped_first es -> reader s <> Ended.
  Proof.
    intros H D L T E. pose proof (ended_stopped _ _ _ _ H E) as S. apply all_stopped in S as (S1 & S2 & S3).
    destruct (reached _ _ _ _ H) as ((A1 & A2 & A3 & A4 & A5) & P).
    rewrite D in A2. cbn [length] in A2.
    pose proof (Permutation_length P) as PL. unfold places in PL. rewrite !app_length in PL. rewrite skipn_length in A4. lia.
  Qed.
  Lemma never_joined items slots es s : steps pages es (start items slots) s -> died s = [] -> length items <= slots ->
    length items < times took_first es + times stopped_first es -> ~ joined s.
  Proof.
    intros H D L T (_ & S). apply all_stopped in S as (S1 & S2 & S3).
    destruct (reached _ _ _ _ H) as ((A1 & A2 & A3 & A4 & A5) & P).
    rewrite D in A2. cbn [length] in A2.
    pose proof (Permutation_length P) as PL. unfold places in PL. rewrite !app_length in PL. rewrite skipn_length in A4. lia.
  Qed.
  Lemma never_dies : (forall b, snd (pages b) = true) -> forall es s s', steps pages es s s' -> died s = [] -> died s' = [].
  Proof.
    intros HP. induction 1 as [|e es s0 s1 s2 H _ IH]; intros D; [exact D|]. apply IH.
    destruct H as [e' s0 s1 H|e' l w r w' q out dead s0 Hw H]; [destruct H; exact D|]. cbn [died]. rewrite D.
    destruct H; try reflexivity. rewrite HP in H. discriminate H.
  Qed.

  (** ** The end of the read *)
  Definition message_weight (m : message B) : nat := match m with Item b => 2 * length (fst (pages b)) + 5 | Terminate => 1 end.
  Definition reply_weight (x : reply B C) : nat := match x with Page _ _ => 1 | EndOf _ => 3 end.
  Definition worker_weight (w : worker B C) : nat := match w with Working _ cs => 2 * length cs + 4 | _ => 0 end.
  Definition weight s : nat :=
    list_sum (map message_weight (send s)) + list_sum (map reply_weight (replies s)) + list_sum (map worker_weight (workers s))
    + list_sum (map message_weight (map Item (unsent s))) + match reader s with Looking | Reading => 1 | _ => 0 end.
  Lemma sum_app (a b : list nat) : list_sum (a ++ b) = list_sum a + list_sum b.
  Proof. apply list_sum_app. Qed.
  Lemma sum_cons x (l : list nat) : list_sum (x :: l) = x + list_sum l. Proof. reflexivity. Qed.
  Lemma sum_nil : list_sum [] = 0. Proof. reflexivity. Qed.
  Lemma weight_step e s s' : step pages e s s' -> weight s' + (if useful e then 1 else 0) <= weight s.
  Proof.
    intros [e' s0 s1 H|e' l w r w' q out dead s0 Hw H]; unfold weight.
    - destruct H as [w1 s2 Hr|s2 Hr|b c q s2 Hr Hq|b q s2 Hr Hq|s2 Hr|s2 Hr|b c q s2 Hr Hq];
        cbn [send replies workers unsent delivered finished died reader useful]; rewrite ?Hr; try lia.
      + rewrite Hq. cbn [map]. rewrite sum_cons. cbn [reply_weight]. lia.
      + rewrite Hq, map_app, sum_app. destruct (unsent s2); cbn [map]; rewrite ?sum_cons, ?sum_nil; cbn [reply_weight message_weight]; lia.
    - cbn [send replies workers unsent delivered finished died reader]. rewrite Hw, !map_app, !sum_app. cbn [map].
      destruct H; cbn [map]; rewrite ?sum_cons, ?sum_nil; cbn [reply_weight message_weight worker_weight useful length]; lia.
  Qed.
  Lemma useful_bounded es s s' : steps pages es s s' -> times useful es + weight s' <= weight s.
  Proof.
    induction 1 as [s|e es s s1 s2 H _ IH]; [cbn; lia|]. apply weight_step in H. unfold times in *. cbn [filter].
    destruct (useful e); cbn [length]; lia.
  Qed.
  Lemma some_or_none (p : worker B C -> bool) ws : (exists l w r, ws = l ++ w :: r /\ p w = true) \/ forall w, In w ws -> p w = false.
  Proof.
    induction ws as [|w ws IH]; [right; intros w []|]. destruct (p w) eqn:E; [left; exists [], w, ws; auto|].
    destruct IH as [(l & x & r & -> & Hx)|IH]; [left; exists (w :: l), x, r; auto|]. right. intros x [<-|Hx]; auto.
  Qed.
  Lemma none_working ws : (forall w : worker B C, In w ws -> match w with Working _ _ => true | _ => false end = false) -> working ws = [].
  Proof.
    induction ws as [|x ws IH]; intros G; [reflexivity|]. pose proof (G x (or_introl eq_refl)) as X.
    unfold working. cbn [flat_map]. fold (working ws). rewrite IH by (intros; apply G; right; assumption). destruct x; try discriminate X; reflexivity.
  Qed.
  Lemma count_stopped_less l w r : match w with Stopped => false | _ => true end = true -> count_stopped (l ++ w :: r) < length (l ++ w :: r).
  Proof.
    intros H. assert (G : forall ws, count_stopped ws <= length ws).
    { unfold count_stopped. induction ws as [|x ws IH]; cbn; [lia|]. destruct x; cbn; lia. }
    rewrite count_stopped_app, app_length. pose proof (G l). change (w :: r) with ([w] ++ r). rewrite count_stopped_app, app_length. pose proof (G r).
    destruct w; try discriminate H; cbn; lia.
  Qed.
  Lemma goes_on items slots es s : steps pages es (start items slots) s -> died s = [] -> slots <= length items ->
    reader s = Looking \/ reader s = Reading ->
    exists e s', useful e = true /\ (step pages e s s' \/ exists e1 s1, useful e1 = false /\ step pages e1 s s1 /\ step pages e s1 s').
  Proof.
    intros H D L R. destruct (reached _ _ _ _ H) as ((A1 & A2 & A3 & A4 & A5) & P).
    destruct (some_or_none (fun w => match w with Working _ _ => true | _ => false end) (workers s)) as [(l & w & r & Ew & Hw)|NW].
    - destruct w as [| |b cs|]; try discriminate Hw. destruct cs as [|c cs].
      + destruct (snd (pages b)) eqn:Eb.
        * eexists Finish, _. split; [reflexivity|]. left. eapply step_worker; [exact Ew|]. now constructor.
        * eexists Die, _. split; [reflexivity|]. left. eapply step_worker; [exact Ew|]. now constructor.
      + eexists Put, _. split; [reflexivity|]. left. eapply step_worker; [exact Ew|]. constructor.
    - assert (OUT : (forall w, In w (workers s) -> w = Stopped) -> replies s = [] ->
        exists e s', useful e = true /\ (step pages e s s' \/ exists e1 s1, useful e1 = false /\ step pages e1 s s1 /\ step pages e s1 s')).
      { intros S E. destruct R as [R|R]; eexists Leave, _; (split; [reflexivity|]).
        - left. apply step_reader, reads_leave; assumption.
        - right. eexists Nothing, _. split; [reflexivity|]. split; [apply step_reader, reads_nothing; assumption|].
          apply step_reader, reads_leave; [reflexivity|exact S]. }
      destruct (some_or_none (fun w => match w with Stopped => false | _ => true end) (workers s)) as [(l & w & r & Ew & Hw)|NS].
      + assert (Iw : In w (workers s)) by (rewrite Ew; apply in_or_app; right; left; reflexivity).
        pose proof NW as NW'. specialize (NW w Iw).
        destruct (replies s) as [|[b c|b] q] eqn:Eq.
        * destruct (send s) as [|[b|] q] eqn:Es.
          -- exfalso. pose proof (Permutation_length P) as PL. unfold places in PL. rewrite Eq, D, Es, !app_length, map_length in PL. cbn in PL.
             rewrite (none_working _ NW') in PL. cbn in PL, A4.
             rewrite skipn_length in A4. rewrite D in A2. cbn [length] in A2.
             assert (T : count_stopped (workers s) < length (workers s)).
             { rewrite Ew. apply count_stopped_less. exact Hw. }
             lia.
          -- destruct w; try discriminate Hw; try discriminate NW.
             ++ eexists First, _. split; [reflexivity|]. left. eapply step_worker; [exact Ew|]. rewrite Es. constructor.
             ++ eexists Next, _. split; [reflexivity|]. left. eapply step_worker; [exact Ew|]. rewrite Es. constructor.
          -- destruct w; try discriminate Hw; try discriminate NW.
             ++ eexists StopFirst, _. split; [reflexivity|]. left. eapply step_worker; [exact Ew|]. rewrite Es. constructor.
             ++ eexists Stop, _. split; [reflexivity|]. left. eapply step_worker; [exact Ew|]. rewrite Es. constructor.
        * destruct R as [R|R]; eexists Get, _; (split; [reflexivity|]).
          -- right. eexists Look, _. split; [reflexivity|]. split; [apply step_reader; eapply (reads_look w); [exact R|exact Iw|intros ->; discriminate Hw]|].
             apply step_reader. eapply reads_get; [reflexivity|exact Eq].
          -- left. apply step_reader. eapply reads_get; [exact R|exact Eq].
        * destruct R as [R|R]; eexists GetEnd, _; (split; [reflexivity|]).
          -- right. eexists Look, _. split; [reflexivity|]. split; [apply step_reader; eapply (reads_look w); [exact R|exact Iw|intros ->; discriminate Hw]|].
             apply step_reader. eapply reads_end; [reflexivity|exact Eq].
          -- left. apply step_reader. eapply reads_end; [exact R|exact Eq].
      + assert (S : forall w, In w (workers s) -> w = Stopped) by (intros w Hw; specialize (NS w Hw); destruct w; try discriminate NS; reflexivity).
        destruct R as [R|R].
        * eexists Leave, _. split; [reflexivity|]. left. apply step_reader, reads_leave; assumption.
        * destruct (replies s) as [|[b c|b] q] eqn:Eq.
          -- apply OUT; auto.
          -- eexists Get, _. split; [reflexivity|]. left. apply step_reader. eapply reads_get; [exact R|exact Eq].
          -- eexists GetEnd, _. split; [reflexivity|]. left. apply step_reader. eapply reads_end; [exact R|exact Eq].
  Qed.

  (** ** Contents *)
  Context (same : B -> B -> bool).
  Hypothesis HS : compares same.
  Notation given_for b l := (pages_for same b l).
  Lemma given_for_app b (l l' : list (B * C)) : given_for b (l ++ l') = given_for b l ++ given_for b l'.
  Proof. unfold pages_for. now rewrite filter_app, map_app. Qed.
  Lemma given_for_same b (c : C) : given_for b [(b, c)] = [c].
  Proof. unfold pages_for. cbn. now rewrite (proj2 (HS b b) eq_refl). Qed.
  Lemma given_for_other b b' (c : C) : b <> b' -> given_for b [(b', c)] = [].
  Proof. intros N. unfold pages_for. cbn. destruct (same b b') eqn:E; [apply HS in E; congruence|reflexivity]. Qed.
  Definition seen b s : list C := given_for b (delivered s ++ given (replies s)).
  Record content items s : Prop := mkContent {
    c_none : forall b, ~ In b items -> seen b s = [];
    c_later : forall b, In b (queued (send s) ++ unsent s) -> seen b s = [];
    c_working : forall b cs, In (b, cs) (working (workers s)) -> seen b s ++ cs = fst (pages b);
    c_done : forall b, In b (finished s ++ ends (replies s) ++ died s) -> seen b s = fst (pages b);
    c_order : forall l r b, replies s = l ++ EndOf b :: r -> given_for b (given r) = [];
    c_finished : forall b, In b (finished s) -> given_for b (given (replies s)) = [] }.

  Lemma content_start items slots : content items (start items slots).
  Proof.
    constructor; cbn [send replies workers unsent delivered finished died start]; try reflexivity.
    - rewrite working_start. intros b cs [].
    - intros b [].
    - intros l1 r1 b1 E; destruct l1; discriminate E.
  Qed.
  Lemma last_split {A} (l : list A) x a y b : l ++ [x] = a ++ y :: b -> (b = [] /\ x = y /\ l = a) \/ exists b', b = b' ++ [x] /\ l = a ++ y :: b'.
  Proof.
    destruct b as [|z b' _] using rev_ind; intros H.
    - apply app_inj_tail in H as [-> ->]. auto.
    - right. rewrite app_comm_cons, app_assoc in H. apply app_inj_tail in H as [-> ->]. eauto.
  Qed.
  Lemma content_step items e s s' : NoDup items -> Permutation (places s) items -> content items s -> step pages e s s' -> content items s'.
  Proof.
    intros N P [K0 K1 K2 K3 K4 K5] H.
    destruct H as [e' s0 s1 H|e' l w r w' q out dead s0 Hw H].
    - destruct H as [w1 s2 Hr|s2 Hr|b c q s2 Hr Hq|b q s2 Hr Hq|s2 Hr|s2 Hr|b c q s2 Hr Hq]; try (constructor; assumption).
      + assert (E : forall x, seen x (mkState (send s2) q (workers s2) (unsent s2) (delivered s2 ++ [(b, c)]) (finished s2) (died s2) Reading) = seen x s2).
        { intros x. unfold seen. cbn [delivered replies]. rewrite Hq, <- app_assoc. reflexivity. }
        constructor; cbn [send replies workers unsent finished died]; intros; rewrite ?E; auto.
        * apply K3. rewrite Hq. assumption.
        * apply (K4 (Page b c :: l) r). rewrite Hq, H. reflexivity.
        * specialize (K5 _ H). rewrite Hq in K5. cbn [given flat_map app] in K5.
          change ((b, c) :: flat_map _ q) with ([(b, c)] ++ given q) in K5. rewrite given_for_app in K5. apply app_eq_nil in K5. apply K5.
      + assert (E : forall x (st := mkState (send s2 ++ match unsent s2 with b' :: _ => [Item b'] | [] => [Terminate] end) q (workers s2)
                        (match unsent s2 with _ :: u => u | [] => [] end) (delivered s2) (finished s2 ++ [b]) (died s2) Looking), seen x st = seen x s2).
        { intros x. unfold seen. cbn [delivered replies]. rewrite Hq. reflexivity. }
        constructor; cbn [send replies workers unsent finished died]; intros; rewrite ?E; auto.
        * apply K1. revert H. rewrite queued_app, !in_app_iff. destruct (unsent s2); cbn; tauto.
        * apply K3. revert H. rewrite Hq. cbn [ends flat_map]. rewrite !in_app_iff. cbn [In]. tauto.
        * apply (K4 (EndOf b :: l) r). rewrite Hq, H. reflexivity.
        * apply in_app_iff in H as [H|[<-|[]]]; [|apply (K4 [] q); exact Hq].
          specialize (K5 _ H). rewrite Hq in K5. exact K5.
    - rewrite Hw in K2. unfold places in P. rewrite Hw in P.
      assert (W : forall x, In x (working l ++ working r) -> In x (working (l ++ w :: r))).
      { intros x Hx. rewrite working_app. apply in_app_iff in Hx as [Hx|Hx]; apply in_app_iff; [left|right]; auto.
        change (w :: r) with ([w] ++ r). rewrite working_app. apply in_app_iff. auto. }
      destruct H as [b q|b q|q|q| |b c cs q|b q Hb|b q Hb]; rewrite ?app_nil_r.
      + constructor; cbn [send replies workers unsent delivered finished died] in *; auto.
        * intros x Hx. apply K1. cbn [queued flat_map]. apply in_app_iff in Hx as [Hx|Hx]; apply in_app_iff; [left; right|right]; auto.
        * intros x cs Hx. rewrite working_app in Hx. apply in_app_iff in Hx as [Hx|[[= <- <-]|Hx]].
          -- apply K2, W, in_app_iff. auto.
          -- match goal with |- seen b ?st ++ _ = _ => change (seen b st) with (seen b s0) end. rewrite (K1 b) by (left; reflexivity). reflexivity.
          -- apply K2, W, in_app_iff. auto.
      + constructor; cbn [send replies workers unsent delivered finished died] in *; auto.
        * intros x Hx. apply K1. cbn [queued flat_map]. apply in_app_iff in Hx as [Hx|Hx]; apply in_app_iff; [left; right|right]; auto.
        * intros x cs Hx. rewrite working_app in Hx. apply in_app_iff in Hx as [Hx|[[= <- <-]|Hx]].
          -- apply K2, W, in_app_iff. auto.
          -- match goal with |- seen b ?st ++ _ = _ => change (seen b st) with (seen b s0) end. rewrite (K1 b) by (left; reflexivity). reflexivity.
          -- apply K2, W, in_app_iff. auto.
      + constructor; cbn [send replies workers unsent delivered finished died] in *; auto.
        intros x cs Hx. apply K2, W. now rewrite working_app in Hx.
      + constructor; cbn [send replies workers unsent delivered finished died] in *; auto.
        intros x cs Hx. apply K2, W. now rewrite working_app in Hx.
      + constructor; cbn [send replies workers unsent delivered finished died] in *; auto.
        intros x cs Hx. apply K2, W. now rewrite working_app in Hx.
      + assert (P' : Permutation (b :: (finished s0 ++ ends (replies s0) ++ died s0) ++ (map fst (working l) ++ map fst (working r)) ++ queued q ++ unsent s0) items).
        { rewrite <- P, working_app, map_app. change (working (Working b (c :: cs) :: r)) with ((b, c :: cs) :: working r). cbn [map fst]. perm. }
        assert (Nb : ~ In b ((finished s0 ++ ends (replies s0) ++ died s0) ++ (map fst (working l) ++ map fst (working r)) ++ queued q ++ unsent s0)).
        { pose proof (Permutation_NoDup (Permutation_sym P') N) as Q. now inversion Q. }
        assert (Ib : In b items) by (eapply Permutation_in; [exact P'|left; reflexivity]). clear P P'.
        set (s' := mkState _ _ _ _ _ _ _ _).
        assert (E : forall x, x <> b -> seen x s' = seen x s0).
        { intros x Nx. unfold seen, s'. cbn [delivered replies]. rewrite given_app, app_assoc, given_for_app. cbn [given flat_map app].
          rewrite given_for_other by exact Nx. apply app_nil_r. }
        rewrite !in_app_iff in Nb.
        constructor; unfold s'; cbn [send replies workers unsent delivered finished died]; fold s'.
        * intros x Hx. rewrite E by congruence. auto.
        * intros x Hx. rewrite E; [auto|]. intros ->. apply in_app_iff in Hx. tauto.
        * intros x cs' Hx. rewrite working_app in Hx. apply in_app_iff in Hx as [Hx|[[= <- <-]|Hx]].
          -- rewrite E; [apply K2, W, in_app_iff; auto|]. intros ->. apply Nb. right. left. left. apply (in_map fst) in Hx. exact Hx.
          -- rewrite <- (K2 b (c :: cs)).
             ++ unfold seen, s'. cbn [delivered replies]. rewrite given_app, app_assoc, given_for_app. cbn [given flat_map app].
                rewrite given_for_same, <- app_assoc. reflexivity.
             ++ rewrite working_app. apply in_app_iff. right. left. reflexivity.
          -- rewrite E; [apply K2, W, in_app_iff; auto|]. intros ->. apply Nb. right. left. right. apply (in_map fst) in Hx. exact Hx.
        * intros x Hx. rewrite ends_app in Hx. cbn [ends flat_map] in Hx. rewrite app_nil_r in Hx. rewrite E; [auto|]. intros ->.
          rewrite !in_app_iff in Hx. tauto.
        * intros l' r' x Hx. apply last_split in Hx as [(_ & Hx & _)|(r'' & -> & Hx)]; [discriminate|].
          rewrite given_app, given_for_app, (K4 _ _ _ Hx). cbn [given flat_map app]. apply given_for_other. intros ->. apply Nb. left. right. left.
          rewrite Hx, ends_app. apply in_app_iff. right. left. reflexivity.
        * intros x Hx. rewrite given_app, given_for_app, (K5 _ Hx). cbn [given flat_map app]. apply given_for_other. intros ->. tauto.
      + set (s' := mkState _ _ _ _ _ _ _ _).
        assert (E : forall x, seen x s' = seen x s0).
        { intros x. unfold seen, s'. cbn [delivered replies]. rewrite given_app. cbn [given flat_map]. now rewrite app_nil_r. }
        constructor; unfold s'; cbn [send replies workers unsent delivered finished died]; fold s'; intros; rewrite ?E; auto.
        * apply K2, W. rewrite working_app in H. exact H.
        * rewrite ends_app, !in_app_iff in H. cbn [ends flat_map In app] in H.
          assert (D : b0 = b \/ In b0 (finished s0 ++ ends (replies s0) ++ died s0)) by (rewrite !in_app_iff; intuition).
          destruct D as [->|D]; [|auto]. rewrite <- (K2 b []); [now rewrite app_nil_r|]. rewrite working_app. apply in_app_iff. right. left. reflexivity.
        * apply last_split in H as [(-> & _)|(r'' & -> & Hx)]; [reflexivity|].
          rewrite given_app, given_for_app, (K4 _ _ _ Hx). reflexivity.
        * rewrite given_app, given_for_app, (K5 _ H). reflexivity.
      + set (s' := mkState _ _ _ _ _ _ _ _).
        assert (E : forall x, seen x s' = seen x s0) by reflexivity.
        constructor; unfold s'; cbn [send replies workers unsent delivered finished died]; fold s'; intros; rewrite ?E; eauto.
        * apply K2, W. rewrite working_app in H. exact H.
        * rewrite !in_app_iff in H. cbn [In] in H.
          assert (D : b0 = b \/ In b0 (finished s0 ++ ends (replies s0) ++ died s0)) by (rewrite !in_app_iff; intuition).
          destruct D as [->|D]; [|auto]. rewrite <- (K2 b []); [now rewrite app_nil_r|]. rewrite working_app. apply in_app_iff. right. left. reflexivity.
  Qed.
  Lemma content_reached items slots es s : NoDup items -> steps pages es (start items slots) s -> content items s.
  Proof.
    intros N H.
    assert (G : forall es s s', steps pages es s s' -> Permutation (places s) items -> content items s -> content items s').
    { induction 1 as [|e es0 s0 s1 s2 H0 _ IH]; intros P K; [exact K|]. apply IH.
      - rewrite (places_step _ _ _ H0). exact P.
      - eapply content_step; eauto. }
    eapply G; [exact H| |apply content_start]. rewrite places_start. reflexivity.
  Qed.
  Lemma pages_in_order items slots es s : NoDup items -> steps pages es (start items slots) s ->
    forall b, (~ In b items -> given_for b (delivered s) = []) /\
      exists rest, given_for b (delivered s) ++ rest = fst (pages b).
  Proof.
    intros N H b. destruct (reached _ _ _ _ H) as (_ & P). destruct (content_reached _ _ _ _ N H) as [K0 K1 K2 K3 K4 K5].
    assert (F : ~ In b items -> given_for b (delivered s) = []).
    { intros Hb. specialize (K0 b Hb). unfold seen in K0. rewrite given_for_app in K0. apply app_eq_nil in K0. apply K0. }
    split; [exact F|].
    assert (G : forall l, seen b s ++ l = fst (pages b) -> exists rest, given_for b (delivered s) ++ rest = fst (pages b)).
    { intros l <-. exists (given_for b (given (replies s)) ++ l). unfold seen. rewrite given_for_app, <- app_assoc. reflexivity. }
    assert (D : In b items \/ ~ In b items).
    { destruct (existsb (same b) items) eqn:E; [left|right].
      - apply existsb_exists in E as (x & Hx & E). apply HS in E. now subst.
      - intros Hb. assert (T : existsb (same b) items = true) by (apply existsb_exists; exists b; split; [exact Hb|now apply HS]). congruence. }
    destruct D as [D|D]; [|exists (fst (pages b)); rewrite (F D); reflexivity].
    apply (Permutation_in _ (Permutation_sym P)) in D. unfold places in D. rewrite !in_app_iff in D.
    destruct D as [D|[D|[D|[D|D]]]].
    - apply (G []). rewrite app_nil_r. apply K3, in_app_iff. auto.
    - apply (G []). rewrite app_nil_r. apply K3, in_app_iff. right. apply in_app_iff. auto.
    - apply (G []). rewrite app_nil_r. apply K3, in_app_iff. right. apply in_app_iff. auto.
    - apply in_map_iff in D as ([x cs] & <- & D). apply (G cs), K2, D.
    - exists (fst (pages b)). assert (Z : seen b s = []) by (apply K1, in_app_iff; exact D).
      unfold seen in Z. rewrite given_for_app in Z. apply app_eq_nil in Z as [-> _]. reflexivity.
  Qed.
  Lemma everything items slots es s : NoDup items -> steps pages es (start items slots) s -> reader s = Ended -> died s = [] -> 0 < slots ->
    times gave_up es <= slots - length items -> forall b, In b items -> given_for b (delivered s) = fst (pages b).
  Proof.
    intros N H E D K G b Hb. pose proof (all_finished _ _ _ _ H E D K G) as P.
    destruct (content_reached _ _ _ _ N H) as [K0 K1 K2 K3 K4 K5].
    assert (F : In b (finished s)) by (eapply Permutation_in; [symmetry; exact P|exact Hb]).
    assert (Z : seen b s = fst (pages b)) by (apply K3, in_app_iff; auto).
    unfold seen in Z. rewrite given_for_app, (K5 _ F), app_nil_r in Z. exact Z.
  Qed.
End Threaded.
