(** Proofs: reading in several processes. *)
From Coq Require Import Permutation.
From Verif.Base Require Import Py PyFacts Value ValueFacts.
From Verif.Model Require Import Workers.
From Verif.Spec Require Import Json Reader Workers.

Lemma filter_length_bound {A} (p : A -> bool) l : (length (filter p l) <= length l)%nat.
Proof. induction l as [|x l IH]; cbn; [lia|]. destruct (p x); cbn; lia. Qed.

Section Pool.
  Context {B : Type}.
  Implicit Types (s : pool B) (items : list B).

  (** ** Where the blobs are *)
  Definition queued (q : list (message B)) : list B := flat_map (fun m => match m with Item b => [b] | Terminate => [] end) q.
  Definition working (ws : list (worker B)) : list B := flat_map (fun w => match w with Working b => [b] | _ => [] end) ws.
  Definition signals (q : list (message B)) : nat := length (filter (fun m => match m with Terminate => true | _ => false end) q).
  Definition stopped (ws : list (worker B)) : nat := length (filter (fun w => match w with Stopped => true | _ => false end) ws).

  Lemma queued_app a b : queued (a ++ b) = queued a ++ queued b.
  Proof. apply flat_map_app. Qed.
  Lemma signals_app a b : signals (a ++ b) = (signals a + signals b)%nat.
  Proof. unfold signals. now rewrite filter_app, app_length. Qed.
  Lemma queued_items l : queued (map Item l) = l.
  Proof. induction l; cbn; [|f_equal]; auto. Qed.
  Lemma signals_items l : signals (map Item l) = 0%nat.
  Proof. induction l; cbn; auto. Qed.
  Lemma working_start n : working (repeat Starting n) = [].
  Proof. induction n; cbn; auto. Qed.
  Lemma stopped_start n : stopped (repeat Starting n) = 0%nat.
  Proof. induction n; cbn; auto. Qed.

  Lemma set_worker_length i (w : worker B) ws : length (set_worker i w ws) = length ws.
  Proof. revert i. induction ws as [|x ws IH]; intros [|i]; cbn; auto. Qed.
  (** replacing one worker *)
  Lemma set_worker_split i (w w' : worker B) ws : nth_error ws i = Some w ->
    exists l r, ws = l ++ w :: r /\ set_worker i w' ws = l ++ w' :: r.
  Proof.
    revert i. induction ws as [|x ws IH]; intros [|i] H; try discriminate.
    - injection H as ->. exists [], ws. auto.
    - destruct (IH i H) as (l & r & -> & E). exists (x :: l), r. cbn. rewrite E. auto.
  Qed.
  Lemma working_mid l w r : working (l ++ w :: r) = working l ++ match w with Working b => [b] | _ => [] end ++ working r.
  Proof. unfold working. rewrite flat_map_app. reflexivity. Qed.
  Lemma stopped_mid l w r : stopped (l ++ w :: r) =
    (stopped l + match w with Stopped => 1 | _ => 0 end + stopped r)%nat.
  Proof. unfold stopped. rewrite filter_app, app_length. destruct w; cbn; lia. Qed.

  Definition places s : list B :=
    delivered s ++ replies s ++ working (workers s) ++ queued (send s) ++ unsent s ++ lost s.

  Record inv items slots (g : nat) s : Prop := mkInv {
    inv_places : Permutation (places s) items;
    inv_taken : Permutation (map snd (taken s)) (delivered s ++ replies s ++ working (workers s) ++ lost s);
    inv_workers : length (workers s) = slots;
    inv_flow : (length (queued (send s)) + length (working (workers s)) + length (replies s)
                + signals (send s) + stopped (workers s) = slots + g)%nat;
    inv_early : unsent s <> [] -> (length (queued (send s)) + length (working (workers s)) + length (replies s) + length (lost s) = slots)%nat }.

  Ltac perm := solve [
    repeat rewrite <- app_assoc; cbn [app];
    repeat first [ reflexivity | apply Permutation_app_head | apply perm_skip ]; auto ].

  Lemma inv_start items slots : (slots <= length items)%nat -> inv items slots 0 (start_pool items slots).
  Proof.
    intros H. unfold start_pool. constructor; cbn [send replies workers unsent delivered taken lost].
    - unfold places. cbn [send replies workers unsent delivered taken lost]. rewrite working_start, queued_items, app_nil_r.
      cbn [app]. rewrite firstn_skipn. auto.
    - rewrite working_start. auto.
    - apply repeat_length.
    - rewrite queued_items, working_start, signals_items, stopped_start, firstn_length. cbn. lia.
    - intros _. rewrite queued_items, working_start, firstn_length. cbn. lia.
  Qed.

  Lemma inv_step items slots g s e s' : inv items slots g s -> step slots e s s' ->
    inv items slots (g + match e with GiveUp => 1 | _ => 0 end) s'.
  Proof.
    intros HI H.
    inversion H as [i w b q s0 Hp Hn Hx Hs|i w q s0 Hp Hn Hx Hs|i s0 Hp Hn Hs|i b s0 Hp Hn Hr|i b s0 Hp Hn|b q s0 Hp Hr|s0 Hp Hw Hr Hs|s0 Hp Hr];
      subst; try rewrite Nat.add_0_r; destruct HI as [HP HT HW HF HE]; unfold places in HP.
    - destruct (set_worker_split i w (Working b) _ Hn) as (l & r & El & Es). rewrite Hs, El in *.
      assert (Ww: match w with Working b => [b] | _ => [] end = []) by (destruct Hx; subst; auto).
      assert (Sw: match w with Stopped => 1 | _ => 0 end = 0%nat) by (destruct Hx; subst; auto).
      rewrite working_mid, Ww in *. rewrite stopped_mid, Sw in HF. cbn [app] in *.
      change (queued (Item b :: q)) with (b :: queued q) in *. change (signals (Item b :: q)) with (signals q) in *.
      constructor; cbn [send replies workers unsent delivered taken lost]; rewrite ?Es.
      + rewrite <- HP. unfold places. cbn [send replies workers unsent delivered taken lost].
        rewrite ?Es, working_mid. apply Permutation_app_head, Permutation_app_head.
        rewrite <- !app_assoc. apply Permutation_app_head. cbn [app].
        rewrite (Permutation_middle (working r)). reflexivity.
      + rewrite map_app, HT, working_mid. cbn [map snd]. rewrite <- !app_assoc.
        apply Permutation_app_head, Permutation_app_head, Permutation_app_head. cbn [app].
        rewrite app_assoc. symmetry. apply Permutation_cons_append.
      + rewrite <- HW, !app_length. reflexivity.
      + rewrite working_mid, stopped_mid. rewrite !app_length in *. cbn [length] in *. lia.
      + intros U. specialize (HE U). rewrite working_mid.
        rewrite !app_length in *. cbn [length] in *. lia.
    - destruct (set_worker_split i w Stopped _ Hn) as (l & r & El & Es). rewrite Hs, El in *.
      assert (Ww: match w with Working b => [b] | _ => [] end = []) by (destruct Hx; subst; auto).
      assert (Sw: match w with Stopped => 1 | _ => 0 end = 0%nat) by (destruct Hx; subst; auto).
      rewrite working_mid, Ww in *. rewrite stopped_mid, Sw in HF. cbn [app] in *.
      change (queued (Terminate :: q)) with (queued q) in *. change (signals (Terminate :: q)) with (S (signals q)) in *.
      constructor; cbn [send replies workers unsent delivered taken lost]; rewrite ?Es.
      + rewrite <- HP. unfold places. cbn [send replies workers unsent delivered taken lost]. rewrite ?Es, working_mid. reflexivity.
      + rewrite HT, working_mid. reflexivity.
      + rewrite <- HW, !app_length. reflexivity.
      + rewrite working_mid, stopped_mid. cbn [app]. lia.
      + intros U. specialize (HE U). rewrite working_mid. cbn [app]. auto.
    - destruct (set_worker_split i Starting Stopped _ Hn) as (l & r & El & Es). rewrite El in *.
      rewrite working_mid in *. rewrite stopped_mid in HF. cbn [app] in *.
      constructor; cbn [send replies workers unsent delivered taken lost]; rewrite ?Es.
      + rewrite <- HP. unfold places. cbn [send replies workers unsent delivered taken lost]. rewrite ?Es, working_mid. reflexivity.
      + rewrite HT, working_mid. reflexivity.
      + rewrite <- HW, !app_length. reflexivity.
      + rewrite working_mid, stopped_mid. cbn [app]. lia.
      + intros U. specialize (HE U). rewrite working_mid. cbn [app]. auto.
    - destruct (set_worker_split i (Working b) Waiting _ Hn) as (l & r & El & Es). rewrite El in *.
      rewrite working_mid in *. rewrite stopped_mid in HF.
      constructor; cbn [send replies workers unsent delivered taken lost]; rewrite ?Es.
      + rewrite <- HP. unfold places. cbn [send replies workers unsent delivered taken lost]. rewrite ?Es, working_mid. cbn [app].
        rewrite <- !app_assoc. apply Permutation_app_head, Permutation_app_head. cbn [app]. apply Permutation_middle.
      + rewrite HT, working_mid. cbn [app].
        rewrite <- !app_assoc. apply Permutation_app_head, Permutation_app_head. cbn [app]. symmetry. apply Permutation_middle.
      + rewrite <- HW, !app_length. reflexivity.
      + rewrite working_mid, stopped_mid. rewrite !app_length in *. cbn [length] in *. lia.
      + intros U. specialize (HE U). rewrite working_mid. rewrite !app_length in *. cbn [length] in *. lia.
    - destruct (set_worker_split i (Working b) Stopped _ Hn) as (l & r & El & Es). rewrite El in *.
      rewrite working_mid in *. rewrite stopped_mid in HF.
      constructor; cbn [send replies workers unsent delivered taken lost]; rewrite ?Es.
      + rewrite <- HP. unfold places. cbn [send replies workers unsent delivered taken lost]. rewrite ?Es, working_mid. cbn [app].
        apply Permutation_app_head, Permutation_app_head.
        rewrite <- !app_assoc. apply Permutation_app_head. cbn [app]. rewrite !app_assoc. symmetry. apply Permutation_cons_append.
      + rewrite HT, working_mid. cbn [app].
        apply Permutation_app_head, Permutation_app_head. rewrite <- !app_assoc. apply Permutation_app_head. cbn [app].
        rewrite !app_assoc. apply Permutation_cons_append.
      + rewrite <- HW, !app_length. reflexivity.
      + rewrite working_mid, stopped_mid. rewrite !app_length in *. cbn [length] in *. lia.
      + intros U. specialize (HE U). rewrite working_mid. rewrite !app_length in *. cbn [length] in *. lia.
    - rewrite Hr in *. destruct (unsent s) as [|b' u] eqn:Eu.
      + constructor; cbn [send replies workers unsent delivered taken lost].
        * rewrite <- HP. unfold places. cbn [send replies workers unsent delivered taken lost].
          rewrite queued_app. cbn [queued flat_map app]. rewrite app_nil_r, <- !app_assoc. reflexivity.
        * rewrite HT, <- !app_assoc. reflexivity.
        * auto.
        * rewrite queued_app, signals_app. cbn [queued flat_map app]. rewrite app_nil_r.
          change (signals [Terminate]) with 1%nat. cbn [length] in *. lia.
        * congruence.
      + constructor; cbn [send replies workers unsent delivered taken lost].
        * rewrite <- HP. unfold places. cbn [send replies workers unsent delivered taken lost].
          rewrite queued_app. cbn [queued flat_map app]. rewrite <- !app_assoc. reflexivity.
        * rewrite HT, <- !app_assoc. reflexivity.
        * auto.
        * rewrite queued_app, signals_app. change (signals [Item b']) with 0%nat.
          change (queued [Item b']) with [b']. rewrite app_length. cbn [length] in *. lia.
        * intros _. assert (U: b' :: u <> []) by discriminate. specialize (HE U).
          rewrite queued_app. change (queued [Item b']) with [b']. rewrite app_length. cbn [length] in *. lia.
    - constructor; auto.
    - constructor; auto.
  Qed.

  Lemma give_ups_cons e es : give_ups (e :: es) = (match e with GiveUp => 1 | _ => 0 end + give_ups es)%nat.
  Proof. destruct e; reflexivity. Qed.
  Lemma inv_steps items slots es : forall g s s', inv items slots g s -> steps slots es s s' ->
    inv items slots (g + give_ups es) s'.
  Proof.
    induction es as [|e es IH]; intros g s s' HI H; inversion H; subst.
    - now rewrite Nat.add_0_r.
    - rewrite give_ups_cons, Nat.add_assoc. eapply IH; eauto. eapply inv_step; eauto.
  Qed.
  Lemma reached items slots es s : (slots <= length items)%nat -> steps slots es (start_pool items slots) s ->
    inv items slots (give_ups es) s.
  Proof. intros L H. apply (inv_steps items slots es 0 _ _ (inv_start items slots L) H). Qed.

  Lemma lost_deaths slots es : forall s s', steps slots es s s' -> length (lost s') = (length (lost s) + deaths es)%nat.
  Proof.
    induction es as [|e es IH]; intros s s' H; inversion H as [|? ? ? s1 ? H1 H2]; subst; [cbn; lia|].
    rewrite (IH _ _ H2). assert (D: deaths (e :: es) = (match e with Die => 1 | _ => 0 end + deaths es)%nat) by (destruct e; reflexivity).
    rewrite D. inversion H1; subst; cbn [lost]; rewrite ?app_length; cbn [length]; lia.
  Qed.

  (** *** exactly once *)
  Lemma at_most_once items slots es s : (slots <= length items)%nat -> steps slots es (start_pool items slots) s ->
    part_of (delivered s) (map snd (taken s)) /\ part_of (map snd (taken s)) items.
  Proof.
    intros L H. destruct (reached _ _ _ _ L H) as [HP HT _ _ _]. split.
    - exists (replies s ++ working (workers s) ++ lost s). symmetry. exact HT.
    - exists (queued (send s) ++ unsent s). rewrite HT, <- HP. unfold places. rewrite <- !app_assoc.
      apply Permutation_app_head, Permutation_app_head, Permutation_app_head.
      rewrite (Permutation_app_comm (lost s)), <- !app_assoc. reflexivity.
  Qed.

  (** the parent ends by its loop condition only in the last step *)
  Lemma ended_state slots es : forall s s', steps slots es s s' -> parent s = Running -> parent s' = Ended ->
    (forall w, In w (workers s') -> w = Stopped) /\ replies s' = [] /\ send s' = [].
  Proof.
    assert (Hstay: forall e s s', step slots e s s' -> parent s = Running) by (intros e s s' H; inversion H; auto).
    induction es as [|e es IH]; intros s s' H Hp He; inversion H as [|? ? ? s1 ? H1 H2]; subst; [congruence|].
    destruct es as [|e' es].
    - inversion H2; subst. inversion H1; subst; cbn in *; try congruence. auto.
    - apply (IH _ _ H2); auto. inversion H2; subst. eapply Hstay; eauto.
  Qed.
  Lemma working_stopped (ws : list (worker B)) : (forall w, In w ws -> w = Stopped) -> working ws = [] /\ stopped ws = length ws.
  Proof.
    induction ws as [|w ws IH]; intros H; [split; reflexivity|].
    rewrite (H w) by (left; auto). destruct (IH ltac:(intros x Hx; apply H; right; auto)) as [I1 I2].
    split; [exact I1|]. change (S (stopped ws) = S (length ws)). now rewrite I2.
  Qed.

  Lemma all_delivered items slots es s : (0 < slots <= length items)%nat ->
    steps slots es (start_pool items slots) s -> parent s = Ended ->
    Permutation (delivered s ++ lost s ++ unsent s) items /\
    (deaths es = 0%nat -> Permutation (delivered s) items /\ Permutation (map snd (taken s)) items).
  Proof.
    intros [L1 L2] H He. pose proof (reached _ _ _ _ L2 H) as [HP HT HW HF HE].
    destruct (ended_state _ _ _ _ H eq_refl He) as (Hw & Hr & Hs).
    destruct (working_stopped _ Hw) as [Ww Sw]. unfold places in HP. rewrite Hr, Hs, Ww in *. cbn [app queued flat_map length] in *.
    split.
    - rewrite <- HP. apply Permutation_app_head, Permutation_app_comm.
    - intros Hd. pose proof (lost_deaths _ _ _ _ H) as HL. rewrite Hd in HL. cbn in HL.
      destruct (lost s) as [|x xs]; [|cbn in HL; lia].
      destruct (unsent s) as [|u us]; [|exfalso; assert (u :: us <> []) by discriminate; specialize (HE H0); cbn in HE; lia].
      cbn [app] in HP. rewrite !app_nil_r in *. split; [exact HP|]. rewrite HT. exact HP.
  Qed.

  (** ** Every schedule ends *)
  Definition message_weight (m : message B) : nat := match m with Item _ => 4 | Terminate => 1 end.
  Definition worker_weight (w : worker B) : nat := match w with Starting | Waiting => 1 | Working _ => 4 | Stopped => 0 end.
  Definition weight s : nat :=
    (5 * length (unsent s) + list_sum (map message_weight (send s)) + list_sum (map worker_weight (workers s))
     + 2 * length (replies s) + match parent s with Running => 1 | _ => 0 end)%nat.
  Lemma list_sum_cons a l : list_sum (a :: l) = (a + list_sum l)%nat.
  Proof. reflexivity. Qed.
  Lemma weight_mid l (w : worker B) r : list_sum (map worker_weight (l ++ w :: r)) =
    (list_sum (map worker_weight l) + worker_weight w + list_sum (map worker_weight r))%nat.
  Proof. rewrite map_app, list_sum_app. cbn [map]. change (list_sum (?a :: ?b)) with (a + list_sum b)%nat. cbn. lia. Qed.
  Lemma step_weight slots e s s' : step slots e s s' -> (weight s' < weight s)%nat.
  Proof.
    intros H. unfold weight.
    inversion H as [i w b q s0 Hp Hn Hx Hs|i w q s0 Hp Hn Hx Hs|i s0 Hp Hn Hs|i b s0 Hp Hn Hr|i b s0 Hp Hn|b q s0 Hp Hr|s0 Hp Hw Hr Hs|s0 Hp Hr];
      subst; cbn [send replies workers unsent delivered taken lost parent].
    - destruct (set_worker_split i w (Working b) _ Hn) as (l & r & El & Es). rewrite Hs, Es, El, !weight_mid.
      assert (worker_weight w = 1%nat) by (destruct Hx; subst; auto). cbn [map]. rewrite ?list_sum_cons. cbn [worker_weight message_weight length]. lia.
    - destruct (set_worker_split i w Stopped _ Hn) as (l & r & El & Es). rewrite Hs, Es, El, !weight_mid.
      assert (worker_weight w = 1%nat) by (destruct Hx; subst; auto). cbn [map]. rewrite ?list_sum_cons. cbn [worker_weight message_weight length]. lia.
    - destruct (set_worker_split i Starting Stopped _ Hn) as (l & r & El & Es). rewrite Es, El, !weight_mid. cbn [map]. rewrite ?list_sum_cons. cbn [worker_weight message_weight length]. lia.
    - destruct (set_worker_split i (Working b) Waiting _ Hn) as (l & r & El & Es). rewrite Es, El, !weight_mid, app_length. cbn [map]. rewrite ?list_sum_cons. cbn [worker_weight message_weight length]. lia.
    - destruct (set_worker_split i (Working b) Stopped _ Hn) as (l & r & El & Es). rewrite Es, El, !weight_mid. cbn [map]. rewrite ?list_sum_cons. cbn [worker_weight message_weight length]. lia.
    - rewrite Hr, map_app, list_sum_app. destruct (unsent s) as [|b' u]; cbn [map]; rewrite ?list_sum_cons; cbn [message_weight length]; change (list_sum []) with 0%nat; lia.
    - rewrite Hp. lia.
    - rewrite Hp. lia.
  Qed.
  Lemma steps_bounded slots es : forall s s', steps slots es s s' -> (length es + weight s' <= weight s)%nat.
  Proof.
    induction es as [|e es IH]; intros s s' H; inversion H as [|? ? ? s1 ? H1 H2]; subst; [cbn; lia|].
    apply IH in H2. apply step_weight in H1. cbn [length]. lia.
  Qed.

  (** ** ... and goes on until everything is delivered *)
  Lemma nth_In (ws : list (worker B)) w : In w ws -> exists i, nth_error ws i = Some w.
  Proof. apply In_nth_error. Qed.
  Lemma expecting (ws : list (worker B)) : working ws = [] -> (exists w, In w ws /\ expects w) \/ (forall w, In w ws -> w = Stopped).
  Proof.
    induction ws as [|w ws IH]; intros H; [right; intros w []|].
    destruct w.
    - left. exists Starting. split; [left; auto|left; auto].
    - left. exists Waiting. split; [left; auto|right; auto].
    - discriminate H.
    - destruct (IH H) as [(w & Hw & Hx)|Ha]; [left; exists w; split; [right|]; auto|].
      right. intros w [<-|Hw]; auto.
  Qed.
  Lemma progress items slots es s : (0 < slots <= length items)%nat ->
    steps slots es (start_pool items slots) s -> give_ups es = 0%nat -> parent s = Running ->
    exists e s', ordinary e = true /\ step slots e s s'.
  Proof.
    intros [L1 L2] H Hg Hp. pose proof (reached _ _ _ _ L2 H) as [HP HT HW HF HE]. rewrite Hg in HF.
    destruct (replies s) as [|b q] eqn:Er.
    2:{ exists Deliver. eexists. split; [reflexivity|]. eapply step_deliver; eauto. }
    destruct (working (workers s)) as [|b bs] eqn:Ew.
    2:{ assert (I: exists i, nth_error (workers s) i = Some (Working b)).
        { apply nth_In. assert (Hin: In b (working (workers s))) by (rewrite Ew; left; auto).
          unfold working in Hin. apply in_flat_map in Hin as (w & Hw & Hb). destruct w; try destruct Hb as [].
          - subst. auto.
          - contradiction. }
        destruct I as [i Hi]. exists Reply. eexists. split; [reflexivity|]. eapply step_reply; eauto.
        rewrite Er. cbn. lia. }
    destruct (expecting _ Ew) as [(w & Hw & Hx)|Hall].
    - destruct (nth_In _ _ Hw) as [i Hi]. destruct (send s) as [|m q] eqn:Es.
      + exfalso. cbn in HF.
        assert (C: (stopped (workers s) < length (workers s))%nat).
        { apply in_split in Hw as (l & r & ->). rewrite stopped_mid, app_length. cbn [length].
          assert (stopped l <= length l)%nat by apply filter_length_bound. assert (stopped r <= length r)%nat by apply filter_length_bound.
          destruct Hx; subst; cbn; lia. }
        lia.
      + destruct m as [b|].
        * exists Take. eexists. split; [reflexivity|]. eapply step_take; eauto.
        * exists Stop. eexists. split; [reflexivity|]. eapply step_stop; eauto.
    - destruct (working_stopped _ Hall) as [_ Sw]. destruct (send s) as [|m q] eqn:Es.
      + exists End. eexists. split; [reflexivity|]. eapply step_end; eauto.
      + exfalso. rewrite Sw, HW in HF. cbn [length] in HF. destruct m.
        * change (queued (Item b :: q)) with (b :: queued q) in HF. cbn [length] in HF. lia.
        * change (signals (Terminate :: q)) with (S (signals q)) in HF. lia.
  Qed.
End Pool.

(** a worker that gives up leaves a signal nobody takes *)
Lemma give_up_stuck {B} (items : list B) slots es s : (0 < slots <= length items)%nat ->
  steps slots es (start_pool items slots) s -> (0 < give_ups es)%nat -> parent s <> Ended.
Proof.
  intros [L1 L2] H Hg He. pose proof (reached _ _ _ _ L2 H) as [HP HT HW HF HE].
  destruct (ended_state _ _ _ _ H eq_refl He) as (Hw & Hr & Hs).
  destruct (working_stopped _ Hw) as [Ww Sw]. rewrite Hr, Hs, Ww, Sw, HW in HF. cbn in HF. lia.
Qed.

(** ** After the loop *)
Section Closing.
  Context {B : Type}.
  Implicit Types (s : pool B).
  (** the signals in the queue are too few for the workers *)
  Definition short s : Prop := (signals (send s) + stopped (workers s) < length (workers s))%nat.

  Lemma short_worker slots e s s' : by_worker e = true -> e <> Die -> e <> GiveUp -> parent s' = parent s ->
    step slots e (in_loop s) (in_loop s') -> short s -> short s' /\ delivered s' = delivered s.
  Proof.
    intros Hb Hd Hg _ H. unfold short.
    change (send s') with (send (in_loop s')). change (workers s') with (workers (in_loop s')). change (delivered s') with (delivered (in_loop s')).
    change (send s) with (send (in_loop s)). change (workers s) with (workers (in_loop s)). change (delivered s) with (delivered (in_loop s)).
    revert H. generalize (in_loop s) (in_loop s'). clear s s'. intros s s' H Hs.
    inversion H as [i w b q s0 Hp Hn Hx Hq|i w q s0 Hp Hn Hx Hq|i s0 Hp Hn Hq|i b s0 Hp Hn Hr|i b s0 Hp Hn|b q s0 Hp Hr|s0 Hp Hw Hr Hq|s0 Hp Hr];
      subst; try discriminate Hb; try congruence; cbn [send replies workers unsent delivered taken lost parent]; (split; [|reflexivity]).
    - destruct (set_worker_split i w (Working b) _ Hn) as (l & r & El & Es). rewrite Hq, El in Hs. rewrite Es.
      rewrite !stopped_mid, !app_length in *. change (signals (Item b :: q)) with (signals q) in Hs. cbn [length] in *.
      destruct Hx; subst; cbn in *; lia.
    - destruct (set_worker_split i w Stopped _ Hn) as (l & r & El & Es). rewrite Hq, El in Hs. rewrite Es.
      rewrite !stopped_mid, !app_length in *. change (signals (Terminate :: q)) with (S (signals q)) in Hs. cbn [length] in *.
      destruct Hx; subst; cbn in *; lia.
    - destruct (set_worker_split i (Working b) Waiting _ Hn) as (l & r & El & Es). rewrite El in Hs. rewrite Es.
      rewrite !stopped_mid, !app_length in *. cbn [length] in *. cbn in *. lia.
  Qed.
  Lemma short_closing slots es : forall s s', closing slots es s s' -> deaths es = 0%nat -> give_ups es = 0%nat ->
    short s -> short s' /\ delivered s' = delivered s.
  Proof.
    unfold deaths, give_ups. induction es as [|e es IH]; intros s s' H Hd Hg Hs; inversion H as [|? ? ? s1 ? Hb Hp Hp1 H1 H2]; subst; [auto|].
    assert (D: e <> Die /\ e <> GiveUp) by (split; intros ->; cbn in Hd, Hg; lia).
    destruct (short_worker slots e s s1 Hb (proj1 D) (proj2 D) Hp1 H1 Hs) as [S1 D1].
    assert (Hd': length (filter (fun e => match e with Die => true | _ => false end) es) = 0%nat) by (destruct e; cbn in Hd |- *; auto; lia).
    assert (Hg': length (filter (fun e => match e with GiveUp => true | _ => false end) es) = 0%nat) by (destruct e; cbn in Hg |- *; auto; lia).
    destruct (IH _ _ H2 Hd' Hg' S1) as [S2 D2]. split; congruence || auto.
  Qed.
  Lemma short_not_joined s : short s -> ~ joined s.
  Proof.
    intros Hs Hj. unfold short in Hs. destruct (working_stopped _ Hj) as [_ Sw]. lia.
  Qed.
  Lemma short_stays slots es s s' : short s -> closing slots es s s' -> deaths es = 0%nat -> give_ups es = 0%nat ->
    ~ joined s' /\ delivered s' = delivered s.
  Proof.
    intros Hs H Hd Hg. destruct (short_closing _ _ _ _ H Hd Hg Hs) as [S D]. split; auto. now apply short_not_joined.
  Qed.
End Closing.

Lemma abandoned_hangs {B} (items : list B) slots es es' s s0 s' : (0 < slots <= length items)%nat ->
  steps slots es (start_pool items slots) s -> abandons s s0 -> closing slots es' s0 s' ->
  deaths (es ++ es') = 0%nat -> give_ups (es ++ es') = 0%nat -> ~ joined s' /\ delivered s' = delivered s.
Proof.
  intros [L1 L2] H (b & q & Hp & Hr & ->) Hc Hd Hg. unfold deaths, give_ups in Hd, Hg.
  rewrite filter_app, app_length in Hd, Hg.
  pose proof (reached _ _ _ _ L2 H) as [HP HT HW HF HE].
  refine (short_stays slots es' _ s' _ Hc _ _); unfold deaths, give_ups; try lia.
  unfold short. cbn [send workers]. rewrite Hr in HF. cbn [length] in HF. unfold give_ups in HF. lia.
Qed.
Lemma expired_hangs {B} (items : list B) slots es es' s s' : (0 < slots <= length items)%nat ->
  steps slots es (start_pool items slots) s -> parent s = Expired -> ~ Permutation (delivered s) items ->
  closing slots es' s s' ->
  deaths (es ++ es') = 0%nat -> give_ups (es ++ es') = 0%nat -> ~ joined s' /\ delivered s' = delivered s.
Proof.
  intros [L1 L2] H Hp Hn Hc Hd Hg. unfold deaths, give_ups in Hd, Hg.
  rewrite filter_app, app_length in Hd, Hg.
  pose proof (reached _ _ _ _ L2 H) as [HP HT HW HF HE].
  pose proof (lost_deaths _ _ _ _ H) as HL. unfold deaths in HL.
  destruct (lost s) as [|x xs] eqn:El; [|cbn in HL; lia].
  refine (short_stays slots es' _ s' _ Hc _ _); unfold deaths, give_ups; try lia.
  unfold short. unfold give_ups in HF.
  assert (Q: (0 < length (queued (send s)) + length (working (workers s)) + length (replies s))%nat).
  { destruct (unsent s) as [|u us] eqn:Eu.
    - destruct (queued (send s)) eqn:Eq; [|cbn; lia]. destruct (working (workers s)) eqn:Ew; [|cbn; lia].
      destruct (replies s) eqn:Er; [|cbn; lia]. exfalso. apply Hn. unfold places in HP. rewrite Eu, Eq, Ew, Er, El in HP.
      cbn [app] in HP. now rewrite ?app_nil_r in HP.
    - assert (N: u :: us <> []) by discriminate. specialize (HE N). rewrite ?El in HE. cbn [length] in HE. lia. }
  lia.
Qed.
Lemma ended_joined {B} (items : list B) slots es s : steps slots es (start_pool items slots) s -> parent s = Ended -> joined s.
Proof. intros H He. exact (proj1 (ended_state _ _ _ _ H eq_refl He)). Qed.

(** ** The records *)
Section Records.
  Context (py_str : value -> str) (dump : value -> str) (parse : str -> result value).
  Hypothesis Hcodec : one_line_json dump parse.

  Lemma fix_flat r : flat_record r -> fix_dict py_str r = r.
  Proof.
    destruct r as [| | | | |d]; try reflexivity. cbn [flat_record fix_dict]. intros H. f_equal.
    induction d as [|[k v] d IH]; [reflexivity|]. cbn [map fst snd].
    assert (Hv := H (k, v) (or_introl eq_refl)). cbn [snd] in Hv.
    rewrite IH by (intros kv Hkv; apply H; right; auto). destruct v; try destruct Hv; reflexivity.
  Qed.
  Lemma unpack_pack records :
    (forall r, In r records -> distinct_keys (fix_dict py_str r) /\ dump (fix_dict py_str r) <> []) ->
    unpack parse (pack py_str dump records) = Ok (map (fix_dict py_str) records).
  Proof.
    intros H. unfold unpack, pack. destruct records as [|r0 rs]; [reflexivity|]. remember (r0 :: rs) as records eqn:E.
    rewrite split_join.
    - assert (F: filter (fun r => negb (str_eqb r [])) (map (fun r => dump (fix_dict py_str r)) records)
                 = map (fun r => dump (fix_dict py_str r)) records).
      { clear E. induction records as [|r records IH]; [reflexivity|]. cbn [map filter].
        destruct (H r (or_introl eq_refl)) as [_ Hd].
        destruct (dump (fix_dict py_str r)) as [|c t] eqn:Ed; [congruence|]. cbn [str_eqb list_eqb negb].
        f_equal. apply IH. intros x Hx. apply H. right. auto. }
      rewrite F. clear E F. induction records as [|r records IH]; [reflexivity|]. cbn [map mapM].
      destruct (Hcodec (fix_dict py_str r)) as [Hp _]; [apply H; left; auto|]. rewrite Hp. cbn [bind].
      rewrite IH by (intros x Hx; apply H; right; auto). reflexivity.
    - subst records. discriminate.
    - intros w Hw. apply in_map_iff in Hw as (r & <- & Hr). intros C.
      destruct (Hcodec (fix_dict py_str r)) as [_ Ho]; [apply H; auto|]. apply Ho in C. discriminate C.
  Qed.
  Lemma flat_records_pass records :
    (forall r, In r records -> flat_record r /\ distinct_keys r /\ dump r <> []) ->
    unpack parse (pack py_str dump records) = Ok records.
  Proof.
    intros H. rewrite unpack_pack.
    - f_equal. rewrite <- (map_id records) at 2. apply map_ext_in. intros r Hr. apply fix_flat, H, Hr.
    - intros r Hr. rewrite fix_flat by apply H, Hr. split; apply H, Hr.
  Qed.
End Records.
