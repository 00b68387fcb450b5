(** Proofs: iterating a persisted set. *)
From Verif.Base Require Import Py PyFacts Value.
From Verif.Model Require Import Storage.
From Verif.Spec Require Import Storage.
From Verif.Proofs Require Import Storage.

Lemma bump_length l g : length (bump l g) = length l.
Proof. revert g. induction l as [|n l IH]; intros [|g]; cbn; auto. Qed.
Lemma bump_same l g n : nth_error l g = Some n -> nth_error (bump l g) g = Some (S n).
Proof. revert g. induction l as [|m l IH]; intros [|g] H; cbn in *; try discriminate; auto. now injection H as ->. Qed.
Lemma bump_other l g h : g <> h -> nth_error (bump l g) h = nth_error l h.
Proof. revert g h. induction l as [|m l IH]; intros [|g] [|h] H; cbn; auto; try easy. Qed.

Lemma skipn_plus {A} y x (l : list A) : skipn x (skipn y l) = skipn (x + y) l.
Proof.
  revert l. induction y as [|y IH]; intro l; [now rewrite Nat.add_0_r|]. rewrite Nat.add_succ_r.
  destruct l; [now rewrite !skipn_nil|]. cbn. apply IH.
Qed.

Section I.
  Context (rows : list value).

  (** taking from a generator whose position is [n] *)
  Lemma pull_of g : forall k s n, nth_error (made s) g = Some n ->
    exists s', pull rows k (next_of rows g) s = (firstn k (skipn n rows), s') /\ current s' = current s /\
      nth_error (made s') g = Some (n + length (firstn k (skipn n rows))) /\
      length (made s') = length (made s).
  Proof.
    induction k as [|k IH]; intros s n Hn; cbn [pull].
    - exists s. cbn. rewrite Nat.add_0_r. auto.
    - unfold next_of at 1. rewrite Hn. destruct (nth_error rows n) as [v|] eqn:Ev.
      + destruct (IH {| made := bump (made s) g; current := current s |} (S n)) as (s' & E & Hc & Hp & Hl).
        { cbn [made]. now apply bump_same. }
        assert (Es : skipn n rows = v :: skipn (S n) rows).
        { clear - Ev. revert n Ev. generalize rows. intro l. induction l as [|x l IH]; intros [|n] H; cbn in *; try discriminate.
          - now injection H as ->.
          - now apply IH. }
        rewrite E, Es. exists s'. cbn [firstn length]. rewrite Nat.add_succ_r. repeat split; auto.
        rewrite Hl. cbn [made]. apply bump_length.
      + assert (Es : skipn n rows = []) by (apply skipn_all2; now apply nth_error_None).
        rewrite Es. exists s. cbn [firstn length]. rewrite Nat.add_0_r. auto.
  Qed.

  (** the generator which is remembered has the position [n] *)
  Definition at_position (s : iterators) (n : nat) : Prop :=
    (exists g, current s = Some g /\ nth_error (made s) g = Some n) \/ (current s = None /\ n = 0).

  Lemma iter_new_position s : let '(g, s') := iter_new s in
    current s' = Some g /\ nth_error (made s') g = Some 0.
  Proof.
    cbn. split; auto. rewrite nth_error_app2 by lia. now rewrite Nat.sub_diag.
  Qed.

  Lemma pull_ext f g k s : (forall s', f s' = g s') -> pull rows k f s = pull rows k g s.
  Proof.
    intro H. revert s. induction k as [|k IH]; intro s; cbn [pull]; auto. rewrite H.
    destruct (g s) as [[v|] s']; auto. now rewrite IH.
  Qed.

  Lemma next_current_is g s : current s = Some g -> next_current rows s = next_of rows g s.
  Proof. intro H. unfold next_current. now rewrite H. Qed.

  Lemma next_of_current g s t s' : next_of rows g s = (t, s') -> current s' = current s.
  Proof.
    unfold next_of. destruct (nth_error (made s) g) as [n|]; [|intro H; now injection H as <- <-].
    destruct (nth_error rows n); intro H; now injection H as <- <-.
  Qed.

  Lemma pull_current g k : forall s, current s = Some g -> pull rows k (next_current rows) s = pull rows k (next_of rows g) s.
  Proof.
    induction k as [|k IH]; intros s H; cbn [pull]; auto. rewrite (next_current_is g) by auto.
    destruct (next_of rows g s) as [[v|] s'] eqn:E; auto. rewrite IH; auto.
    apply next_of_current in E. congruence.
  Qed.

  Lemma next_none s : current s = None -> next_current rows s = next_current rows (snd (iter_new s)).
  Proof. intro H. unfold next_current. rewrite H. reflexivity. Qed.

  Lemma skipn_firstn_length {A} k (l : list A) : skipn (length (firstn k l)) l = skipn k l.
  Proof.
    rewrite firstn_length. destruct (Nat.le_ge_cases k (length l)) as [H|H].
    - now rewrite Nat.min_l.
    - rewrite Nat.min_r by auto. now rewrite !skipn_all2.
  Qed.

  Lemma pull_loop k s n : at_position s n ->
    exists s' n', pull rows k (next_current rows) s = (firstn k (skipn n rows), s') /\ at_position s' n' /\
      skipn n' rows = skipn k (skipn n rows).
  Proof.
    intros [(g & Hc & Hn)|[Hc ->]].
    - rewrite (pull_current g) by auto. destruct (pull_of g k s n Hn) as (s' & E & Hc' & Hp & _).
      exists s', (n + length (firstn k (skipn n rows))). split; auto. split.
      + left. exists g. rewrite Hc'. auto.
      + rewrite Nat.add_comm, <- skipn_plus. apply skipn_firstn_length.
    - destruct k as [|k].
      + exists s, 0. cbn. split; auto. split; auto. right. auto.
      + pose proof (iter_new_position s) as Hi. destruct (iter_new s) as [g s1] eqn:Eg. destruct Hi as [Hc1 Hp1].
        assert (E0 : pull rows (S k) (next_current rows) s = pull rows (S k) (next_current rows) s1).
        { cbn [pull]. rewrite next_none, Eg by auto. reflexivity. }
        rewrite E0, (pull_current g) by auto. destruct (pull_of g (S k) s1 0 Hp1) as (s' & E & Hc' & Hp & _).
        rewrite E. change (skipn 0 rows) with rows in *. exists s', (length (firstn (S k) rows)). split; auto. split.
        * left. exists g. rewrite Hc'. auto.
        * apply skipn_firstn_length.
  Qed.

  Lemma pull_new k s : let '(g, s1) := iter_new s in
    exists s' n', pull rows k (next_of rows g) s1 = (firstn k rows, s') /\ at_position s' n' /\ skipn n' rows = skipn k rows.
  Proof.
    pose proof (iter_new_position s) as Hi. destruct (iter_new s) as [g s1]. destruct Hi as [Hc Hp].
    destruct (pull_of g k s1 0 Hp) as (s' & E & Hc' & Hp' & _). rewrite E. change (skipn 0 rows) with rows in *. exists s', (length (firstn k rows)).
    split; auto. split.
    - left. exists g. rewrite Hc'. auto.
    - apply skipn_firstn_length.
  Qed.

  Lemma uses_deliver us : forall s n, at_position s n -> fst (do_uses rows us s) = deliveries rows (skipn n rows) us.
  Proof.
    induction us as [|u us IH]; intros s n H; cbn [do_uses]; auto.
    assert (Hall : forall l, firstn (all_of rows) (skipn l rows) = skipn l rows /\ skipn (all_of rows) (skipn l rows) = []).
    { intro l. unfold all_of. assert (length (skipn l rows) <= length rows) by (rewrite skipn_length; lia).
      split; [apply firstn_all2|apply skipn_all2]; lia. }
    destruct u as [| |k| |k]; cbn [do_use deliveries].
    - pose proof (pull_new (all_of rows) s) as P. destruct (iter_new s) as [g s1]. destruct P as (s' & n' & -> & Hp & Hs).
      specialize (IH _ _ Hp). destruct (do_uses rows us s') as [outs s'']. cbn [fst] in *.
      destruct (Hall 0) as [A B]. change (skipn 0 rows) with rows in A, B. rewrite A. f_equal. rewrite IH, Hs, B. reflexivity.
    - pose proof (pull_new 1 s) as P. destruct (iter_new s) as [g s1]. destruct P as (s' & n' & -> & Hp & Hs).
      specialize (IH _ _ Hp). destruct (do_uses rows us s') as [outs s'']. cbn [fst] in *. f_equal. now rewrite IH, Hs.
    - pose proof (pull_new k s) as P. destruct (iter_new s) as [g s1]. destruct P as (s' & n' & -> & Hp & Hs).
      specialize (IH _ _ Hp). destruct (do_uses rows us s') as [outs s'']. cbn [fst] in *. f_equal. now rewrite IH, Hs.
    - destruct (pull_loop (all_of rows) s n H) as (s' & n' & -> & Hp & Hs).
      specialize (IH _ _ Hp). destruct (do_uses rows us s') as [outs s'']. cbn [fst] in *.
      destruct (Hall n) as [A B]. rewrite A. f_equal. now rewrite IH, Hs, B.
    - destruct (pull_loop k s n H) as (s' & n' & -> & Hp & Hs).
      specialize (IH _ _ Hp). destruct (do_uses rows us s') as [outs s'']. cbn [fst] in *. f_equal. now rewrite IH, Hs.
  Qed.

  Lemma uses_of_a_new_set us : fst (do_uses rows us new_storage) = deliveries rows rows us.
  Proof. rewrite (uses_deliver us new_storage 0); [reflexivity|right; auto]. Qed.

  (** ** Interleaved steps *)
  Definition position (s : iterators) (g : nat) : nat := nth g (made s) 0.

  Lemma next_of_log g s : match next_of rows g s with
    | (Item v, s') => nth_error rows (position s g) = Some v /\ g < length (made s) /\
                      position s' g = S (position s g) /\ (forall h, h <> g -> position s' h = position s h) /\
                      length (made s') = length (made s)
    | (Stop, s') => s' = s /\ (g < length (made s) -> length rows <= position s g)
    end.
  Proof.
    unfold next_of, position. destruct (nth_error (made s) g) as [n|] eqn:En.
    - rewrite (nth_error_nth _ _ 0 En). destruct (nth_error rows n) as [v|] eqn:Ev.
      + cbn [made]. split; auto. split; [apply nth_error_Some; congruence|]. split; [|split].
        * apply nth_error_nth. now apply bump_same.
        * intros h Hh. destruct (nth_error (made s) h) as [m|] eqn:Em.
          -- rewrite (nth_error_nth _ _ 0 Em). apply nth_error_nth. rewrite bump_other; auto.
          -- apply nth_error_None in Em. rewrite !nth_overflow; auto. now rewrite bump_length.
        * apply bump_length.
      + split; auto. intros _. now apply nth_error_None.
    - split; auto. intro H. apply nth_error_None in En. lia.
  Qed.

  Lemma firstn_S_nth (l : list value) n v : nth_error l n = Some v -> firstn (S n) l = firstn n l ++ [v].
  Proof.
    revert n. induction l as [|x l IH]; intros [|n] H; cbn in *; try discriminate; [now injection H as ->|].
    rewrite (IH n H). reflexivity.
  Qed.

  Lemma new_position s g : position (snd (iter_new s)) g = position s g.
  Proof.
    unfold position. cbn. destruct (Nat.lt_ge_cases g (length (made s))) as [H|H].
    - now rewrite app_nth1.
    - rewrite app_nth2, (nth_overflow (made s)) by auto. destruct (g - length (made s)) as [|[|k]]; reflexivity.
  Qed.

  Lemma step_log o s : let '(out, s') := do_step rows o s in
    length (made s) <= length (made s') /\
    (forall g, skipn (position s g) rows =
       match out with Some (h, v) => if Nat.eqb h g then [v] else [] | None => [] end ++ skipn (position s' g) rows).
  Proof.
    assert (Hnth : forall n v, nth_error rows n = Some v -> skipn n rows = v :: skipn (S n) rows).
    { generalize rows. intro l. induction l as [|x l IH]; intros [|n] v H; cbn in *; try discriminate; [now injection H as ->|now apply IH]. }
    assert (Hof : forall g s0, match next_of rows g s0 with
       | (Item v, s') => length (made s0) <= length (made s') /\
            (forall h, skipn (position s0 h) rows = (if Nat.eqb g h then [v] else []) ++ skipn (position s' h) rows)
       | (Stop, s') => s' = s0 end).
    { intros g s0. pose proof (next_of_log g s0) as P. destruct (next_of rows g s0) as [[v|] s'].
      - destruct P as (P1 & P2 & P3 & P4 & P5). split; [lia|]. intro h. destruct (Nat.eqb_spec g h) as [->|Hne].
        + rewrite P3. now apply Hnth.
        + rewrite P4 by auto. reflexivity.
      - now destruct P. }
    destruct o as [|g|]; cbn [do_step].
    - split; [cbn; rewrite app_length; lia|]. intro g. now rewrite new_position.
    - specialize (Hof g s). destruct (next_of rows g s) as [[v|] s']; auto. subst. auto.
    - unfold next_current. destruct (current s) as [g|].
      + specialize (Hof g s). destruct (next_of rows g s) as [[v|] s']; auto. subst. auto.
      + pose proof (new_position s) as Hnp. assert (Hl : length (made s) <= length (made (snd (iter_new s)))) by (cbn; rewrite app_length; lia).
        assert (Hg : fst (iter_new s) = length (made s)) by reflexivity.
        destruct (iter_new s) as [g s1]. cbn [fst snd] in *. subst g.
        specialize (Hof (length (made s)) s1). destruct (next_of rows (length (made s)) s1) as [[v|] s'].
        * destruct Hof as [H1 H2]. split; [lia|]. intro h. rewrite <- H2. now rewrite Hnp.
        * subst s'. split; [lia|]. intro h. now rewrite Hnp.
  Qed.

  Lemma steps_log os : forall s, let '(log, s') := do_steps rows os s in
    length (made s) <= length (made s') /\
    forall g, skipn (position s g) rows = delivered_by g log ++ skipn (position s' g) rows.
  Proof.
    induction os as [|o os IH]; intro s; cbn [do_steps].
    - split; auto.
    - pose proof (step_log o s) as P. destruct (do_step rows o s) as [out s1]. destruct P as [P1 P2].
      specialize (IH s1). destruct (do_steps rows os s1) as [log s2]. destruct IH as [H1 H2]. split; [lia|].
      intro g. rewrite P2, H2. destruct out as [[h v]|]; auto. unfold delivered_by. cbn [filter fst].
      destruct (Nat.eqb_spec h g) as [->|Hne]; reflexivity.
  Qed.

  Lemma steps_in_order os g : exists rest, rows = delivered_by g (fst (do_steps rows os new_storage)) ++ rest.
  Proof.
    pose proof (steps_log os new_storage) as P. destruct (do_steps rows os new_storage) as [log s']. destruct P as [_ P].
    specialize (P g). unfold position in P at 1. cbn in P. exists (skipn (position s' g) rows). cbn [fst].
    destruct g; exact P.
  Qed.

  Lemma steps_app a : forall b s, do_steps rows (a ++ b) s =
    let '(la, s1) := do_steps rows a s in let '(lb, s2) := do_steps rows b s1 in (la ++ lb, s2).
  Proof.
    induction a as [|o a IH]; intros b s; cbn [app do_steps].
    - now destruct (do_steps rows b s).
    - destruct (do_step rows o s) as [out s1]. rewrite IH. destruct (do_steps rows a s1) as [la s2].
      destruct (do_steps rows b s2) as [lb s3]. now destruct out.
  Qed.

  Lemma turns_move g os : forall s, g < length (made s) ->
    let '(log, s') := do_steps rows os s in Nat.min (length rows) (position s g + turns g os) <= position s' g.
  Proof.
    induction os as [|o os IH]; intros s Hg; cbn [do_steps turns]; [lia|].
    assert (Hmono : forall s0 o0, let '(_, s') := do_step rows o0 s0 in position s0 g <= position s' g).
    { clear. intros s0 o0.
      assert (Hof : forall h s0, let '(_, s') := next_of rows h s0 in position s0 g <= position s' g).
      { intros h s1. pose proof (next_of_log h s1) as P. destruct (next_of rows h s1) as [[v|] s'].
        - destruct P as (_ & _ & P3 & P4 & _). destruct (Nat.eq_dec g h) as [->|Hne]; [lia|]. rewrite P4; auto.
        - destruct P as [-> _]. auto. }
      destruct o0 as [|h|]; cbn [do_step].
      - now rewrite new_position.
      - specialize (Hof h s0). destruct (next_of rows h s0) as [[v|] s']; auto.
      - unfold next_current. destruct (current s0) as [h|].
        + specialize (Hof h s0). destruct (next_of rows h s0) as [[v|] s']; auto.
        + pose proof (new_position s0 g) as Hnp. destruct (iter_new s0) as [h s1]. cbn [snd] in Hnp.
          specialize (Hof h s1). destruct (next_of rows h s1) as [[v|] s']; lia. }
    pose proof (Hmono s o) as Hm. pose proof (step_log o s) as Hl.
    destruct (do_step rows o s) as [out s1] eqn:Es. destruct Hl as [Hl _].
    specialize (IH s1 ltac:(lia)). destruct (do_steps rows os s1) as [log s'].
    destruct o as [|h|]; try (cbn [turns] in *; lia).
    destruct (Nat.eqb_spec h g) as [->|Hne]; [|cbn [Nat.add] in *; lia].
    cbn [do_step] in Es. pose proof (next_of_log g s) as P. destruct (next_of rows g s) as [[v|] s2].
    - injection Es as <- <-. destruct P as (P1 & _ & P3 & _). lia.
    - injection Es as <- <-. destruct P as [-> P]. specialize (P Hg). lia.
  Qed.

  Lemma interleaved_complete before after :
    let g := length (made (snd (do_steps rows before new_storage))) in
    length rows <= turns g after ->
    delivered_by g (fst (do_steps rows (before ++ NewIterator :: after) new_storage)) = rows.
  Proof.
    intros g Ht. pose proof (steps_log (before ++ NewIterator :: after) new_storage) as P.
    pose proof (steps_app before (NewIterator :: after) new_storage) as E.
    destruct (do_steps rows before new_storage) as [l1 s1] eqn:E1. cbn [snd] in g.
    cbn [do_steps do_step] in E.
    pose proof (turns_move g after (snd (iter_new s1)) ltac:(unfold g; cbn; rewrite app_length; cbn; lia)) as Q.
    destruct (do_steps rows after (snd (iter_new s1))) as [l2 s2].
    rewrite E in *. cbn [fst] in *. destruct P as [_ P]. specialize (P g).
    rewrite (skipn_all2 (n := position s2 g)) in P by lia. rewrite app_nil_r in P. rewrite <- P.
    unfold position. cbn. now destruct g.
  Qed.
End I.

Lemma loop_again rows : rows <> [] ->
  fst (do_uses rows [ForLoop; ForLoop] new_storage) <> [rows; rows] /\
  fst (do_uses rows [Collect; ForLoop] new_storage) <> [rows; rows].
Proof. intro H. rewrite !uses_of_a_new_set. cbn [deliveries]. split; intro E; injection E as E; auto. Qed.
