(** Lemmas about blob selection. *)
From Coq Require Import Sorted Permutation.
From Verif.Base Require Import Py PyFacts.
From Verif.Model Require Import Frames.
From Verif.Spec Require Import Frames.

Definition parts_of root e : list str := split slash root ++ local_parts e.

Lemma local_parts_ne e : local_parts e <> [].
Proof. unfold local_parts. destruct (e_by e) as [[]|], (e_frame e); discriminate. Qed.

Lemma name_join root e : name_in root e = join [slash] (parts_of root e).
Proof.
  unfold name_in, parts_of. rewrite join_app.
  - rewrite join_split. reflexivity.
  - apply split_nonempty.
  - apply local_parts_ne.
Qed.

(** [find] on the reversed sorted list gives the greatest *)
Lemma frame_loop_find blobs a st :
  frame_loop blobs a st =
  find (fun f => is_complete f blobs && negb (is_invalid f blobs)) (a :: st).
Proof.
  revert a; induction st as [|b st IH]; intros a; cbn -[is_complete is_invalid].
  - destruct (is_complete a blobs), (is_invalid a blobs); reflexivity.
  - destruct (is_complete a blobs), (is_invalid a blobs); cbn -[is_complete is_invalid]; auto;
    rewrite IH; reflexivity.
Qed.

Lemma find_rev_sorted f l x : StronglySorted (fun a b => str_leb a b = true) l ->
  find f (rev l) = Some x -> In x l /\ f x = true /\ forall y, In y l -> f y = true -> str_leb y x = true.
Proof.
  induction 1 as [|a l Hs IH Ha]; simpl; [discriminate|].
  rewrite find_app. destruct (find f (rev l)) as [z|] eqn:E.
  - intros [= ->]. destruct (IH eq_refl) as (Hi & Hf & Hm). split; [auto|]. split; [auto|].
    intros y [<-|Hy] Hfy; auto. rewrite Forall_forall in Ha. auto.
  - simpl. destruct (f a) eqn:Ef; [|discriminate]. intros [= <-]. split; [auto|]. split; [auto|].
    intros y [<-|Hy] Hfy; [apply str_leb_refl|].
    rewrite in_rev in Hy. pose proof (find_none _ _ E y Hy). congruence.
Qed.

Lemma find_rev_none {A} (f : A -> bool) l : find f (rev l) = None -> forall y, In y l -> f y = false.
Proof. intros H y Hy. apply (find_none _ _ H). now apply -> in_rev. Qed.

Section Tidy.
  Variable root : str.
  Variable present : entry -> Prop.
  Hypothesis T : tidy root present.

  Ltac noslash := simpl; intuition discriminate.

  Lemma parts_noslash e : present e -> forall w, In w (parts_of root e) -> ~ In slash w.
  Proof.
    intros He w Hw. unfold parts_of in Hw. apply in_app_iff in Hw. destruct Hw as [Hw|Hw].
    - eapply split_no_sep; eauto.
    - unfold local_parts in Hw. rewrite !in_app_iff in Hw. destruct Hw as [Hw|[Hw|Hw]].
      + destruct (e_by e) as [[b f]|] eqn:E; [|destruct Hw].
        destruct (t_by _ _ T e b f He E) as (H1 & _ & _ & H2 & _).
        simpl in Hw. destruct Hw as [<-|[<-|[]]]; assumption.
      + destruct (e_frame e) as [f|] eqn:E; [|destruct Hw].
        destruct (t_frame _ _ T e f He E) as (H1 & _).
        simpl in Hw. destruct Hw as [<-|[]]; assumption.
      + simpl in Hw. destruct Hw as [<-|[]]. apply (t_file _ _ T e He).
  Qed.

  Lemma parts_ne e : parts_of root e <> [].
  Proof.
    unfold parts_of. intros H. apply app_eq_nil in H. destruct H as [_ H]. exact (local_parts_ne e H).
  Qed.

  Lemma split_name e : present e -> split slash (name_in root e) = parts_of root e.
  Proof.
    intros He. rewrite name_join. apply split_join; [apply parts_ne|apply parts_noslash; auto].
  Qed.

  (** what a component can be *)
  Definition is_root c := In c (split slash root).
  Lemma in_parts e w : In w (parts_of root e) <->
    is_root w \/ (exists b f, e_by e = Some (b, f) /\ (w = b \/ w = f)) \/
    e_frame e = Some w \/ w = e_file e.
  Proof.
    unfold parts_of, local_parts, is_root. rewrite !in_app_iff.
    destruct (e_by e) as [[b f]|], (e_frame e) as [g|]; simpl; split; intros H;
      repeat match goal with
             | H : _ \/ _ |- _ => destruct H
             | H : exists _, _ |- _ => destruct H
             | H : _ /\ _ |- _ => destruct H
             | H : False |- _ => destruct H
             | H : Some _ = Some _ |- _ => injection H as <-; try subst
             | H : Some _ = None |- _ => discriminate
             | H : None = Some _ |- _ => discriminate
             end; subst; eauto 10.
  Qed.

  Lemma startswith_contains p s : startswith p s = true -> contains p s = true.
  Proof. intros H. destruct s; simpl; [|rewrite H]; auto. destruct p; simpl in *; congruence. Qed.

  Lemma startswith_trans p q s : startswith p q = true -> startswith q s = true -> startswith p s = true.
  Proof. rewrite !startswith_iff. intros [a ->] [b ->]. rewrite <- app_assoc. eauto. Qed.

  (** components containing as_at_ are frames *)
  Lemma as_at_part e w : present e -> In w (parts_of root e) -> contains $"as_at_" w = true ->
    e_frame e = Some w.
  Proof.
    intros He Hw Hc. apply in_parts in Hw. destruct Hw as [Hw|[(b & f & E & Hw)|[Hw|Hw]]]; auto.
    - destruct (t_root _ _ T w Hw) as (_ & H & _). congruence.
    - destruct (t_by _ _ T e b f He E) as (_ & _ & H1 & _ & _ & H2 & _). destruct Hw; subst; congruence.
    - subst w. destruct (t_file _ _ T e He) as (_ & _ & H & _). congruence.
  Qed.

  (** components starting with by_ are partitionings *)
  Lemma by_part e w : present e -> In w (parts_of root e) -> startswith $"by_" w = true ->
    exists f, e_by e = Some (w, f).
  Proof.
    intros He Hw Hc. apply in_parts in Hw. destruct Hw as [Hw|[(b & f & E & Hw)|[Hw|Hw]]].
    - destruct (t_root _ _ T w Hw) as ([H _] & _). congruence.
    - destruct (t_by _ _ T e b f He E) as (_ & _ & _ & _ & [H _] & _).
      destruct Hw; subst; eauto. congruence.
    - destruct (t_frame _ _ T e w He Hw) as (_ & _ & [H _]). congruence.
    - subst w. destruct (t_file _ _ T e He) as (_ & H & _). congruence.
  Qed.

  Lemma contains_as_at e : present e ->
    contains $"as_at_" (name_in root e) = true <-> e_frame e <> None.
  Proof.
    intros He. rewrite name_join.
    rewrite contains_join_in; [|noslash|apply parts_ne|apply parts_noslash; auto]. split.
    - intros (w & Hw & Hc). rewrite (as_at_part e w He Hw Hc). discriminate.
    - destruct (e_frame e) as [f|] eqn:E; [|congruence]. intros _. exists f. split.
      + apply in_parts. auto.
      + apply startswith_contains. apply (t_frame _ _ T e f He E).
  Qed.

  Lemma first_starting_find p l : first_starting p l = find (startswith p) l.
  Proof. induction l; simpl; auto. destruct (startswith p a); auto. Qed.

  Lemma extract_as_at_name e f : present e -> e_frame e = Some f ->
    extract_as_at (name_in root e) = f.
  Proof.
    intros He E. unfold extract_as_at. rewrite split_name, first_starting_find by auto.
    destruct (find (startswith $"as_at_") (parts_of root e)) as [w|] eqn:F.
    - apply find_some in F. destruct F as [Hw Hs].
      apply startswith_contains in Hs. pose proof (as_at_part e w He Hw Hs). congruence.
    - exfalso. assert (In f (parts_of root e)) by (apply in_parts; auto).
      pose proof (find_none _ _ F f H). destruct (t_frame _ _ T e f He E) as (_ & H1 & _). congruence.
  Qed.

  Lemma contains_by e : present e ->
    contains $"/by_" (name_in root e) = true <-> e_by e <> None.
  Proof.
    intros He. rewrite name_join.
    change ($"/by_") with (join [slash] ([] :: [] ++ [$"by_"])).
    rewrite contains_join; [|intros w [<-|[<-|[]]]; noslash|apply parts_ne|apply parts_noslash; auto].
    split.
    - intros (pre & x & y & post & E).
      destruct (by_part e ($"by_" ++ y) He) as [f Hf].
      + rewrite E. rewrite app_nil_l. apply in_app_iff. right. right. left. reflexivity.
      + apply startswith_app.
      + congruence.
    - destruct (e_by e) as [[b f]|] eqn:E; [|congruence]. intros _.
      destruct (t_by _ _ T e b f He E) as (_ & Hb & _).
      apply startswith_iff in Hb. destruct Hb as [y ->].
      unfold parts_of, local_parts. rewrite E.
      destruct (exists_last (split_nonempty slash root)) as (pre & x & ->).
      exists pre, x, y. eexists. rewrite <- app_assoc, app_nil_r. simpl. reflexivity.
  Qed.

  Lemma extract_by_name e b f : present e -> e_by e = Some (b, f) ->
    extract_by (name_in root e) = Some b.
  Proof.
    intros He E. unfold extract_by. rewrite split_name, first_starting_find by auto.
    destruct (find (startswith $"by_") (parts_of root e)) as [w|] eqn:F.
    - apply find_some in F. destruct F as [Hw Hs].
      destruct (by_part e w He Hw Hs) as [f' H']. congruence.
    - exfalso. assert (In b (parts_of root e)) by (apply in_parts; eauto 10).
      pose proof (find_none _ _ F b H). destruct (t_by _ _ T e b f He E) as (_ & H1 & _). congruence.
  Qed.

  Lemma join3 b : $"/" ++ b ++ $"/" = join [slash] ([] :: [b] ++ [[]]).
  Proof. reflexivity. Qed.

  Lemma contains_chosen e b e0 f0 : present e -> present e0 -> e_by e0 = Some (b, f0) ->
    contains ($"/" ++ b ++ $"/") (name_in root e) = true <-> exists f, e_by e = Some (b, f).
  Proof.
    intros He He0 E0. rewrite name_join, join3.
    destruct (t_by _ _ T e0 b f0 He0 E0) as (Hok & Hb & _).
    rewrite contains_join; [|intros w [<-|[<-|[<-|[]]]]; try noslash; exact Hok
                             |apply parts_ne|apply parts_noslash; auto].
    split.
    - intros (pre & x & y & post & E).
      apply (by_part e b He); auto.
      rewrite E. apply in_app_iff. right. right. left. reflexivity.
    - intros [f E].
      unfold parts_of, local_parts. rewrite E.
      destruct (exists_last (split_nonempty slash root)) as (pre & x & ->).
      exists pre, x, f. eexists. rewrite <- app_assoc, app_nil_r. simpl. reflexivity.
  Qed.

  Lemma safe_get_next_skip l r b : ~ In b l -> safe_get_next (l ++ r) b = safe_get_next r b.
  Proof.
    induction l as [|x l IH]; simpl; intros H; auto.
    destruct (str_eqb_reflect x b); [exfalso; auto|]. auto.
  Qed.

  Lemma next_name e b f : present e -> e_by e = Some (b, f) ->
    safe_get_next (split slash (name_in root e)) b = Some f.
  Proof.
    intros He E. rewrite split_name by auto. unfold parts_of, local_parts. rewrite E.
    rewrite safe_get_next_skip.
    - simpl. rewrite str_eqb_refl. reflexivity.
    - intros Hi. destruct (t_root _ _ T b Hi) as ([H _] & _).
      destruct (t_by _ _ T e b f He E) as (_ & Hb & _). congruence.
  Qed.

  (** adjacency of the parts *)
  Lemma endswith_suffix x a : endswith a (x ++ a) = true.
  Proof. apply endswith_iff. eauto. Qed.

  Lemma contains_folder e b f f' : no_prefixes present ->
    forall e0, present e0 -> e_by e0 = Some (b, f) -> present e -> e_by e = Some (b, f') ->
    contains (b ++ $"/" ++ f) (name_in root e) = true <-> f' = f.
  Proof.
    intros NP e0 He0 E0 He E. rewrite name_join.
    destruct (t_by _ _ T e0 b f He0 E0) as (Hok & Hb & Hba & Hokf & Hnf & _).
    change (b ++ $"/" ++ f) with (join [slash] (b :: [] ++ [f])).
    rewrite contains_join; [|intros w [<-|[<-|[]]]; assumption
                             |apply parts_ne|apply parts_noslash; auto].
    split.
    - intros (pre & x & y & post & Ep). rewrite app_nil_l in Ep.
      (* the component ending in b is the partitioning *)
      assert (Hin: In (x ++ b) (parts_of root e)).
      { rewrite Ep. apply in_app_iff. right. left. reflexivity. }
      assert (Hx: x ++ b = b \/ x ++ b = e_file e).
      { apply in_parts in Hin. destruct Hin as [Hw|[(b' & g & E' & Hw)|[Hw|Hw]]]; auto.
        - destruct (t_root _ _ T _ Hw) as ([_ H] & _). specialize (H e b f' He E).
          rewrite endswith_suffix in H. discriminate.
        - rewrite E in E'. injection E' as <- <-. destruct Hw as [Hw|Hw]; auto.
          destruct (t_by _ _ T e b f' He E) as (_ & _ & _ & _ & [_ H] & _).
          specialize (H e b f' He E). rewrite <- Hw, endswith_suffix in H. discriminate.
        - destruct (t_frame _ _ T e _ He Hw) as (_ & _ & [_ H]). specialize (H e b f' He E).
          rewrite endswith_suffix in H. discriminate. }
      (* its position is unique *)
      assert (Hroot: ~ In b (split slash root)).
      { intros Hi. destruct (t_root _ _ T b Hi) as ([H _] & _). congruence. }
      assert (Hpos: forall P, parts_of root e = split slash root ++ b :: f' :: P ->
                pre = split slash root -> f' = f).
      { intros P HP Hpre. rewrite Ep in HP. rewrite Hpre in HP. apply app_inv_head in HP.
        injection HP as _ Hf _. symmetry. apply (NP e0 e b f f'); auto. rewrite <- Hf. apply startswith_app. }
      unfold parts_of, local_parts in Ep, Hpos. rewrite E in Ep, Hpos.
      assert (Hcase: pre = split slash root).
      { (* x++b occurs at position |pre|; b occurs only at |root| *)
        assert (Hlast: forall l (z : str) p q r s, l ++ [z] = p ++ q :: r :: s -> In q l).
        { clear. intros l z p q r s H.
          destruct (exists_last (l := r :: s)) as (s' & z' & Es); [discriminate|].
          rewrite Es in H. change (p ++ q :: s' ++ [z']) with (p ++ (q :: s') ++ [z']) in H.
          rewrite app_assoc in H. apply app_inj_tail in H. destruct H as [-> _].
          apply in_app_iff. right. left. reflexivity. }
        assert (Hxb: In (x ++ b) (split slash root ++ [b; f'] ++ match e_frame e with Some g => [g] | None => [] end)).
        { apply (Hlast _ (e_file e) pre (x ++ b) (f ++ y) post). rewrite <- Ep.
          rewrite <- !app_assoc. reflexivity. }
        assert (Hxb': x ++ b = b).
        { rewrite !in_app_iff in Hxb. destruct Hxb as [Hw|[Hw|Hw]].
          - destruct (t_root _ _ T _ Hw) as ([_ H] & _). specialize (H e b f' He E).
            rewrite endswith_suffix in H. discriminate.
          - simpl in Hw. destruct Hw as [Hw|[Hw|[]]]; auto.
            destruct (t_by _ _ T e b f' He E) as (_ & _ & _ & _ & [_ H] & _).
            specialize (H e b f' He E). rewrite Hw, endswith_suffix in H. discriminate.
          - destruct (e_frame e) as [g|] eqn:Eg; [|destruct Hw]. simpl in Hw. destruct Hw as [->|[]].
            destruct (t_frame _ _ T e _ He Eg) as (_ & _ & [_ H]). specialize (H e b f' He E).
            rewrite endswith_suffix in H. discriminate. }
        rewrite Hxb' in Ep.
        (* b occurs once *)
        assert (Huniq: forall p q r s : list str, ~ In b p -> ~ In b q -> p ++ b :: q = r ++ b :: s -> r = p).
        { clear. induction p as [|a p IH]; intros q r s Hp Hq H.
          - destruct r as [|a r]; auto. simpl in H. injection H as -> H.
            exfalso. apply Hq. rewrite H. apply in_app_iff. right. left. reflexivity.
          - destruct r as [|a' r]; simpl in H; injection H as -> H.
            + exfalso. apply Hp. left. reflexivity.
            + f_equal. eapply IH; eauto. intros Hi. apply Hp. right. exact Hi. }
        apply (Huniq (split slash root) (f' :: match e_frame e with Some g => [g] | None => [] end ++ [e_file e]) pre ((f ++ y) :: post)); auto.
        intros Hi. simpl in Hi. rewrite in_app_iff in Hi. destruct Hi as [Hi|[Hi|Hi]].
        - destruct (t_by _ _ T e b f' He E) as (_ & _ & _ & _ & [H _] & _). congruence.
        - destruct (e_frame e) as [g|] eqn:Eg; [|destruct Hi]. simpl in Hi. destruct Hi as [->|[]].
          destruct (t_frame _ _ T e _ He Eg) as (_ & _ & [H _]). congruence.
        - simpl in Hi. destruct Hi as [Hi|[]]. destruct (t_file _ _ T e He) as (_ & H & _). congruence. }
      apply (Hpos (match e_frame e with Some g => [g] | None => [] end ++ [e_file e])); [|exact Hcase].
      reflexivity.
    - intros ->. unfold parts_of, local_parts. rewrite E.
      exists (split slash root), [], []. eexists. simpl. rewrite app_nil_r. reflexivity.
  Qed.

  Lemma contains_slash e : contains $"/" (name_in root e) = true.
  Proof. unfold name_in. apply contains_app_l, contains_app_r. reflexivity. Qed.

  (** frames in names *)
  Lemma contains_frame e f e0 : present e -> present e0 -> e_frame e0 = Some f ->
    contains f (name_in root e) = true <-> e_frame e = Some f.
  Proof.
    intros He He0 E0. destruct (t_frame _ _ T e0 f He0 E0) as (Hok & Has & _).
    rewrite name_join, contains_join_in; [|exact Hok|apply parts_ne|apply parts_noslash; auto].
    split.
    - intros (w & Hw & Hc).
      assert (Hcw: contains $"as_at_" w = true).
      { apply contains_iff in Hc. destruct Hc as (u & v & ->).
        apply contains_app_l, contains_app_r, startswith_contains, Has. }
      pose proof (as_at_part e w He Hw Hcw) as E. rewrite E. f_equal.
      pose proof (t_same_width _ _ T e e0 w f He He0 E E0) as Hl.
      apply contains_iff in Hc. destruct Hc as (u & v & ->). rewrite !app_length in Hl.
      destruct u; [|simpl in Hl; lia]. destruct v; [|simpl in Hl; lia]. now rewrite app_nil_r.
    - intros E. exists f. split; [apply in_parts; auto|apply contains_self].
  Qed.

  Lemma contains_marker e f e0 m : present e -> present e0 -> e_frame e0 = Some f ->
    ~ In slash m -> (startswith m (e_file e) = true -> e_file e = m) ->
    contains (f ++ $"/" ++ m) (name_in root e) = true <-> e_frame e = Some f /\ e_file e = m.
  Proof.
    intros He He0 E0 Hm Hfile. destruct (t_frame _ _ T e0 f He0 E0) as (Hok & Has & _).
    rewrite name_join.
    change (f ++ $"/" ++ m) with (join [slash] (f :: [] ++ [m])).
    rewrite contains_join; [|intros w [<-|[<-|[]]]; assumption
                             |apply parts_ne|apply parts_noslash; auto].
    split.
    - intros (pre & x & y & post & Ep). rewrite app_nil_l in Ep.
      assert (Hin: In (x ++ f) (parts_of root e)).
      { rewrite Ep. apply in_app_iff. right. left. reflexivity. }
      assert (Hc: contains $"as_at_" (x ++ f) = true) by (apply contains_app_l, startswith_contains, Has).
      pose proof (as_at_part e _ He Hin Hc) as E.
      pose proof (t_same_width _ _ T e e0 _ f He He0 E E0) as Hl. rewrite app_length in Hl.
      destruct x; [|simpl in Hl; lia]. simpl in E. split; auto.
      unfold parts_of, local_parts in Ep. rewrite E in Ep.
      (* f is the last but one component *)
      assert (Huniq: forall p q r s : list str, ~ In f p -> ~ In f q -> p ++ f :: q = r ++ f :: s -> q = s).
      { clear. induction p as [|a p IH]; intros q r s Hp Hq H.
        - destruct r as [|a r]; simpl in H; [now injection H|]. injection H as -> H.
          exfalso. apply Hq. rewrite H. apply in_app_iff. right. left. reflexivity.
        - destruct r as [|a' r]; simpl in H; injection H as -> H.
          + exfalso. apply Hp. left. reflexivity.
          + eapply IH; eauto. intros Hi. apply Hp. right. exact Hi. }
      rewrite app_assoc in Ep. simpl app in Ep.
      apply Huniq in Ep.
      + injection Ep as Ef _. apply Hfile. rewrite Ef. apply startswith_app.
      + intros Hi. apply startswith_contains in Has. apply in_app_iff in Hi. destruct Hi as [Hi|Hi].
        * destruct (t_root _ _ T f Hi) as (_ & H & _). congruence.
        * destruct (e_by e) as [[b g]|] eqn:Eb; [|destruct Hi].
          destruct (t_by _ _ T e b g He Eb) as (_ & _ & H1 & _ & _ & H2 & _).
          simpl in Hi. destruct Hi as [<-|[<-|[]]]; congruence.
      + intros [Hi|[]]. apply startswith_contains in Has.
        destruct (t_file _ _ T e He) as (_ & _ & H & _). congruence.
    - intros [E Em]. unfold parts_of, local_parts. rewrite E, Em.
      exists (split slash root ++ match e_by e with Some (b, g) => [b; g] | None => [] end), [], [], [].
      rewrite <- app_assoc. simpl. rewrite app_nil_r. reflexivity.
  Qed.

  Lemma contains_complete e : present e ->
    contains $"/frame.complete" (name_in root e) = true <-> e_file e = $"frame.complete".
  Proof.
    intros He. rewrite name_join.
    change ($"/frame.complete") with (join [slash] ([] :: [] ++ [$"frame.complete"])).
    rewrite contains_join; [|intros w [<-|[<-|[]]]; noslash
                             |apply parts_ne|apply parts_noslash; auto].
    split.
    - intros (pre & x & y & post & Ep). rewrite app_nil_l in Ep.
      assert (Hin: In ($"frame.complete" ++ y) (parts_of root e)).
      { rewrite Ep. apply in_app_iff. right. right. left. reflexivity. }
      apply in_parts in Hin. destruct Hin as [Hw|[(b & g & E & Hw)|[Hw|Hw]]].
      + destruct (t_root _ _ T _ Hw) as (_ & _ & H). rewrite startswith_app in H. discriminate.
      + destruct (t_by _ _ T e b g He E) as (_ & H1 & _ & _ & _ & _ & H2).
        destruct Hw; subst; [discriminate H1|]. rewrite startswith_app in H2. discriminate.
      + destruct (t_frame _ _ T e _ He Hw) as (_ & H & _). discriminate H.
      + destruct (t_file _ _ T e He) as (_ & _ & _ & H & _). apply H. rewrite <- Hw. apply startswith_app.
    - intros E. unfold parts_of.
      destruct (exists_last (l := split slash root ++ (match e_by e with Some (b, g) => [b; g] | None => [] end
               ++ match e_frame e with Some f => [f] | None => [] end))) as (pre & x & Ep).
      { intros H. apply app_eq_nil in H. destruct H as [H _]. exact (split_nonempty _ _ H). }
      exists pre, x, [], []. unfold local_parts. rewrite E.
      rewrite !app_assoc. rewrite !app_assoc in Ep. rewrite Ep. rewrite <- app_assoc.
      rewrite app_nil_r. reflexivity.
  Qed.

  Lemma name_inj e e' : present e -> present e' -> name_in root e = name_in root e' -> e = e'.
  Proof.
    intros He He' H. apply (f_equal (split slash)) in H. rewrite !split_name in H by auto.
    unfold parts_of in H. apply app_inv_head in H.
    destruct e as [by1 fr1 fi1], e' as [by2 fr2 fi2].
    pose proof (t_file _ _ T _ He) as (_ & A1 & A2 & _).
    pose proof (t_file _ _ T _ He') as (_ & B1 & B2 & _).
    unfold local_parts in H. cbn [e_by e_frame e_file] in *.
    assert (Fa: forall f, fr1 = Some f -> startswith $"as_at_" f = true /\ startswith $"by_" f = false).
    { intros f ->. destruct (t_frame _ _ T _ f He eq_refl) as (_ & X & [Y _]). auto. }
    assert (Fb: forall f, fr2 = Some f -> startswith $"as_at_" f = true /\ startswith $"by_" f = false).
    { intros f ->. destruct (t_frame _ _ T _ f He' eq_refl) as (_ & X & [Y _]). auto. }
    assert (Ba: forall b f, by1 = Some (b, f) -> startswith $"by_" b = true).
    { intros b f ->. destruct (t_by _ _ T _ b f He eq_refl) as (_ & X & _). auto. }
    assert (Bb: forall b f, by2 = Some (b, f) -> startswith $"by_" b = true).
    { intros b f ->. destruct (t_by _ _ T _ b f He' eq_refl) as (_ & X & _). auto. }
    assert (S1: startswith $"as_at_" fi1 = false).
    { destruct (startswith $"as_at_" fi1) eqn:E; auto. apply startswith_contains in E. congruence. }
    assert (S2: startswith $"as_at_" fi2 = false).
    { destruct (startswith $"as_at_" fi2) eqn:E; auto. apply startswith_contains in E. congruence. }
    destruct by1 as [[b1 f1]|], by2 as [[b2 f2]|], fr1 as [g1|], fr2 as [g2|]; simpl in H;
      try (injection H; intros; subst);
      repeat match goal with
        | F : forall f, Some _ = Some f -> _ |- _ => specialize (F _ eq_refl)
        | F : forall b f, Some _ = Some (b, f) -> _ |- _ => specialize (F _ _ eq_refl)
        | H : _ /\ _ |- _ => destruct H
      end; try reflexivity; try congruence; try discriminate.
  Qed.

  (** *** one group of entries *)
  Definition goodb (blobs : list str) (f : str) := is_complete f blobs && negb (is_invalid f blobs).

  Lemma is_complete_iff G k f e0 : (forall e, In e G <-> present e /\ e_by e = k) ->
    In e0 G -> e_frame e0 = Some f ->
    (is_complete f (map (name_in root) G) = true <-> has_file present k f $"frame.complete") /\
    (is_invalid f (map (name_in root) G) = true <-> has_file present k f $"frame.ignore").
  Proof.
    intros HG H0 E0. unfold is_complete, is_invalid, has_file.
    assert (P0: present e0) by (apply HG; auto).
    split; rewrite existsb_exists; split.
    - intros (n & Hn & Hc). apply in_map_iff in Hn. destruct Hn as (e & <- & He).
      pose proof (proj1 (HG e) He) as [Pe Ek].
      apply (contains_marker e f e0 $"frame.complete") in Hc; auto.
      + destruct Hc as [Ef Em]. destruct e; simpl in *; subst; exact Pe.
      + simpl; intuition discriminate.
      + apply (t_file _ _ T e Pe).
    - intros Pe. eexists. split; [apply in_map, HG; split; [exact Pe|reflexivity]|].
      apply (contains_marker _ f e0 $"frame.complete"); auto; simpl; intuition discriminate.
    - intros (n & Hn & Hc). apply in_map_iff in Hn. destruct Hn as (e & <- & He).
      pose proof (proj1 (HG e) He) as [Pe Ek].
      apply (contains_marker e f e0 $"frame.ignore") in Hc; auto.
      + destruct Hc as [Ef Em]. destruct e; simpl in *; subst; exact Pe.
      + simpl; intuition discriminate.
      + apply (t_file _ _ T e Pe).
    - intros Pe. eexists. split; [apply in_map, HG; split; [exact Pe|reflexivity]|].
      apply (contains_marker _ f e0 $"frame.ignore"); auto; simpl; intuition discriminate.
  Qed.

  Definition as_ats_of (blobs : list str) :=
    dedup str_eqb (map extract_as_at (filter (contains $"as_at_") blobs)).

  Lemma as_ats_In G : (forall e, In e G -> present e) ->
    forall f, In f (as_ats_of (map (name_in root) G)) <-> exists e, In e G /\ e_frame e = Some f.
  Proof.
    intros HG f. unfold as_ats_of. rewrite (dedup_In str_eqb str_eqb_eq). rewrite in_map_iff. split.
    - intros (n & En & Hn). apply filter_In in Hn. destruct Hn as [Hn Hc].
      apply in_map_iff in Hn. destruct Hn as (e & <- & He). exists e. split; auto.
      apply contains_as_at in Hc; auto. destruct (e_frame e) as [g|] eqn:E; [|congruence].
      rewrite (extract_as_at_name e g) in En by auto. congruence.
    - intros (e & He & E). exists (name_in root e). split; [apply extract_as_at_name; auto|].
      apply filter_In. split; [apply in_map; auto|]. apply contains_as_at; auto. congruence.
  Qed.

  Definition wanted k e : Prop :=
    has_frames present k ->
    exists f, e_frame e = Some f /\ newest_good_frame present k f /\ e_file e <> $"frame.complete".

  Lemma select_group G k : (forall e, In e G <-> present e /\ e_by e = k) ->
    exists h, select_frame (map (name_in root) G) = map (name_in root) (filter h G) /\
      forall e, In e G -> (h e = true <-> wanted k e).
  Proof.
    intros HG. assert (HGp: forall e, In e G -> present e) by (intros e He; apply HG; auto).
    pose proof (as_ats_In G HGp) as HA.
    unfold select_frame. fold (as_ats_of (map (name_in root) G)).
    pose proof (sorted_str_sorted (as_ats_of (map (name_in root) G))) as Hs.
    assert (HA': forall f, In f (sorted_str (as_ats_of (map (name_in root) G))) <-> exists e, In e G /\ e_frame e = Some f).
    { intros f. rewrite sorted_str_In. apply HA. }
    set (L := sorted_str (as_ats_of (map (name_in root) G))) in *. clearbody L. clear HA.
    assert (Hgood: forall f, In f L -> (goodb (map (name_in root) G) f = true <-> good_frame present k f)).
    { intros f Hf. apply HA' in Hf. destruct Hf as (e0 & H0 & E0).
      destruct (is_complete_iff G k f e0 HG H0 E0) as [C1 C2].
      unfold goodb, good_frame. rewrite andb_true_iff, negb_true_iff, C1.
      split; intros [A B]; split; auto.
      - intros X. apply C2 in X. congruence.
      - destruct (is_invalid f (map (name_in root) G)); auto. exfalso. apply B, C2. reflexivity. }
    assert (HgoodL: forall f, good_frame present k f -> In f L).
    { intros f [Hc _]. apply HA'. eexists. split; [apply HG; split; [exact Hc|reflexivity]|reflexivity]. }
    destruct (rev L) as [|a st] eqn:EL.
    - assert (L = []) as -> by (rewrite <- (rev_involutive L), EL; reflexivity).
      exists (fun _ => true). split; [now rewrite filter_all|].
      intros e He. split; auto. intros _ (e' & f & Pe & Ek & Ef).
      exfalso. apply (HA' f). exists e'. split; auto. apply HG. auto.
    - rewrite frame_loop_find. rewrite <- EL.
      change (fun f => is_complete f (map (name_in root) G) && negb (is_invalid f (map (name_in root) G)))
        with (goodb (map (name_in root) G)).
      assert (Hhas: has_frames present k).
      { assert (Ha: In a L) by (rewrite in_rev, EL; left; auto).
        apply HA' in Ha. destruct Ha as (e & He & Ef). exists e, a. apply HG in He. tauto. }
      destruct (find (goodb (map (name_in root) G)) (rev L)) as [f|] eqn:Ef.
      + destruct (find_rev_sorted _ _ _ Hs Ef) as (Hin & Hg & Hmax).
        pose proof (proj1 (HA' f) Hin) as (e0 & H0 & E0).
        assert (Hnew: newest_good_frame present k f).
        { split; [apply Hgood; auto|]. intros f' Hf'. apply Hmax; auto. apply Hgood; auto. }
        exists (fun e => contains f (name_in root e) && negb (contains $"/frame.complete" (name_in root e))).
        split.
        * clear. induction G as [|e G IH]; cbn [map filter]; auto.
          rewrite IH. destruct (contains f (name_in root e) && _); reflexivity.
        * intros e He. rewrite andb_true_iff, negb_true_iff.
          rewrite (contains_frame e f e0); auto.
          pose proof (contains_complete e (HGp _ He)) as Hcc.
          split.
          -- intros [A B] _. exists f. split; [auto|]. split; [auto|].
             intros X. apply Hcc in X. congruence.
          -- intros W. destruct (W Hhas) as (f' & Ef' & Hn' & Hnc).
             assert (f' = f).
             { apply str_leb_antisym; [apply Hnew, Hn'|apply Hn', Hnew]. }
             subst f'. split; auto.
             destruct (contains $"/frame.complete" (name_in root e)) eqn:X; auto.
             exfalso. apply Hnc, Hcc. reflexivity.
      + exists (fun _ => false). split; [rewrite filter_nil; auto|].
        intros e He. split; [discriminate|]. intros W. destruct (W Hhas) as (f & _ & [Hg _] & _).
        pose proof (find_rev_none _ _ Ef f (HgoodL f Hg)) as X.
        pose proof (proj2 (Hgood f (HgoodL f Hg)) Hg). congruence.
  Qed.

  (** *** one dated folder, no search hint *)
  Variable es : list entry.
  Hypothesis Hes : forall e, In e es <-> present e.

  Lemma filter_map_name (p : str -> bool) l :
    filter p (map (name_in root) l) = map (name_in root) (filter (fun e => p (name_in root e)) l).
  Proof. clear. induction l as [|e l IH]; cbn [map filter]; auto. rewrite IH. destruct (p _); reflexivity. Qed.

  Lemma partitions_In b : In b (partitions_of (map (name_in root) es)) <->
    exists e f, present e /\ e_by e = Some (b, f).
  Proof.
    unfold partitions_of. rewrite (dedup_In str_eqb str_eqb_eq), in_flat_map. split.
    - intros (n & Hn & Hb). apply filter_In in Hn. destruct Hn as [Hn Hc].
      apply in_map_iff in Hn. destruct Hn as (e & <- & He). apply Hes in He.
      apply contains_by in Hc; auto. destruct (e_by e) as [[b' f]|] eqn:E; [|congruence].
      rewrite (extract_by_name e b' f) in Hb by auto. destruct Hb as [<-|[]]. eauto.
    - intros (e & f & He & E). exists (name_in root e). split.
      + apply filter_In. split; [apply in_map, Hes; auto|]. apply contains_by; auto. congruence.
      + rewrite (extract_by_name e b f) by auto. left. reflexivity.
  Qed.

  Lemma served_In_names k h G : (forall e, In e G <-> present e /\ e_by e = k) ->
    readable_part present k -> (forall e, In e G -> (h e = true <-> wanted k e)) ->
    forall b, In b (map (name_in root) (filter h G)) <->
      exists e, served present e /\ e_by e = k /\ b = name_in root e.
  Proof.
    intros HG Hr Hh b. rewrite in_map_iff. split.
    - intros (e & <- & He). apply filter_In in He. destruct He as [He Hb].
      apply Hh in Hb; auto. apply HG in He. destruct He as [Pe <-]. exists e. unfold served. auto.
    - intros (e & (Pe & _ & W) & Ek & ->). exists e. split; auto. subst k.
      assert (He: In e G) by (apply HG; auto).
      apply filter_In. split; auto. apply Hh; auto.
  Qed.

  Lemma read_folder_spec : NoDup es -> no_prefixes present ->
    let '(chosen, cb) := choose_partition (map (name_in root) es) (partitions_of (map (name_in root) es)) in
    NoDup (read_folders chosen cb) /\
    forall b, In b (read_folders chosen cb) <-> exists e, served present e /\ b = name_in root e.
  Proof.
    intros Hnd NP. unfold choose_partition.
    pose proof partitions_In as HP.
    pose proof (sorted_str_sorted (partitions_of (map (name_in root) es))) as Hs.
    pose proof (fun b => sorted_str_In b (partitions_of (map (name_in root) es))) as HI.
    set (L := sorted_str (partitions_of (map (name_in root) es))) in *. clearbody L.
    assert (HL: forall b, In b L <-> exists e f, present e /\ e_by e = Some (b, f)) by (intros b; rewrite HI; apply HP).
    clear HI HP.
    assert (Hndn: NoDup (map (name_in root) es)).
    { apply NoDup_map_inj; auto. intros x y Hx Hy. apply name_inj; apply Hes; auto. }
    assert (Hpart: forall e b f, present e -> e_by e = Some (b, f) ->
               forall e', present e' -> e_by e' = e_by e -> e_by e' = Some (b, f)) by congruence.
    destruct (rev L) as [|chosen rest] eqn:EL.
    - assert (L = []) as -> by (rewrite <- (rev_involutive L), EL; reflexivity).
      assert (Hnone: forall e, present e -> e_by e = None).
      { intros e He. destruct (e_by e) as [[b f]|] eqn:E; auto. exfalso. apply (HL b). eauto. }
      unfold read_folders. simpl partitioned_folders. cbn [flat_map].
      change ([] ++ $"/" ++ []) with ($"/"). rewrite app_nil_r.
      rewrite (filter_all (contains $"/")).
      2:{ intros x Hx. apply in_map_iff in Hx. destruct Hx as (e & <- & _). apply contains_slash. }
      destruct (select_group es None) as (h & Eh & Hh).
      { intros e. rewrite Hes. split; [|tauto]. intros He. split; auto. }
      rewrite Eh. split.
      + apply NoDup_map_inj; [|apply NoDup_filter; auto].
        intros x y Hx Hy. apply filter_In in Hx, Hy. apply name_inj; apply Hes; tauto.
      + intros b. rewrite (served_In_names None h es).
        * split; intros (e & H); exists e; [tauto|]. destruct H as [H ->]. split; auto. split; auto.
          apply Hnone. apply H.
        * intros e. rewrite Hes. split; [|tauto]. intros He. split; auto.
        * exact Hnone.
        * exact Hh.
    - assert (Hc: In chosen L) by (rewrite in_rev, EL; left; auto).
      pose proof (proj1 (HL chosen) Hc) as (e0 & f0 & He0 & E0).
      assert (Hmax: forall b, In b L -> str_leb b chosen = true).
      { assert (Fnd: find (fun _ : str => true) (rev L) = Some chosen) by (rewrite EL; reflexivity).
        destruct (find_rev_sorted _ _ _ Hs Fnd) as (_ & _ & Hm). auto. }
      (* the blobs of the chosen partitioning *)
      set (ES := filter (fun e => contains ($"/" ++ chosen ++ $"/") (name_in root e)) es).
      rewrite filter_map_name. fold ES.
      assert (HES: forall e, In e ES <-> present e /\ exists f, e_by e = Some (chosen, f)).
      { intros e. unfold ES. rewrite filter_In, Hes. split; intros [Pe H]; split; auto.
        - apply (contains_chosen e chosen e0 f0); auto.
        - apply (contains_chosen e chosen e0 f0); auto. }
      assert (HndES: NoDup ES) by (apply NoDup_filter; auto).
      assert (Hfold: forall f, In f (partitioned_folders chosen (map (name_in root) ES)) <->
                exists e, present e /\ e_by e = Some (chosen, f)).
      { intros f. unfold partitioned_folders.
        destruct chosen as [|c0 c1] eqn:Ec.
        { destruct (t_by _ _ T _ _ _ He0 E0) as (_ & X & _). discriminate X. }
        rewrite <- Ec in *. rewrite (dedup_In str_eqb str_eqb_eq), map_map, in_map_iff. split.
        - intros (e & Ef & He). apply HES in He. destruct He as [Pe [g Eg]].
          rewrite (next_name e chosen g) in Ef by auto. simpl in Ef. subst g. eauto.
        - intros (e & Pe & E). exists e. split; [rewrite (next_name e chosen f) by auto; reflexivity|].
          apply HES. eauto. }
      assert (Hgrp: forall f, In f (partitioned_folders chosen (map (name_in root) ES)) ->
        exists G h, select_frame (filter (contains (chosen ++ $"/" ++ f)) (map (name_in root) ES))
                    = map (name_in root) (filter h G) /\ NoDup G /\
          (forall e, In e G <-> present e /\ e_by e = Some (chosen, f)) /\
          (forall e, In e G -> (h e = true <-> wanted (Some (chosen, f)) e))).
      { intros f Hf. apply Hfold in Hf. destruct Hf as (e1 & P1 & E1).
        rewrite filter_map_name.
        set (G := filter (fun e => contains (chosen ++ $"/" ++ f) (name_in root e)) ES).
        assert (HG: forall e, In e G <-> present e /\ e_by e = Some (chosen, f)).
        { intros e. unfold G. rewrite filter_In, HES. split.
          - intros [[Pe [g Eg]] Hc']. split; auto.
            apply (contains_folder e chosen f g NP e1) in Hc'; auto. congruence.
          - intros [Pe E]. split; [eauto|]. apply (contains_folder e chosen f f NP e1); auto. }
        destruct (select_group G (Some (chosen, f)) HG) as (h & Eh & Hh).
        exists G, h. split; [exact Eh|]. split; [apply NoDup_filter; auto|]. auto. }
      assert (Hread: forall f, readable_part present (Some (chosen, f))).
      { intros f e b' f' Pe E. apply Hmax, HL. eauto. }
      unfold read_folders. split.
      + apply NoDup_flat_map.
        * unfold partitioned_folders. destruct chosen; [repeat constructor; simpl; tauto|].
          apply (dedup_NoDup str_eqb str_eqb_eq).
        * intros f Hf. destruct (Hgrp f Hf) as (G & h & -> & Hn & HG & _).
          apply NoDup_map_inj; [|apply NoDup_filter; auto].
          intros x y Hx Hy. apply filter_In in Hx, Hy. apply name_inj; apply HG; tauto.
        * intros f f' b Hf Hf' Hb Hb'.
          destruct (Hgrp f Hf) as (G & h & Eg & Hn & HG & _). rewrite Eg in Hb.
          destruct (Hgrp f' Hf') as (G' & h' & Eg' & Hn' & HG' & _). rewrite Eg' in Hb'.
          apply in_map_iff in Hb, Hb'. destruct Hb as (e & Ee & He), Hb' as (e' & Ee' & He').
          apply filter_In in He, He'. destruct He as [He _], He' as [He' _].
          apply HG in He. apply HG' in He'.
          assert (e = e') by (apply name_inj; [tauto|tauto|congruence]). subst e'.
          destruct He as [_ A], He' as [_ B]. congruence.
      + intros b. rewrite in_flat_map. split.
        * intros (f & Hf & Hb). destruct (Hgrp f Hf) as (G & h & Eg & Hn & HG & Hh). rewrite Eg in Hb.
          apply (served_In_names (Some (chosen, f)) h G HG (Hread f) Hh) in Hb.
          destruct Hb as (e & He & _ & ->). eauto.
        * intros (e & He & ->). pose proof He as (Pe & Hr & _).
          assert (Ek: exists f, e_by e = Some (chosen, f)).
          { destruct (e_by e) as [[b' f']|] eqn:E.
            - simpl in Hr. exists f'. f_equal. f_equal. apply str_leb_antisym.
              + apply Hmax, HL. eauto.
              + exact (Hr e0 chosen f0 He0 E0).
            - simpl in Hr. specialize (Hr e0 He0). congruence. }
          destruct Ek as [f Ek]. exists f.
          assert (Hf: In f (partitioned_folders chosen (map (name_in root) ES))) by (apply Hfold; eauto).
          split; auto. destruct (Hgrp f Hf) as (G & h & Eg & Hn & HG & Hh). rewrite Eg.
          apply (served_In_names (Some (chosen, f)) h G HG (Hread f) Hh). eauto.
  Qed.
End Tidy.

Lemma tidy_mono root (P Q : entry -> Prop) : (forall e, Q e -> P e) -> tidy root P -> tidy root Q.
Proof.
  intros HQ T.
  assert (NB: forall c, not_a_by P c -> not_a_by Q c).
  { intros c [A B]. split; auto. intros e b f Qe. apply (B e b f). auto. }
  constructor.
  - intros c Hc. destruct (t_root _ _ T c Hc) as (A & B). auto.
  - intros e b f Qe E. destruct (t_by _ _ T e b f (HQ _ Qe) E) as (A & B & C & D & F & G). auto 8.
  - intros e f Qe E. destruct (t_frame _ _ T e f (HQ _ Qe) E) as (A & B & C). auto.
  - intros e e' f f' Qe Qe'. apply (t_same_width _ _ T); auto.
  - intros e Qe. apply (t_file _ _ T). auto.
Qed.

Definition live_b root e := negb (contains $"BACKOUT" (name_in root e)).
Lemma live_iff root es e : In e (filter (live_b root) es) <-> live root es e.
Proof. unfold live, live_b. rewrite filter_In, negb_true_iff. tauto. Qed.

Lemma cycle_folder root es : NoDup es -> tidy root (live root es) -> no_prefixes (live root es) ->
  exists l, cycle_blobs_of None (map (name_in root) es) = Ok l /\ NoDup l /\
    forall b, In b l <-> exists e, served (live root es) e /\ b = name_in root e.
Proof.
  intros Hnd T NP. unfold cycle_blobs_of, apply_partition_filter. simpl bind.
  rewrite (filter_map_name root). fold (live_b root).
  pose proof (read_folder_spec root (live root es) T (filter (live_b root) es) (live_iff root es)
               (NoDup_filter _ Hnd) NP) as H.
  destruct (choose_partition _ _) as [chosen cb]. destruct H as [H1 H2]. eauto.
Qed.

Lemma folder_selection root es : NoDup es -> tidy root (live root es) -> no_prefixes (live root es) ->
  exists out, get_list_of_blobs None (fun _ => map (name_in root) es) [root] = Ok out /\
    lists_exactly root (live root es) out.
Proof.
  intros Hnd T NP. destruct (cycle_folder root es Hnd T NP) as (l & E & Hn & HI).
  exists (sorted_str l). split.
  - unfold get_list_of_blobs. cbn [dedup filter mapM]. rewrite E. simpl. now rewrite app_nil_r.
  - split; [apply sorted_str_sorted|]. split; [apply isort_NoDup; auto|].
    intros b. rewrite sorted_str_In. apply HI.
Qed.

Lemma many_folders (content : str -> list entry) (paths : list str) :
  (forall p, In p paths -> NoDup (content p) /\ tidy p (live p (content p)) /\ no_prefixes (live p (content p))) ->
  exists out, get_list_of_blobs None (fun p => map (name_in p) (content p)) paths = Ok out /\
    StronglySorted (fun a b => str_leb a b = true) out /\
    (forall b, In b out <-> exists p e, In p paths /\ served (live p (content p)) e /\ b = name_in p e) /\
    ((forall p q e e', In p paths -> In q paths -> In e (content p) -> In e' (content q) ->
        name_in p e = name_in q e' -> p = q) -> NoDup out).
Proof.
  intros H.
  assert (H': forall p, In p (dedup str_eqb paths) -> NoDup (content p) /\ tidy p (live p (content p)) /\ no_prefixes (live p (content p))).
  { intros p Hp. apply H. rewrite (dedup_In str_eqb str_eqb_eq) in Hp. exact Hp. }
  assert (G: forall ps, (forall p, In p ps -> NoDup (content p) /\ tidy p (live p (content p)) /\ no_prefixes (live p (content p))) ->
     exists f, mapM (fun p => cycle_blobs_of None (map (name_in p) (content p))) ps = Ok (map f ps) /\
       forall p, In p ps -> NoDup (f p) /\ forall b, In b (f p) <-> exists e, served (live p (content p)) e /\ b = name_in p e).
  { clear. intros ps Hps.
    exists (fun p => match cycle_blobs_of None (map (name_in p) (content p)) with Ok l => l | Raise _ => [] end).
    split.
    - rewrite <- mapM_Ok. apply mapM_ext. intros p Hp. destruct (Hps p Hp) as (A & B & C).
      destruct (cycle_folder p _ A B C) as (l & -> & _). reflexivity.
    - intros p Hp. destruct (Hps p Hp) as (A & B & C).
      destruct (cycle_folder p _ A B C) as (l & -> & D). exact D. }
  destruct (G _ H') as (f & Ef & Hf).
  exists (sorted_str (concat (map f (dedup str_eqb paths)))). split; [|split; [|split]].
  - unfold get_list_of_blobs. rewrite Ef. reflexivity.
  - apply sorted_str_sorted.
  - intros b. rewrite sorted_str_In, <- flat_map_concat_map, in_flat_map. split.
    + intros (p & Hp & Hb). apply (Hf p Hp) in Hb. destruct Hb as (e & He & ->).
      exists p, e. rewrite (dedup_In str_eqb str_eqb_eq) in Hp. auto.
    + intros (p & e & Hp & He & ->). exists p.
      assert (Hp': In p (dedup str_eqb paths)) by (rewrite (dedup_In str_eqb str_eqb_eq); auto).
      split; auto. apply (Hf p Hp'). eauto.
  - intros Hd. apply isort_NoDup. rewrite <- flat_map_concat_map. apply NoDup_flat_map.
    + apply (dedup_NoDup str_eqb str_eqb_eq).
    + intros p Hp. apply (Hf p Hp).
    + intros p q b Hp Hq Hb Hb'. apply (Hf p Hp) in Hb. apply (Hf q Hq) in Hb'.
      destruct Hb as (e & He & ->), Hb' as (e' & He' & Hn).
      rewrite (dedup_In str_eqb str_eqb_eq) in Hp, Hq.
      apply (Hd p q e e'); auto; [apply He|apply He'].
Qed.

(** *** any store at all *)
Lemma select_frame_sub l b : In b (select_frame l) -> In b l /\
  (contains $"as_at_" b = true -> contains $"/frame.complete" b = false).
Proof.
  unfold select_frame. fold (as_ats_of l).
  destruct (rev (sorted_str (as_ats_of l))) as [|a st] eqn:E.
  - intros Hb. split; auto. intros Hc. exfalso.
    assert (Hx: In (extract_as_at b) (sorted_str (as_ats_of l))).
    { apply sorted_str_In. unfold as_ats_of. rewrite (dedup_In str_eqb str_eqb_eq). apply in_map.
      apply filter_In. auto. }
    apply in_rev in Hx. rewrite E in Hx. exact Hx.
  - destruct (frame_loop l a st) as [f|]; [|intros []].
    intros Hb. apply filter_In in Hb. destruct Hb as [Hb Hc]. split; auto. intros _.
    apply andb_true_iff in Hc. destruct Hc as [_ Hc]. now apply negb_true_iff in Hc.
Qed.

Lemma mapM_In {A B} (f : A -> result B) l ys : mapM f l = Ok ys ->
  forall y, In y ys -> exists x, In x l /\ f x = Ok y.
Proof.
  revert ys; induction l as [|x l IH]; simpl; intros ys H y Hy.
  - injection H as <-. destruct Hy.
  - destruct (f x) as [z|] eqn:E; [|discriminate]. simpl in H.
    destruct (mapM f l) as [zs|] eqn:E'; [|discriminate]. simpl in H. injection H as <-.
    destruct Hy as [<-|Hy]; eauto. destruct (IH _ eq_refl y Hy) as (w & Hw & Ew). eauto.
Qed.

Lemma only_listed pf store paths out : get_list_of_blobs pf store paths = Ok out ->
  StronglySorted (fun a b => str_leb a b = true) out /\
  forall b, In b out -> (exists p, In p paths /\ In b (store p)) /\
    contains $"BACKOUT" b = false /\
    (contains $"as_at_" b = true -> contains $"/frame.complete" b = false).
Proof.
  unfold get_list_of_blobs. destruct (mapM _ _) as [found|] eqn:E; [|discriminate].
  intros [= <-]. split; [apply sorted_str_sorted|]. intros b Hb. rewrite sorted_str_In in Hb.
  apply in_concat in Hb. destruct Hb as (l & Hl & Hb).
  destruct (mapM_In _ _ _ E l Hl) as (p & Hp & Ep). rewrite (dedup_In str_eqb str_eqb_eq) in Hp.
  assert (G: In b (filter (fun b => negb (contains $"BACKOUT" b)) (store p)) /\
             (contains $"as_at_" b = true -> contains $"/frame.complete" b = false)).
  { unfold cycle_blobs_of in Ep.
    set (L := filter (fun b => negb (contains $"BACKOUT" b)) (store p)) in *.
    assert (Hin: exists L' parts, apply_partition_filter pf L (partitions_of L) = Ok (L', parts) /\
               (forall x, In x L' -> In x L)).
    { destruct (apply_partition_filter pf L (partitions_of L)) as [[L' parts]|] eqn:Ea; [|discriminate].
      exists L', parts. split; auto. unfold apply_partition_filter in Ea.
      destruct pf as [[[fld op] v]|]; [|injection Ea as -> _; auto].
      destruct (negb _); [discriminate|]. destruct (existsb _ _); injection Ea as <- _; auto.
      intros x Hx. now apply filter_In in Hx. }
    destruct Hin as (L' & parts & Ea & HL'). rewrite Ea in Ep. simpl in Ep.
    assert (Hch: forall x, In x (snd (choose_partition L' parts)) -> In x L').
    { unfold choose_partition. destruct (rev (sorted_str parts)); simpl; auto.
      intros x Hx. now apply filter_In in Hx. }
    destruct (choose_partition L' parts) as [chosen cb]. simpl in Hch.
    injection Ep as <-. unfold read_folders in Hb. apply in_flat_map in Hb.
    destruct Hb as (f & _ & Hb). apply select_frame_sub in Hb. destruct Hb as [Hb Hc].
    apply filter_In in Hb. destruct Hb as [Hb _]. auto. }
  destruct G as [G1 G2]. apply filter_In in G1. destruct G1 as [G1 G3].
  apply negb_true_iff in G3. eauto.
Qed.

Lemma never_fails store paths : exists out, get_list_of_blobs None store paths = Ok out.
Proof.
  unfold get_list_of_blobs.
  assert (G: forall ps, exists f, mapM (fun p => cycle_blobs_of None (store p)) ps = Ok f).
  { induction ps as [|p ps [f IH]]; simpl; eauto.
    unfold cycle_blobs_of at 1, apply_partition_filter. simpl.
    destruct (choose_partition _ _) as [c cb]. simpl. rewrite IH. simpl. eauto. }
  destruct (G (dedup str_eqb paths)) as [f ->]. simpl. eauto.
Qed.

(** [partitions_of] loses nothing *)
Lemma extract_by_some b : contains $"/by_" b = true -> exists x, extract_by b = Some x.
Proof.
  intros H. unfold extract_by. rewrite first_starting_find.
  destruct (find (startswith $"by_") (split slash b)) as [x|] eqn:E; eauto.
  exfalso. rewrite <- (join_split slash b) in H.
  change ($"/by_") with (join [slash] ([] :: [] ++ [$"by_"])) in H.
  apply contains_join in H.
  - destruct H as (pre & x & y & post & Ep).
    assert (Hin: In ($"by_" ++ y) (split slash b)).
    { rewrite Ep. rewrite app_nil_l. apply in_app_iff. right. right. left. reflexivity. }
    pose proof (find_none _ _ E _ Hin) as X. rewrite startswith_app in X. discriminate.
  - intros w [<-|[<-|[]]]; simpl; intuition discriminate.
  - apply split_nonempty.
  - intros w. apply split_no_sep.
Qed.

(** *** the search hint *)
Definition only_part (present : entry -> Prop) (k : str * str) (e : entry) : Prop :=
  present e /\ e_by e = Some k.

Lemma hint_selection root es field value op :
  NoDup es -> tidy root (live root es) -> no_prefixes (live root es) ->
  In op [$"="; $"=="] ->
  (exists e v, live root es e /\ e_by e = Some ($"by_" ++ sanitize field, v)) ->
  exists out, get_list_of_blobs (Some (field, op, value)) (fun _ => map (name_in root) es) [root] = Ok out /\
    lists_exactly root (only_part (live root es)
                         ($"by_" ++ sanitize field, sanitize field ++ $"=" ++ sanitize value)) out.
Proof.
  intros Hnd T NP Hop (e0 & v0 & P0 & E0).
  set (B := $"by_" ++ sanitize field) in *. set (F := sanitize field ++ $"=" ++ sanitize value).
  assert (HokB: part_ok B) by (apply (t_by _ _ T _ _ _ P0 E0)).
  assert (HBby: startswith $"by_" B = true) by apply startswith_app.
  assert (Hsan: forall s, ~ In slash (sanitize s)).
  { intros s Hi. apply filter_In in Hi. destruct Hi as [_ Hi]. discriminate Hi. }
  assert (HokF: part_ok F).
  { unfold F, part_ok. rewrite !in_app_iff. intros [H|[H|H]]; [eapply Hsan; eauto| |eapply Hsan; eauto].
    simpl in H. intuition discriminate. }
  set (Q := only_part (live root es) (B, F)).
  assert (TQ: tidy root Q) by (apply (tidy_mono root (live root es)); [intros e [H _]; exact H|exact T]).
  assert (NPQ: no_prefixes Q).
  { intros e e' b f f' [H _] [H' _]. apply NP; auto. }
  set (es' := filter (fun e => contains ($"/" ++ B ++ $"/" ++ F ++ $"/") (name_in root e))
                     (filter (live_b root) es)).
  assert (Hes': forall e, In e es' <-> Q e).
  { intros e. unfold es'. rewrite filter_In, live_iff. unfold Q, only_part.
    split; intros [Pe H]; split; auto.
    - change ($"/" ++ B ++ $"/" ++ F ++ $"/") with (join [slash] ([] :: [B; F] ++ [[]])) in H.
      rewrite name_join in H. apply contains_join in H.
      + destruct H as (pre & x & y & post & Ep). rewrite app_nil_l in Ep.
        destruct (by_part root (live root es) T e B Pe) as [f Ef]; auto.
        { rewrite Ep. apply in_app_iff. right. right. left. reflexivity. }
        rewrite Ef. do 2 f_equal.
        unfold parts_of, local_parts in Ep. rewrite Ef in Ep.
        (* position of B is unique *)
        assert (Huniq: forall p q r s : list str, ~ In B p -> ~ In B q -> p ++ B :: q = r ++ B :: s -> q = s).
        { clear. induction p as [|a p IH]; intros q r s Hp Hq H.
          - destruct r as [|a r]; simpl in H; [now injection H|]. injection H as -> H.
            exfalso. apply Hq. rewrite H. apply in_app_iff. right. left. reflexivity.
          - destruct r as [|a' r]; simpl in H; injection H as -> H.
            + exfalso. apply Hp. left. reflexivity.
            + eapply IH; eauto. intros Hi. apply Hp. right. exact Hi. }
        assert (Ep': split slash root ++ B :: f :: match e_frame e with Some g => [g] | None => [] end ++ [e_file e]
                     = (pre ++ [x ++ []]) ++ B :: F :: y :: post) by (rewrite <- app_assoc; exact Ep).
        clear Ep. rename Ep' into Ep. apply Huniq in Ep.
        * congruence.
        * intros Hi. destruct (t_root _ _ T B Hi) as ([X _] & _). congruence.
        * intros Hi. simpl in Hi. rewrite in_app_iff in Hi. destruct Hi as [Hi|[Hi|Hi]].
          -- destruct (t_by _ _ T e B f Pe Ef) as (_ & _ & _ & _ & [X _] & _). congruence.
          -- destruct (e_frame e) as [g|] eqn:Eg; [|destruct Hi]. simpl in Hi. destruct Hi as [->|[]].
             destruct (t_frame _ _ T e _ Pe Eg) as (_ & _ & [X _]). congruence.
          -- simpl in Hi. destruct Hi as [Hi|[]]. destruct (t_file _ _ T e Pe) as (_ & X & _). congruence.
      + intros w [<-|[<-|[<-|[<-|[]]]]]; auto; simpl; tauto.
      + apply parts_ne.
      + apply (parts_noslash root (live root es) T); auto.
    - change ($"/" ++ B ++ $"/" ++ F ++ $"/") with (join [slash] ([] :: [B; F] ++ [[]])).
      rewrite name_join. apply contains_join.
      + intros w [<-|[<-|[<-|[<-|[]]]]]; auto; simpl; tauto.
      + apply parts_ne.
      + apply (parts_noslash root (live root es) T); auto.
      + unfold parts_of, local_parts. rewrite H.
        destruct (exists_last (split_nonempty slash root)) as (pre & x & ->).
        destruct (e_frame e) as [g|].
        * exists pre, x, g. eexists. rewrite <- app_assoc, app_nil_r. simpl. reflexivity.
        * exists pre, x, (e_file e). eexists. rewrite <- app_assoc, app_nil_r. simpl. reflexivity. }
  assert (Hnd': NoDup es') by (unfold es'; apply NoDup_filter, NoDup_filter; auto).
  assert (Ecb: exists l, cycle_blobs_of (Some (field, op, value)) (map (name_in root) es) = Ok l /\ NoDup l /\
     forall b, In b l <-> exists e, served Q e /\ b = name_in root e).
  { unfold cycle_blobs_of. rewrite (filter_map_name root). fold (live_b root).
    unfold apply_partition_filter.
    replace (negb (str_mem op [$"="; $"=="])) with false
      by (symmetry; apply negb_false_iff, str_mem_In; exact Hop).
    rewrite (proj2 (existsb_exists (contains ($"by_" ++ sanitize field)) _)).
    2:{ exists B. split; [|apply contains_self].
        apply (partitions_In root (live root es) T (filter (live_b root) es) (live_iff root es)). eauto. }
    rewrite (filter_map_name root).
    change ($"/by_" ++ sanitize field ++ $"/" ++ sanitize field ++ $"=" ++ sanitize value ++ $"/")
      with ($"/" ++ B ++ $"/" ++ sanitize field ++ $"=" ++ sanitize value ++ $"/").
    replace ($"/" ++ B ++ $"/" ++ sanitize field ++ $"=" ++ sanitize value ++ $"/")
      with ($"/" ++ B ++ $"/" ++ F ++ $"/") by (unfold F; rewrite <- !app_assoc; reflexivity).
    fold es'. cbn [bind].
    pose proof (read_folder_spec root Q TQ es' Hes' Hnd' NPQ) as RS.
    assert (Hpart: forall b, In b (partitions_of (map (name_in root) es')) -> b = B).
    { intros b Hb. apply (partitions_In root Q TQ es' Hes') in Hb. destruct Hb as (e & f & [_ X] & Y). congruence. }
    unfold choose_partition in *.
    destruct es' as [|e1 es1] eqn:Ees.
    - simpl. eexists. split; [reflexivity|]. simpl in RS.
      replace (read_folders B []) with (@nil str).
      2:{ unfold read_folders, partitioned_folders. destruct B; reflexivity. }
      split; [constructor|]. intros b. split; [intros []|]. intros (e & He & _).
      assert (In e []) by (apply Hes'; apply He). contradiction.
    - rewrite <- Ees in *.
      assert (Hp1: In B (partitions_of (map (name_in root) es'))).
      { apply (partitions_In root Q TQ es' Hes'). exists e1, F.
        assert (Q e1) by (apply Hes'; rewrite Ees; left; auto). split; auto. apply H. }
      assert (Hp: partitions_of (map (name_in root) es') = [B]).
      { assert (Hn: NoDup (partitions_of (map (name_in root) es'))) by apply (dedup_NoDup str_eqb str_eqb_eq).
        destruct (partitions_of (map (name_in root) es')) as [|p0 ps]; [destruct Hp1|].
        assert (p0 = B) by (apply Hpart; left; auto). subst p0.
        destruct ps as [|p1 ps]; auto. exfalso. inversion Hn; subst. apply H1. left. apply Hpart. right. left. auto. }
      rewrite Hp in RS. change (rev (sorted_str [B])) with [B] in *. cbn iota beta in *.
      eexists. split; [reflexivity|]. exact RS. }
  destruct Ecb as (l & El & Hn & HI).
  exists (sorted_str l). split.
  - unfold get_list_of_blobs. cbn [dedup filter mapM]. rewrite El. simpl. now rewrite app_nil_r.
  - split; [apply sorted_str_sorted|]. split; [apply isort_NoDup; auto|].
    intros b. rewrite sorted_str_In. apply HI.
Qed.

(** a hint for a field that is not partitioned by is without effect *)
Lemma hint_ignored root es field value op :
  NoDup es -> tidy root (live root es) -> In op [$"="; $"=="] ->
  (forall e b v, live root es e -> e_by e = Some (b, v) -> contains ($"by_" ++ sanitize field) b = false) ->
  get_list_of_blobs (Some (field, op, value)) (fun _ => map (name_in root) es) [root] =
  get_list_of_blobs None (fun _ => map (name_in root) es) [root].
Proof.
  intros Hnd T Hop Hno. unfold get_list_of_blobs. cbn [dedup filter mapM].
  unfold cycle_blobs_of, apply_partition_filter.
  replace (negb (str_mem op [$"="; $"=="])) with false
    by (symmetry; apply negb_false_iff, str_mem_In; exact Hop).
  replace (existsb _ _) with false; [reflexivity|].
  symmetry. apply not_true_is_false. rewrite existsb_exists. intros (b & Hb & Hc).
  rewrite (filter_map_name root) in Hb. fold (live_b root) in Hb.
  apply (partitions_In root (live root es) T (filter (live_b root) es) (live_iff root es)) in Hb.
  destruct Hb as (e & v & Pe & E). rewrite (Hno e b v Pe E) in Hc. discriminate.
Qed.

Lemma hint_operator field value op store p ps : ~ In op [$"="; $"=="] ->
  get_list_of_blobs (Some (field, op, value)) store (p :: ps) = Raise NotImplementedError.
Proof.
  intros Hop. unfold get_list_of_blobs. cbn [dedup mapM].
  unfold cycle_blobs_of at 1, apply_partition_filter.
  replace (negb (str_mem op [$"="; $"=="])) with true; [reflexivity|].
  symmetry. apply negb_true_iff, str_mem_false. exact Hop.
Qed.

Lemma served_dep (P P' : entry -> Prop) b fd :
  (forall e, e_by e = Some (b, fd) -> (P e <-> P' e)) ->
  (forall e b' f, P e -> e_by e = Some (b', f) -> b' = b) ->
  (forall e b' f, P' e -> e_by e = Some (b', f) -> b' = b) ->
  forall e, e_by e = Some (b, fd) -> served P e -> served P' e.
Proof.
  intros Hiff HP HP' e Ek (Pe & _ & W). split; [apply Hiff; auto|].
  rewrite Ek in *. split.
  - intros e' b' f' Pe' E'. rewrite (HP' e' b' f' Pe' E'). apply str_leb_refl.
  - intros (e' & f & Pe' & Ek' & Ef).
    destruct W as (g & Eg & [[Hc Hi] Hmax] & Hnc).
    { exists e', f. split; auto. apply Hiff; auto. }
    exists g. split; auto. split; auto. split.
    + split; [apply Hiff; auto|]. intros X. apply Hi. apply Hiff; auto.
    + intros f' [Hc' Hi']. apply Hmax. split; [apply Hiff; auto|].
      intros X. apply Hi'. apply Hiff; auto.
Qed.

Lemma independent root es es' b fd out out' :
  NoDup es -> tidy root (live root es) -> no_prefixes (live root es) ->
  NoDup es' -> tidy root (live root es') -> no_prefixes (live root es') ->
  (forall e, e_by e = Some (b, fd) -> (In e es <-> In e es')) ->
  (forall e b' f, In e es \/ In e es' -> e_by e = Some (b', f) -> b' = b) ->
  get_list_of_blobs None (fun _ => map (name_in root) es) [root] = Ok out ->
  get_list_of_blobs None (fun _ => map (name_in root) es') [root] = Ok out' ->
  forall e, e_by e = Some (b, fd) -> In e es ->
    (In (name_in root e) out <-> In (name_in root e) out').
Proof.
  intros N1 T1 P1 N2 T2 P2 Hag Hb E1 E2 e Ek Hin.
  destruct (folder_selection root es N1 T1 P1) as (o1 & Eo1 & _ & _ & H1).
  destruct (folder_selection root es' N2 T2 P2) as (o2 & Eo2 & _ & _ & H2).
  rewrite E1 in Eo1. injection Eo1 as <-. rewrite E2 in Eo2. injection Eo2 as <-.
  assert (Hin': In e es') by (apply Hag; auto).
  assert (Hl: forall e, e_by e = Some (b, fd) -> (live root es e <-> live root es' e)).
  { intros x Ex. unfold live. rewrite (Hag x Ex). tauto. }
  rewrite H1, H2. split; intros (x & Hx & En); exists x; (split; [|exact En]).
  - assert (x = e).
    { assert (Hlx: live root es x) by apply Hx.
      apply (name_inj root (live root es) T1); auto. split; auto. rewrite En. apply Hlx. }
    subst x. eapply served_dep; [| | |exact Ek|exact Hx].
    + exact Hl.
    + intros y b' f [Hy _]. apply Hb. auto.
    + intros y b' f [Hy _]. apply Hb. auto.
  - assert (x = e).
    { assert (Hlx: live root es' x) by apply Hx.
      apply (name_inj root (live root es') T2); auto. split; auto. rewrite En. apply Hlx. }
    subst x. eapply served_dep; [| | |exact Ek|exact Hx].
    + intros y Ey. symmetry. apply Hl; auto.
    + intros y b' f [Hy _]. apply Hb. auto.
    + intros y b' f [Hy _]. apply Hb. auto.
Qed.
