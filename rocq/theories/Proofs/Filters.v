(** LIKE and filters. *)
From Verif.Base Require Import Py PyFacts Value ValueFacts.
From Verif.Model Require Import Filters.
From Verif.Spec Require Import DictSet Filters.

Lemma replace_char c new s : replace [c] new s = flat_map (fun x => if Ascii.eqb c x then new else [x]) s.
Proof.
  induction s as [|x s IH]; [apply replace_nil|]. rewrite replace_cons by discriminate. cbn [startswith skipn length flat_map].
  destruct (Ascii.eqb c x); simpl; rewrite IH; reflexivity.
Qed.
Lemma flat_map_flat_map {A B C} (f : B -> list C) (g : A -> list B) l :
  flat_map f (flat_map g l) = flat_map (fun x => flat_map f (g x)) l.
Proof. induction l as [|x l IH]; simpl; auto. rewrite flat_map_app, IH. reflexivity. Qed.

Definition frag (c : ascii) : str :=
  if Ascii.eqb c "%" then $".*?" else if Ascii.eqb c "_" then $"." else regex_characters c.
Definition item (c : ascii) : re_item :=
  if Ascii.eqb c "%" then ReStar else if Ascii.eqb c "_" then ReAny else ReChar c.

Lemma regex_text p : sql_like_fragment_to_regex p = "^"%char :: flat_map frag p ++ $"$".
Proof.
  unfold sql_like_fragment_to_regex. simpl. f_equal. f_equal. rewrite !replace_char, !flat_map_flat_map.
  apply flat_map_ext. intros [[] [] [] [] [] [] [] []]; reflexivity.
Qed.

Definition no_star (s : str) : Prop := match s with "*"%char :: _ => False | _ => True end.
Lemma frag_no_star p : no_star (flat_map frag p ++ $"$").
Proof.
  destruct p as [|c p]; simpl; auto. destruct c as [[] [] [] [] [] [] [] []]; exact I.
Qed.

Lemma parse_frag c rest : no_star rest -> re_parse (frag c ++ rest) = option_map (cons (item c)) (re_parse rest).
Proof.
  intros H. destruct c as [[] [] [] [] [] [] [] []]; try reflexivity.
  cbn. destruct rest as [|d [|e rest]]; auto.
  destruct (Ascii.eqb d "*") eqn:E; auto. apply Ascii.eqb_eq in E. subst. destruct H.
Qed.

Lemma parse_regex p : re_parse (sql_like_fragment_to_regex p) = Some (ReBegin :: map item p ++ [ReEnd]).
Proof.
  rewrite regex_text. cbn [re_parse Ascii.eqb Bool.eqb].
  assert (re_parse (flat_map frag p ++ $"$") = Some (map item p ++ [ReEnd])) as ->; auto.
  induction p as [|c p IH]; [reflexivity|]. cbn [flat_map map]. rewrite <- app_assoc.
  rewrite parse_frag by apply frag_no_star. rewrite IH. reflexivity.
Qed.

Lemma lower_newline c : Ascii.eqb (lower_c c) newline = Ascii.eqb c newline.
Proof. destruct c as [[] [] [] [] [] [] [] []]; reflexivity. Qed.
Lemma item_lower c : item (lower_c c) =
  if Ascii.eqb c "%" then ReStar else if Ascii.eqb c "_" then ReAny else ReChar (lower_c c).
Proof. destruct c as [[] [] [] [] [] [] [] []]; reflexivity. Qed.

Notation wild := (fun c : ascii => c <> newline).

Lemma line_like_nil x : line_like [] x <-> x = [] \/ x = [newline].
Proof.
  split.
  - intros [H|(t & -> & H)]; inversion H; subst; auto.
  - intros [->| ->]; [left; constructor|right; exists []; split; auto; constructor].
Qed.
Lemma line_like_percent p x :
  line_like ("%"%char :: p) x <-> exists s t, x = s ++ t /\ Forall wild s /\ line_like p t.
Proof.
  split.
  - intros [H|(t & -> & H)]; inversion H; subst; try congruence.
    + exists s, t. repeat split; auto. left. auto.
    + exists s, (t0 ++ [newline]). rewrite app_assoc. repeat split; auto. right. eauto.
  - intros (s & t & -> & Hs & [H|(t' & -> & H)]).
    + left. constructor; auto.
    + right. exists (s ++ t'). rewrite app_assoc. split; auto. constructor; auto.
Qed.
Lemma line_like_underscore p x :
  line_like ("_"%char :: p) x <-> exists c t, x = c :: t /\ c <> newline /\ line_like p t.
Proof.
  split.
  - intros [H|(t & -> & H)]; inversion H; subst; try congruence.
    + exists c, t. repeat split; auto. left. auto.
    + exists c, (t0 ++ [newline]). repeat split; auto. right. eauto.
  - intros (c & t & -> & Hc & [H|(t' & -> & H)]).
    + left. constructor; auto.
    + right. exists (c :: t'). split; auto. constructor; auto.
Qed.
Lemma line_like_char c p x : c <> "%"%char -> c <> "_"%char ->
  line_like (c :: p) x <-> exists d t, x = d :: t /\ lower_c c = lower_c d /\ line_like p t.
Proof.
  intros H1 H2. split.
  - intros [H|(t & -> & H)]; inversion H; subst; try congruence.
    + exists d, t. repeat split; auto. left. auto.
    + exists d, (t0 ++ [newline]). repeat split; auto. right. eauto.
  - intros (d & t & -> & Hc & [H|(t' & -> & H)]).
    + left. apply like_same; auto.
    + right. exists (d :: t'). split; auto. apply like_same; auto.
Qed.

Lemma match_spec p : forall start x,
  re_match (map item (lower p) ++ [ReEnd]) start (lower x) = true <-> line_like p x.
Proof.
  induction p as [|c p IH]; intros start x.
  - rewrite line_like_nil. simpl. rewrite andb_true_r. destruct x as [|a [|b x]]; simpl.
    + tauto.
    + rewrite lower_newline, Ascii.eqb_eq. split; [intros ->; auto|intros [|E]; [discriminate|injection E; auto]].
    + split; [discriminate|intros [|]; discriminate].
  - cbn [lower map]. fold (lower p). rewrite item_lower. cbn [app].
    destruct (Ascii.eqb_spec c "%") as [->|N1]; [|destruct (Ascii.eqb_spec c "_") as [->|N2]].
    + rewrite line_like_percent. cbn [re_match].
      revert start. induction x as [|a x IHx]; intros start.
      * change (lower []) with (@nil ascii). cbv beta fix match. rewrite orb_false_r. pose proof (IH start []) as IH0. change (lower []) with (@nil ascii) in IH0. rewrite IH0. split.
        -- intros H. exists [], []. repeat split; auto.
        -- intros (s & t & E & _ & H). destruct s; [|discriminate]. simpl in E. subst. auto.
      * change (lower (a :: x)) with (lower_c a :: lower x). cbv beta fix match. rewrite orb_true_iff, andb_true_iff, negb_true_iff, lower_newline.
        pose proof (IH start (a :: x)) as IH0. change (lower (a :: x)) with (lower_c a :: lower x) in IH0. rewrite IH0, IHx. split.
        -- intros [H|(Ha & s & t & -> & Hs & H)].
           ++ exists [], (a :: x). repeat split; auto.
           ++ exists (a :: s), t. repeat split; auto. constructor; auto. intros ->. discriminate.
        -- intros (s & t & E & Hs & H). destruct s as [|b s].
           ++ simpl in E. subst. auto.
           ++ injection E as <- ->. inversion Hs; subst. right. split.
              ** apply Ascii.eqb_neq. auto.
              ** exists s, t. auto.
    + rewrite line_like_underscore. cbn [re_match]. destruct x as [|a x]; simpl.
      * split; [discriminate|]. intros (d & t & E & _). discriminate.
      * fold (lower x). rewrite andb_true_iff, negb_true_iff, lower_newline, Ascii.eqb_neq, IH. split.
        -- intros [H1 H2]. exists a, x. auto.
        -- intros (d & t & E & H1 & H2). injection E as -> ->. auto.
    + rewrite line_like_char by auto. cbn [re_match]. destruct x as [|a x]; simpl.
      * split; [discriminate|]. intros (d & t & E & _). discriminate.
      * fold (lower x). rewrite andb_true_iff, Ascii.eqb_eq, IH. split.
        -- intros [H1 H2]. exists a, x. auto.
        -- intros (d & t & E & H1 & H2). injection E as -> ->. auto.
Qed.

Lemma like_spec x p : exists b, like x p = Some b /\ (b = true <-> line_like p x).
Proof.
  unfold like. rewrite parse_regex. eexists. split; [reflexivity|]. apply match_spec.
Qed.

Lemma Like_mono (P Q : ascii -> Prop) p t : (forall c, In c t -> P c -> Q c) -> Like P p t -> Like Q p t.
Proof.
  intros H L. induction L as [|p s t Hs L IH|p c t Hc L IH|p c d t H1 H2 H3 L IH].
  - constructor.
  - constructor.
    + rewrite Forall_forall in *. intros c Hc. apply H; auto. apply in_or_app. auto.
    + apply IH. intros c Hc. apply H. apply in_or_app. auto.
  - constructor; [apply H; simpl; auto|]. apply IH. intros; apply H; simpl; auto.
  - apply like_same; auto. apply IH. intros; apply H; simpl; auto.
Qed.

Lemma line_like_sql p x : ~ In newline x -> (line_like p x <-> sql_like p x).
Proof.
  intros H. split.
  - intros [L|(t & -> & _)].
    + eapply Like_mono; [|exact L]. auto.
    + exfalso. apply H, in_or_app. simpl. auto.
  - intros L. left. eapply Like_mono; [|exact L]. simpl. intros c Hc _ ->. contradiction.
Qed.

Lemma like_sql x p : ~ In newline (py_str x) ->
  exists b, like_values x (VStr p) = Ok b /\ not_like_values x (VStr p) = Ok (negb b) /\ (b = true <-> sql_like p (py_str x)).
Proof.
  intros H. destruct (like_spec (py_str x) p) as (b & E & Hb). exists b.
  unfold not_like_values, like_values. rewrite E. repeat split; rewrite <- ?line_like_sql by auto; apply Hb.
Qed.

Lemma like_lines x p :
  exists b, like_values x (VStr p) = Ok b /\ not_like_values x (VStr p) = Ok (negb b) /\ (b = true <-> line_like p (py_str x)).
Proof.
  destruct (like_spec (py_str x) p) as (b & E & Hb). exists b.
  unfold not_like_values, like_values. rewrite E. repeat split; apply Hb.
Qed.

(** ** filters *)
Section PredInd.
  Context (P : pred -> Prop) (Hn : P PNone) (Ht : forall k op v, P (PTuple k op v))
          (Hl : forall l, Forall P l -> P (PList l)) (Ho : P POther).
  Fixpoint pred_ind' (p : pred) : P p :=
    match p with
    | PNone => Hn
    | PTuple k op v => Ht k op v
    | PList l => Hl l ((fix go l : Forall P l :=
                          match l with [] => Forall_nil P | x :: l' => Forall_cons x (pred_ind' x) (go l') end) l)
    | POther => Ho
    end.
End PredInd.

Lemma tuples_forallb l : forallb is_tuple l = true <-> Forall a_tuple l.
Proof.
  rewrite forallb_forall, Forall_forall. split; intros H p Hp; specialize (H p Hp).
  - destruct p; try discriminate. unfold a_tuple. eauto.
  - destruct H as (? & ? & ? & ->). reflexivity.
Qed.
Lemma lists_forallb l : forallb is_list l = true <-> Forall a_list l.
Proof.
  rewrite forallb_forall, Forall_forall. split; intros H p Hp; specialize (H p Hp).
  - destruct p; try discriminate. unfold a_list. eauto.
  - destruct H as (? & ->). reflexivity.
Qed.

Section Dnf.
  Context (matches : value -> value -> result bool).
  Notation evaluate := (evaluate matches).

  Definition op_names : list str :=
    [$"="; $"=="; $"is"; $"!="; $"<>"; $"<"; $">"; $"<="; $">="; $"like"; $"matches"; $"~"; $"in"; $"!in"; $"not in";
     $"contains"; $"!contains"].
  Lemma operators_names op f : operators matches op = Some f -> In op op_names.
  Proof.
    unfold operators. intros E.
    repeat match type of E with
    | context [str_mem op ?l] => let X := fresh in destruct (str_mem op l) eqn:X;
        [apply existsb_exists in X as (o & Ho & Eo); apply str_eqb_eq in Eo; subst o; simpl in *; tauto|]
    | context [str_eqb op ?l] => let X := fresh in destruct (str_eqb op l) eqn:X;
        [apply str_eqb_eq in X; subst op; simpl; tauto|]
    end. discriminate.
  Qed.

  Ltac no_op := match goal with H : In _ _ |- _ => simpl in H; intuition discriminate end.
  Ltac back := let H := fresh in intros H; inversion H; subst; first [assumption | congruence | no_op | match goal with b : bool |- _ => destruct b; cbn [negb] in *; congruence end].

  Lemma operators_spec op f x y b : operators matches op = Some f -> f x y = Ok b -> (b = true <-> holds matches op x y).
  Proof.
    intros E Hf. pose proof (operators_names _ _ E) as Hin. unfold op_names in Hin.
    assert (forall r : result bool, (let* c := r in Ok (negb c)) = Ok b -> r = Ok (negb b)) as Hneg.
    { intros [c|e] Hr; [|discriminate]. injection Hr as <-. rewrite negb_involutive. reflexivity. }
    repeat (destruct Hin as [<-|Hin]; [cbn in E; injection E as <-|]); try contradiction; cbv beta in Hf.
    1-3: injection Hf as <-; split; [intros H; apply h_eq; [simpl; tauto|exact H]|back].
    1-2: injection Hf as <-; rewrite negb_true_iff; split; [intros H; apply h_ne; [simpl; tauto|exact H]|back].
    - split; [intros ->; apply h_lt; exact Hf|back].
    - split; [intros ->; apply h_gt; exact Hf|back].
    - split; [intros ->; apply h_le; exact Hf|back].
    - split; [intros ->; apply h_ge; exact Hf|back].
    - destruct y as [| | |p| |]; try discriminate. destruct (like_lines x p) as (b' & Eb & _ & Hb). rewrite Eb in Hf.
      injection Hf as <-. rewrite Hb. split; [apply h_like|back].
    - split; [intros ->; apply h_matches; [simpl; tauto|exact Hf]|back].
    - split; [intros ->; apply h_matches; [simpl; tauto|exact Hf]|back].
    - split; [intros ->; apply h_in; exact Hf|back].
    - apply Hneg in Hf. split; [intros ->; apply h_not_in; [simpl; tauto|exact Hf]|back].
    - apply Hneg in Hf. split; [intros ->; apply h_not_in; [simpl; tauto|exact Hf]|back].
    - split; [intros ->; apply h_contains; exact Hf|back].
    - apply Hneg in Hf. split; [intros ->; apply h_not_contains; exact Hf|back].
  Qed.

  Lemma allM_spec {A} (f : A -> result bool) (P : A -> Prop) l b :
    Forall (fun x => forall b, f x = Ok b -> (b = true <-> P x)) l ->
    allM f l = Ok b -> (b = true <-> Forall P l).
  Proof.
    intros H. revert b. induction H as [|x l Hx H IH]; intros b E; simpl in E.
    - injection E as <-. split; auto.
    - destruct (f x) as [c|e] eqn:F; [|discriminate]. cbn [bind] in E. specialize (Hx c eq_refl). destruct c.
      + rewrite (IH b E). split; [constructor; tauto|inversion 1; auto].
      + injection E as <-. split; [discriminate|]. inversion 1; subst. tauto.
  Qed.
  Lemma anyM_spec {A} (f : A -> result bool) (P : A -> Prop) l b :
    Forall (fun x => forall b, f x = Ok b -> (b = true <-> P x)) l ->
    anyM f l = Ok b -> (b = true <-> Exists P l).
  Proof.
    intros H. revert b. induction H as [|x l Hx H IH]; intros b E; simpl in E.
    - injection E as <-. split; [discriminate|inversion 1].
    - destruct (f x) as [c|e] eqn:F; [|discriminate]. cbn [bind] in E. specialize (Hx c eq_refl). destruct c.
      + injection E as <-. split; auto. intros _. left. tauto.
      + rewrite (IH b E). split; [right; auto|]. inversion 1; subst; auto. exfalso.
        assert (false = true) by tauto. discriminate.
  Qed.

  Lemma evaluate_spec r p : forall b, evaluate p r = Ok b -> (b = true <-> selects matches r p).
  Proof.
    induction p as [|k op v|l IH|] using pred_ind'; intros b E; simpl in E; try discriminate.
    - injection E as <-. split; auto. constructor.
    - destruct (rget k r) eqn:R; [injection E as <-; split; [discriminate|inversion 1; congruence]|..];
      (destruct (operators matches (lower op)) as [f|] eqn:O; [|discriminate];
       rewrite (operators_spec _ _ _ _ _ O E); split;
       [intros H; eapply sel_tuple; eauto; discriminate|inversion 1; subst; rewrite R in *; auto]).
    - destruct (forallb is_tuple l) eqn:T; [|destruct (forallb is_list l) eqn:L; [|discriminate]].
      + rewrite (allM_spec _ _ _ _ IH E). apply tuples_forallb in T. split; [apply sel_all; auto|].
        inversion 1 as [| | |? HL HE]; subst; auto. exfalso. apply Exists_exists in HE as (x & Hx & _).
        rewrite Forall_forall in T, HL. destruct (T x Hx) as (? & ? & ? & E1). destruct (HL x Hx) as (? & E2). congruence.
      + rewrite (anyM_spec _ _ _ _ IH E). apply lists_forallb in L. split; [apply sel_any; auto|].
        inversion 1; subst; auto. exfalso. apply tuples_forallb in H1. congruence.
  Qed.

  Lemma allM_total {A} (f : A -> result bool) l : (forall x, In x l -> exists b, f x = Ok b) -> exists b, allM f l = Ok b.
  Proof.
    induction l as [|x l IH]; intros H; simpl; [eauto|]. destruct (H x (or_introl eq_refl)) as [[] ->]; cbn [bind]; eauto.
    apply IH. intros; apply H; right; auto.
  Qed.
  Lemma anyM_total {A} (f : A -> result bool) l : (forall x, In x l -> exists b, f x = Ok b) -> exists b, anyM f l = Ok b.
  Proof.
    induction l as [|x l IH]; intros H; simpl; [eauto|]. destruct (H x (or_introl eq_refl)) as [[] ->]; cbn [bind]; eauto.
    apply IH. intros; apply H; right; auto.
  Qed.

  Lemma evaluate_total r p : well_formed_filter p ->
    (forall k op v, in_filter k op v p -> exists b, evaluate (PTuple k op v) r = Ok b) -> exists b, evaluate p r = Ok b.
  Proof.
    intros [|p' W]; [simpl; eauto|]. clear p.
    revert W. induction p' as [|k op v|l IH|] using pred_ind'; intros W H; try (inversion W; fail).
    - apply H. constructor.
    - simpl. destruct (forallb is_tuple l) eqn:T; [|destruct (forallb is_list l) eqn:L].
      + apply allM_total. intros x Hx. apply tuples_forallb in T. rewrite Forall_forall in T.
        destruct (T x Hx) as (k & op & v & ->). apply H. eapply in_list; eauto. constructor.
      + apply anyM_total. intros x Hx. rewrite Forall_forall in IH. apply IH; auto.
        * inversion W; subst; [apply tuples_forallb in H1; congruence|]. rewrite Forall_forall in H2. auto.
        * intros k op v Hk. apply H. eapply in_list; eauto.
      + inversion W; subst; [apply tuples_forallb in H1|apply lists_forallb in H1]; congruence.
  Qed.

  Lemma anyM_malformed {A} (f : A -> result bool) (W : A -> Prop) l :
    (forall x, W x \/ ~ W x) -> ~ Forall W l ->
    (forall x, In x l -> W x -> exists b, f x = Ok b) ->
    (forall x, In x l -> ~ W x -> f x = Ok true \/ f x = Raise InvalidSyntaxError) ->
    anyM f l = Ok true \/ anyM f l = Raise InvalidSyntaxError.
  Proof.
    intros D. induction l as [|x l IH]; intros N HW HN; [exfalso; apply N; constructor|]. simpl.
    destruct (D x) as [Wx|Wx].
    - destruct (HW x (or_introl eq_refl) Wx) as [[] ->]; cbn [bind]; auto.
      apply IH; [intros F; apply N; constructor; auto|intros; apply HW; simpl; auto|intros; apply HN; simpl; auto].
    - destruct (HN x (or_introl eq_refl) Wx) as [->| ->]; cbn [bind]; auto.
  Qed.

  Lemma wf_dec p : well_formed_clause p \/ ~ well_formed_clause p.
  Proof.
    induction p as [|k op v|l IH|] using pred_ind'; try (right; inversion 1; fail); [left; constructor|].
    destruct (forallb is_tuple l) eqn:T; [left; apply wf_all; apply tuples_forallb; auto|].
    destruct (forallb is_list l) eqn:L.
    - apply lists_forallb in L. assert (Forall well_formed_clause l \/ ~ Forall well_formed_clause l) as [F|F].
      { clear - IH. induction IH as [|x l [Hx|Hx] H [Hl|Hl]]; auto; right; inversion 1; auto. }
      + left. apply wf_any; auto.
      + right. inversion 1; subst; auto. apply tuples_forallb in H1. congruence.
    - right. inversion 1; subst; [apply tuples_forallb in H1|apply lists_forallb in H1]; congruence.
  Qed.

  Lemma evaluate_malformed r p : ~ well_formed_filter p ->
    (forall k op v, in_filter k op v p -> exists b, evaluate (PTuple k op v) r = Ok b) ->
    evaluate p r = Ok true \/ evaluate p r = Raise InvalidSyntaxError.
  Proof.
    induction p as [|k op v|l IH|] using pred_ind'; intros N H.
    - exfalso. apply N. constructor.
    - exfalso. apply N. repeat constructor.
    - simpl. destruct (forallb is_tuple l) eqn:T; [|destruct (forallb is_list l) eqn:L; auto].
      + exfalso. apply N. apply wf_shape, wf_all, tuples_forallb. auto.
      + apply lists_forallb in L. rewrite Forall_forall in IH, L.
        apply (anyM_malformed _ well_formed_clause).
        * apply wf_dec.
        * intros F. apply N. apply wf_shape, wf_any; auto. apply Forall_forall. auto.
        * intros x Hx Wx. apply evaluate_total; [apply wf_shape; auto|].
          intros k op v Hk. apply H. eapply in_list; eauto.
        * intros x Hx Wx. apply IH; auto.
          -- intros F. apply Wx. inversion F; subst; auto. destruct (L _ Hx). discriminate.
          -- intros k op v Hk. apply H. eapply in_list; eauto.
    - simpl. auto.
  Qed.

  Lemma filterM_picks {A} (f : A -> result bool) (P : A -> Prop) l out :
    (forall x b, In x l -> f x = Ok b -> (b = true <-> P x)) -> filterM f l = Ok out -> picks P l out.
  Proof.
    revert out. induction l as [|x l IH]; intros out H E; simpl in E.
    - injection E as <-. constructor.
    - destruct (f x) as [b|e] eqn:F; [|discriminate]. cbn [bind] in E.
      destruct (filterM f l) as [rest|e]; [|discriminate]. injection E as <-.
      assert (picks P l rest) as R by (apply IH; auto; intros; apply H; simpl; auto).
      pose proof (H x b (or_introl eq_refl) F) as Hx. destruct b.
      + apply picks_in; tauto.
      + apply picks_out; auto. intros HP. apply Hx in HP. discriminate.
  Qed.
  Lemma filterM_again {A} (f : A -> result bool) l out : filterM f l = Ok out -> filterM f out = Ok out.
  Proof.
    revert out. induction l as [|x l IH]; intros out E; simpl in E.
    - injection E as <-. auto.
    - destruct (f x) as [b|e] eqn:F; [|discriminate]. cbn [bind] in E.
      destruct (filterM f l) as [rest|e]; [|discriminate]. injection E as <-. specialize (IH rest eq_refl).
      destruct b; auto. simpl. rewrite F. cbn [bind]. rewrite IH. reflexivity.
  Qed.
  Lemma filterM_total {A} (f : A -> result bool) l : (forall x, In x l -> exists b, f x = Ok b) -> exists out, filterM f l = Ok out.
  Proof.
    induction l as [|x l IH]; intros H; simpl; [eauto|]. destruct (H x (or_introl eq_refl)) as [b ->]. cbn [bind].
    destruct IH as [out ->]; [intros; apply H; simpl; auto|]. simpl. eauto.
  Qed.

  Lemma filter_dictset_spec filters rows out : filter_dictset matches filters rows = Ok out ->
    picks (fun r => selects matches r filters) rows out /\ filter_dictset matches filters out = Ok out.
  Proof.
    unfold filter_dictset. destruct filters; cbn [init_filters].
    { intros E. injection E as <-. split; auto. induction rows; constructor; auto. constructor. }
    all: intros E; split; [|eapply filterM_again; eauto].
    all: eapply filterM_picks; [|exact E]; intros x b _; apply evaluate_spec.
  Qed.

  Lemma filter_dictset_total filters rows : well_formed_filter filters ->
    (forall r k op v, In r rows -> in_filter k op v filters -> exists b, evaluate (PTuple k op v) r = Ok b) ->
    exists out, filter_dictset matches filters rows = Ok out.
  Proof.
    intros W H. unfold filter_dictset. destruct filters; cbn [init_filters]; [eauto| | |];
      apply filterM_total; intros r Hr; apply evaluate_total; eauto.
  Qed.
End Dnf.
