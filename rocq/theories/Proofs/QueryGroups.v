(** Grouped queries over stored records (C83). *)
From Verif.Base Require Import Py PyFacts Value ValueFacts.
From Verif.Model Require Import Tokens Evaluator Expression GroupBy Storage Reader Sql Query.
From Verif.Spec Require Import Tokens DictSet Expression Evaluator Json Reader Sql SqlAnswer Query QueryUntil.
From Verif.Spec Require GroupBy.
From Verif.Proofs Require Labels Expression Evaluator SqlAnswer GroupBy.
From Verif.Proofs Require Import Query.

Lemma picks_of_map {A B} (f : A -> B) P l G : picks P (map f l) G -> exists g, G = map f g /\ picks (fun x => P (f x)) l g.
Proof.
  revert G. induction l as [|x l IH]; intros G H; cbn [map] in H; inversion H as [|y l' sub Hy Hs|y l' sub Hy Hs]; subst.
  - exists []. split; [reflexivity|constructor].
  - destruct (IH _ Hs) as (g & -> & Hg). exists (x :: g). split; [reflexivity|now constructor].
  - destruct (IH _ Hs) as (g & -> & Hg). exists g. split; [reflexivity|now apply picks_out].
Qed.
Lemma picks_map {A B} (f : A -> B) P l g : picks (fun x => P (f x)) l g -> picks P (map f l) (map f g).
Proof. induction 1; cbn [map]; [constructor|now constructor|now apply picks_out]. Qed.
Lemma picks_iff {A} (P Q : A -> Prop) l g : (forall x, In x l -> (P x <-> Q x)) -> picks P l g -> picks Q l g.
Proof.
  intros H. induction 1 as [|x l sub Hx _ IH|x l sub Hx _ IH].
  - constructor.
  - constructor; [apply H; [now left|exact Hx]|apply IH; intros; apply H; now right].
  - apply picks_out; [intros C; apply Hx, H; [now left|exact C]|apply IH; intros; apply H; now right].
Qed.
Lemma picks_In {A} (P : A -> Prop) l g x : picks P l g -> In x g -> In x l.
Proof. induction 1; cbn; intuition. Qed.

(** ** Groups of records which agree on the columns that count *)
Section Transfer.
  Context (columns : list str) (requested : list (func * str)) (kept : list record) (a b : record -> record).
  Context (Hcol : forall r c, In r kept -> In c columns -> rget c (a r) = rget c (b r)).
  Context (Hreq : forall r f c, In r kept -> In (f, c) requested -> rget c (a r) = rget c (b r)).

  Lemma agree_same r x : In r kept -> In x kept -> (agree_on columns (a r) (a x) <-> agree_on columns (b r) (b x)).
  Proof.
    intros Hr Hx. unfold agree_on. split; intros H c Hc.
    - rewrite <- !Hcol by auto. auto.
    - rewrite !Hcol by auto. auto.
  Qed.
  Lemma non_null_same f c g : In (f, c) requested -> (forall r, In r g -> In r kept) ->
    GroupBy.non_null c (map a g) = GroupBy.non_null c (map b g).
  Proof.
    intros Hf. induction g as [|r g IH]; intros H; [reflexivity|]. cbn [map GroupBy.non_null].
    rewrite (Hreq r f c) by (auto; apply H; now left). rewrite IH by (intros; apply H; now right). reflexivity.
  Qed.
  Lemma counted_same f c g : In (f, c) requested -> (forall r, In r g -> In r kept) ->
    GroupBy.counted c (map a g) = GroupBy.counted c (map b g).
  Proof. intros Hf H. unfold GroupBy.counted. rewrite !map_length, (non_null_same f c g Hf H). reflexivity. Qed.
  Lemma has_values_same g : (forall r, In r g -> In r kept) ->
    GroupBy.has_values requested (map a g) -> GroupBy.has_values requested (map b g).
  Proof. intros H (f & c & Hf & Hc). exists f, c. split; [exact Hf|]. now rewrite <- (counted_same f c g Hf H). Qed.
  Lemma row_same r g out : In r kept -> (forall x, In x g -> In x kept) ->
    GroupBy.row_is columns requested (a r) (map a g) out -> GroupBy.row_is columns requested (b r) (map b g) out.
  Proof.
    intros Hr Hg (H1 & H2 & H3). split; [|split; [|exact H3]].
    - intros c Hc. rewrite <- (Hcol r c Hr Hc). auto.
    - intros f c Hf. destruct (H2 f c Hf) as (x & Hx & Ha). exists x. split; [exact Hx|]. unfold GroupBy.aggregate_is in *.
      rewrite <- (non_null_same f c g Hf Hg), <- (counted_same f c g Hf Hg). exact Ha.
  Qed.
  Lemma group_same r g : In r kept -> GroupBy.group_of columns (a r) (map a kept) (map a g) ->
    picks (fun x => agree_on columns (a r) (a x)) kept g -> GroupBy.group_of columns (b r) (map b kept) (map b g).
  Proof. intros Hr _ H. apply picks_map. eapply picks_iff; [|exact H]. intros x Hx. now apply agree_same. Qed.
End Transfer.

Lemma group_by_same columns requested (kept : list record) (a b : record -> record) out :
  (forall r c, In r kept -> In c columns -> rget c (a r) = rget c (b r)) ->
  (forall r f c, In r kept -> In (f, c) requested -> rget c (a r) = rget c (b r)) ->
  GroupBy.group_by_is columns requested (map a kept) out -> GroupBy.group_by_is columns requested (map b kept) out.
Proof.
  intros Hc Hr (G1 & G2 & G3). split; [|split; [|exact G3]].
  - intros row Hrow. destruct (G1 row Hrow) as (r & g & Hin & Hg & Hv & Hrw). apply in_map_iff in Hin as (r0 & <- & Hin).
    destruct (picks_of_map a _ kept g Hg) as (g0 & -> & Hg0).
    assert (Hsub : forall x, In x g0 -> In x kept) by (intros; eapply picks_In; eauto).
    exists (b r0), (map b g0). split; [now apply in_map|]. split; [eapply group_same; eauto|].
    split; [eapply has_values_same; eauto|eapply row_same; eauto].
  - intros r g Hin Hg Hv. apply in_map_iff in Hin as (r0 & <- & Hin).
    destruct (picks_of_map b _ kept g Hg) as (g0 & -> & Hg0).
    assert (Hsub : forall x, In x g0 -> In x kept) by (intros; eapply picks_In; eauto).
    assert (Hc' : forall r c, In r kept -> In c columns -> rget c (b r) = rget c (a r)) by (intros; symmetry; auto).
    assert (Hr' : forall r f c, In r kept -> In (f, c) requested -> rget c (b r) = rget c (a r)) by (intros; symmetry; eauto).
    destruct (G2 (a r0) (map a g0)) as (row & R1 & R2).
    + now apply in_map.
    + eapply (group_same columns kept b a); eauto.
    + eapply (has_values_same requested kept b a); eauto.
    + exists row. split; [exact R1|]. eapply row_same; eauto.
Qed.

(** ** The records a list with aggregates makes *)
Section Groups.
  Context (float_of date_of : str -> option value) (HF : reads_floats float_of).
  Context (py_is : value -> value -> bool) (matches : value -> value -> result bool) (apply : str -> list value -> result value).
  Local Notation label := (get_token_type float_of date_of).
  Local Notation bind_all := Evaluator.bind_all.

  Definition bound (r : record) (x : expr * option str) : str * value :=
    match fst x with Atom w => (w, rget w r) | Call f _ => (upper f, VNull) end.
  Definition shaped_groups (xs : list (expr * option str)) (r : record) : record :=
    bind_all (map (bound r) xs ++ [($"*", VStr $"*")]) r.

  Context (xs : list (expr * option str)) (e : str) (W : written_list label xs e) (columns : list str).
  Context (P : Forall (grouped_entry label columns) xs) (requested : list (func * str)) (Hreq : requests xs requested).
  Context (t : option tree).

  Lemma requested_names ys rs : requests ys rs -> forall f args a, In (Call f args, a) ys ->
    In (upper f) (map (fun q : func * str => func_name (fst q)) rs).
  Proof.
    induction 1 as [|w m ys rs _ IH|fn g c m ys rs E _ IH]; intros f args a H.
    - destruct H.
    - destruct H as [H|H]; [discriminate H|eauto].
    - destruct H as [H|H]; [injection H as <- <- <-; left; auto|right; eauto].
  Qed.
  Lemma eqb_flip a b : str_eqb a b = str_eqb b a.
  Proof. destruct (str_eqb_reflect a b), (str_eqb_reflect b a); congruence. Qed.
  Lemma agg_function fn : In (func_name fn) aggregations.
  Proof. destruct fn; cbn; tauto. Qed.

  Section Row.
    Context (r : record) (Nr : NoDup (map fst r)) (A : groups_apart columns requested t r).

    Lemma entry_field x : In x xs ->
      field_value float_of date_of apply r (Evaluator.entry_item float_of date_of x) = Ok (snd (bound r x)) /\
      field_label (Evaluator.entry_item float_of date_of x) = fst (bound r x).
    Proof.
      intros Hx. rewrite Forall_forall in P. specialize (P x Hx). destruct x as [[w|f args] a]; unfold grouped_entry in P; cbn [fst] in P.
      - destruct P as [L Hc]. unfold Evaluator.entry_item, bound, field_label. cbn [fst snd Evaluator.item_of item_type item_value field_value].
        rewrite L. split; [|reflexivity]. destruct A as (_ & A2 & _). destruct (A2 w Hc) as [->|[_ N]].
        + rewrite (label_star float_of date_of HF) in L. discriminate L.
        + apply Expression.names_column_fun in N. now rewrite <- N.
      - destruct P as (fn & c & Hf & ->). unfold Evaluator.entry_item, bound, field_label. cbn [fst snd Evaluator.item_of item_type item_value field_value].
        assert (L : label f = AGGREGATOR) by (apply Labels.labels_spec; auto; constructor; rewrite Hf; apply agg_function).
        rewrite L. split; reflexivity.
    Qed.
    Lemma fold_entries ys : (forall x, In x ys -> In x xs) -> forall base,
      fold_left (fun acc i => let* b := acc in let* v := field_value float_of date_of apply r i in Ok (dset str_eqb (field_label i) v b))
        (map (Evaluator.entry_item float_of date_of) ys) (Ok base) = Ok (bind_all (map (bound r) ys) base).
    Proof.
      induction ys as [|x ys IH]; intros H base; [reflexivity|]. cbn [map fold_left].
      destruct (entry_field x (H x (or_introl eq_refl))) as [E1 E2]. cbn [bind]. rewrite E1, E2. cbn [bind].
      rewrite IH by (intros y Hy; apply H; now right). reflexivity.
    Qed.
    Lemma evaluates_groups : evaluate float_of date_of apply (map (Evaluator.entry_item float_of date_of) (xs ++ everything)) r
                             = Ok (shaped_groups xs r).
    Proof.
      unfold evaluate. rewrite (Evaluator.stars_found float_of date_of HF) by
        exact (Evaluator.written_list_good float_of date_of _ _ (written_star float_of date_of HF apply xs e W)).
      rewrite (not_starred xs). rewrite map_app, fold_left_app, fold_entries by auto.
      unfold shaped_groups, Evaluator.bind_all. rewrite fold_left_app. unfold Evaluator.entry_item, everything.
      cbn [map fold_left fst snd Evaluator.item_of bind]. unfold field_label. cbn [field_value item_type item_value].
      rewrite (label_star float_of date_of HF). reflexivity.
    Qed.

    Lemma binding_app k l l' : last_binding k (l ++ l') = match last_binding k l' with Some v => Some v | None => last_binding k l end.
    Proof.
      induction l as [|[m v] l IH]; cbn [app last_binding]; [destruct (last_binding k l'); reflexivity|].
      rewrite IH. destruct (last_binding k l'); reflexivity.
    Qed.
    Lemma binding_pair k l v : last_binding k l = Some v -> In (k, v) l.
    Proof.
      induction l as [|[m w] l IH]; cbn [last_binding]; [discriminate|]. destruct (last_binding k l) eqn:E.
      - intros [= ->]. right. auto.
      - destruct (str_eqb m k) eqn:Em; [|discriminate]. intros [= ->]. apply str_eqb_eq in Em. subst. now left.
    Qed.

    Local Notation used k := (In k columns \/ (exists f, In (f, k : str) requested) \/ (exists t', t = Some t' /\ mentions t' k)).
    Lemma star_last k : last_binding k [($"*", VStr $"*")] = if str_eqb $"*" k then Some (VStr $"*") else None.
    Proof. reflexivity. Qed.
    Lemma dget_star k : dget str_eqb k (with_star r) = if str_eqb $"*" k then Some (VStr $"*") else dget str_eqb k r.
    Proof.
      unfold with_star. destruct A as (A1 & _). revert A1. generalize r as l. intros l. induction l as [|[m v] l IH]; intros A1.
      - cbn [app dget]. rewrite (eqb_flip k). reflexivity.
      - cbn [app dget]. cbn [map fst] in A1. destruct (str_eqb k m) eqn:Em.
        + apply str_eqb_eq in Em. subst m. destruct (str_eqb $"*" k) eqn:Es; [|reflexivity].
          apply str_eqb_eq in Es. exfalso. apply A1. left. auto.
        + apply IH. intros H. apply A1. now right.
    Qed.
    Lemma shaped_dget k : used k ->
      dget str_eqb k (shaped_groups xs r) =
      match last_binding k (map (bound r) xs) with
      | Some _ => Some (rget k (with_star r))
      | None => dget str_eqb k (with_star r)
      end.
    Proof.
      intros U. unfold shaped_groups. rewrite Evaluator.bind_all_get, binding_app, star_last.
      unfold rget. rewrite dget_star. destruct (str_eqb $"*" k) eqn:Es.
      - destruct (last_binding k (map (bound r) xs)); reflexivity.
      - destruct (last_binding k (map (bound r) xs)) as [v|] eqn:E; [|reflexivity].
        apply binding_pair in E. apply in_map_iff in E as ([[w|f args] a] & E & Hx); unfold bound in E; cbn [fst] in E.
        + injection E as -> <-. reflexivity.
        + exfalso. injection E as E _. destruct A as (_ & _ & _ & A4). apply (A4 k U). rewrite <- E. exact (requested_names xs requested Hreq f args a Hx).
    Qed.
    Lemma shaped_rget k : used k -> rget k (shaped_groups xs r) = rget k (with_star r).
    Proof.
      intros U. unfold rget at 1. rewrite (shaped_dget k U). destruct (last_binding k (map (bound r) xs)); [reflexivity|]. reflexivity.
    Qed.
    Lemma star_rget k : k <> $"*" -> rget k (with_star r) = rget k r.
    Proof. intros H. unfold rget. rewrite dget_star. destruct (str_eqb $"*" k) eqn:E; [|reflexivity]. apply str_eqb_eq in E. congruence. Qed.
    Lemma shaped_text : group_text columns (shaped_groups xs r) = group_text columns (with_star r).
    Proof.
      unfold group_text. f_equal. apply map_ext_in. intros c Hc. rewrite (shaped_dget c) by (now left).
      destruct (last_binding c (map (bound r) xs)); [|reflexivity].
      unfold rget. rewrite dget_star. destruct A as (_ & A2 & _). destruct (str_eqb $"*" c) eqn:Es; [reflexivity|].
      destruct (A2 c Hc) as [->|[Hi _]]; [discriminate Es|]. destruct (dget str_eqb c r) eqn:Ed; [reflexivity|].
      now apply (dget_None str_eqb str_keqb) in Ed.
    Qed.
    Lemma shaped_not_empty : shaped_groups xs r <> [].
    Proof.
      intros E. assert (X : dget str_eqb $"*" (shaped_groups xs r) <> None).
      { unfold shaped_groups. rewrite Evaluator.bind_all_get, binding_app, star_last. cbn. discriminate. }
      rewrite E in X. now apply X.
    Qed.
  End Row.
End Groups.

Lemma picks_unique {A} (P : A -> Prop) l g : picks P l g -> forall g', picks P l g' -> g = g'.
Proof.
  induction 1 as [|x l sub Hx _ IH|x l sub Hx _ IH]; intros g' H'; inversion H' as [|y l' sub' Hy Hs|y l' sub' Hy Hs]; subst; try contradiction.
  - reflexivity.
  - f_equal. now apply IH.
  - now apply IH.
Qed.
Lemma suitable_same requested (kept : list record) (a b : record -> record) :
  (forall r f c, In r kept -> In (f, c) requested -> rget c (a r) = rget c (b r)) ->
  forall f c, In (f, c) requested -> GroupBy.suitable (map a kept) f c -> GroupBy.suitable (map b kept) f c.
Proof.
  intros Hr f c Hf H. assert (Hn : GroupBy.non_null c (map a kept) = GroupBy.non_null c (map b kept)).
  { eapply (non_null_same requested kept a b Hr f c kept Hf). auto. }
  assert (Hc : number_column c (map a kept) -> number_column c (map b kept)).
  { unfold number_column. intros Hk r Hin. apply in_map_iff in Hin as (r0 & <- & Hin). rewrite <- (Hr r0 f c Hin Hf).
    apply Hk. now apply in_map. }
  unfold GroupBy.suitable in *. destruct f; cbn iota in H |- *; try exact I; destruct H as (H1 & H2 & H3); (split; [exact H1|]); (split; [now apply Hc|]); rewrite <- Hn; exact H3.
Qed.

Section Answer.
  Context (float_of date_of : str -> option value) (HF : reads_floats float_of).
  Context (py_is : value -> value -> bool) (matches : value -> value -> result bool) (apply : str -> list value -> result value).
  Context (open : str -> (value -> result value) -> (value -> result bool) -> nat -> result (list value)) (n : nat).
  Context (quotient : Z -> Z -> value) (hash : str -> Z) (xxh : str -> N).
  Local Notation label := (get_token_type float_of date_of).
  Local Notation answer := (sql_reader float_of date_of (query_reader float_of date_of py_is matches apply open n)
                              (filter_where float_of date_of py_is matches) quotient hash xxh).

  (** what the reader gives for a list with the columns of GROUP BY and aggregates *)
  Lemma groups_read cs e xs d text t rows lost kept columns requested inner ps :
    gives_until (open (dots_to_slashes d)) (map VDict rows) (map VDict lost) -> length rows <= n ->
    (forall r, In r lost -> exists t' e, t = Some t' /\ evaluate_recursive float_of date_of py_is matches t' r = Raise e) -> (forall r, In r rows -> r <> [] /\ NoDup (map fst r)) ->
    written_parts cs ps ->
    last_of select_of cs = Some e -> last_of from_of cs = Some (inl d) -> safe_name (dots_to_slashes d) ->
    last_of where_of cs = text -> condition_of float_of date_of text t ->
    (forall r, In r rows -> answered float_of date_of py_is matches t r) ->
    picks (wanted float_of date_of py_is matches t) rows kept ->
    written_list label xs e -> Forall (grouped_entry label columns) xs -> requests xs requested -> ~ In $"*" (map asked_name xs) ->
    (forall r, In r (rows ++ lost) -> groups_apart columns requested t r) ->
    kept = filter (keep float_of date_of py_is matches t) rows /\
    source_gives (query_reader float_of date_of py_is matches apply open n) inner cs e (map (shaped_groups xs) kept).
  Proof.
    intros HG Hn Hlost Hrows W Hsel Hfrom Hsafe Hwhere HC Hcmp Hpick Hx Hp Hreq Hstar A.
    assert (Ek : kept = filter (keep float_of date_of py_is matches t) rows).
    { eapply picks_unique; [exact Hpick|]. eapply kept_picks; eauto. }
    split; [exact Ek|]. set (sh := shaped_groups xs).
    assert (Sr : forall r k, In r (rows ++ lost) -> In k columns \/ (exists f, In (f, k) requested) \/ (exists t', t = Some t' /\ mentions t' k) ->
                 rget k (sh r) = rget k (with_star r)).
    { intros r k Hr U. exact (shaped_rget xs columns requested Hreq t r (A r Hr) k U). }
    unfold source_gives. rewrite Hfrom. split; [exact Hsafe|].
    assert (Es : str_eqb e $"*" = false).
    { destruct (str_eqb e $"*") eqn:E; [|reflexivity]. apply str_eqb_eq in E. exfalso. subst e.
      apply (star_text float_of date_of HF apply xs Hx); [|exact Hstar]. intros x w Hxi Ew. rewrite Forall_forall in Hp. specialize (Hp x Hxi).
      unfold grouped_entry in Hp. rewrite Ew in Hp. rewrite (proj1 Hp). cbn. intuition discriminate. }
    assert (Es' : str_eqb (e ++ $", *") $"*" = false).
    { destruct (str_eqb (e ++ $", *") $"*") eqn:E; [|reflexivity]. apply str_eqb_eq in E. destruct e as [|c [|c' e']]; discriminate E. }
    rewrite Es, Hwhere, Ek.
    eapply (read_all float_of date_of py_is matches apply open n (dots_to_slashes d) rows lost HG Hn text t HC Hcmp (e ++ $", *")).
    - unfold make_select. rewrite Es'. rewrite (Evaluator.select_list_items float_of date_of HF _ _ (written_star float_of date_of HF apply xs e Hx)). reflexivity.
    - exact Hlost.
    - intros r Hr. cbn beta iota. rewrite (evaluates_groups float_of date_of HF apply xs e Hx columns Hp requested t r (A r Hr)). reflexivity.
    - intros r Hr. apply shaped_not_empty.
    - intros r t' k Hr Et Hk. rewrite Sr; [|exact Hr|right; right; eauto]. eapply star_rget; [exact (A r Hr)|].
      destruct (A r Hr) as (_ & _ & A3 & _). eapply A3; eauto.
  Qed.

  Lemma firsts_of_map {A B} (f g : A -> B) (same : B -> B -> Prop) all : (forall a b, In a all -> In b all -> (same (f a) (f b) <-> same (g a) (g b))) ->
    forall l before out, incl l all -> incl before all -> first_occurrences same (map f before) (map f l) out ->
    exists l', incl l' l /\ out = map f l' /\ first_occurrences same (map g before) (map g l) (map g l').
  Proof.
    intros H. induction l as [|x l IH]; intros before out Hl Hb F; cbn [map] in F; inversion F as [|b y m o N F'|b y m o N F']; subst.
    - exists []. split; [intros ? []|]. split; [reflexivity|constructor].
    - change (map f before ++ [f x]) with (map f before ++ map f [x]) in F'. rewrite <- map_app in F'.
      assert (Hx : In x all) by (apply Hl; now left).
      assert (Hb' : incl (before ++ [x]) all) by (apply incl_app; [exact Hb|intros ? [<-|[]]; exact Hx]).
      assert (Hl' : incl l all) by (intros ? ?; apply Hl; now right).
      destruct (IH (before ++ [x]) o Hl' Hb' F') as (l' & I & -> & R). exists (x :: l').
      split; [intros ? [<-|?]; [now left|right; auto]|]. split; [reflexivity|].
      cbn [map]. apply fo_keep; [|rewrite map_app in R; exact R]. intros y Hy C. apply in_map_iff in Hy as (a & <- & Ha).
      apply (N (f a)); [now apply in_map|]. apply H; auto.
    - change (map f before ++ [f x]) with (map f before ++ map f [x]) in F'. rewrite <- map_app in F'.
      assert (Hx : In x all) by (apply Hl; now left).
      assert (Hb' : incl (before ++ [x]) all) by (apply incl_app; [exact Hb|intros ? [<-|[]]; exact Hx]).
      assert (Hl' : incl l all) by (intros ? ?; apply Hl; now right).
      destruct (IH (before ++ [x]) out Hl' Hb' F') as (l' & I & -> & R). exists l'.
      split; [intros ? ?; right; auto|]. split; [reflexivity|].
      cbn [map]. apply fo_drop; [|rewrite map_app in R; exact R]. destruct N as (y & Hy & C). apply in_map_iff in Hy as (a & <- & Ha).
      exists (g a). split; [now apply in_map|]. apply H; auto.
  Qed.

  Lemma groups_query_until ps ws cs e xs d text t rows lost kept columns in_memory :
    gives_until (open (dots_to_slashes d)) (map VDict rows) (map VDict lost) -> length rows <= n ->
    (forall r, In r lost -> exists t' e, t = Some t' /\ evaluate_recursive float_of date_of py_is matches t' r = Raise e) -> (forall r, In r rows -> r <> [] /\ NoDup (map fst r)) ->
    good_pieces ps -> spread ws (text_of (without_comments ps)) -> written_parts cs (join $" " ws) ->
    last_of select_of cs = Some e -> last_of from_of cs = Some (inl d) -> safe_name (dots_to_slashes d) ->
    last_of where_of cs = text -> condition_of float_of date_of text t ->
    (forall r, In r rows -> answered float_of date_of py_is matches t r) ->
    picks (wanted float_of date_of py_is matches t) rows kept ->
    written_list label xs e -> last_of group_of cs <> None -> grouping_columns cs columns ->
    Forall (grouped_entry label columns) xs -> requests xs [] ->
    NoDup (map asked_name xs) -> ~ In $"*" (map asked_name xs) ->
    (forall r, In r (rows ++ lost) -> groups_apart columns [] t r) ->
    let read := map with_star kept in
    (forall a b, In a read -> In b read -> (group_key xxh columns a = group_key xxh columns b <-> agree_on columns a b)) ->
    (Z.of_nat (length (dedup str_eqb (map (group_text columns) read))) < 4999999)%Z ->
    (forall m, last_of limit_of cs = Some m -> (0 < m)%Z) ->
    exists firsts groups, first_occurrences (agree_on columns) [] read firsts /\
      Forall2 (fun r o => first_occurrences eq [] columns (map fst o) /\
                          forall c, In c columns -> dget str_eqb c o = Some (rget c r)) firsts groups /\
      forall having, having_keeps (filter_where float_of date_of py_is matches) cs groups having -> (forall r, In r having -> renamable xs r) ->
      (existsb asks_distinct cs = true -> told_apart hash (shown xs having)) -> orderable cs (shown xs having) ->
      exists once out, kept_once (existsb asks_distinct cs) (shown xs having) once /\ in_order_and_limited cs once out /\
        forall fuel, length (text_of ps) < fuel -> answer fuel in_memory (text_of ps) = Ok out.
  Proof.
    intros HG Hn Hlost Hrows G S W Hsel Hfrom Hsafe Hwhere HC Hcmp Hpick Hx Hgn Hcols Hp Hreq ND Hstar A read K1 K2 Hlim.
    destruct (groups_read cs e xs d text t rows lost kept columns [] (fun fuel q => answer fuel in_memory q) _ HG Hn Hlost Hrows W Hsel Hfrom Hsafe Hwhere HC Hcmp Hpick Hx Hp Hreq Hstar A) as [Ek Src].
    assert (Hin : forall r, In r kept -> In r (rows ++ lost)) by (intros r Hr; rewrite Ek in Hr; apply filter_In in Hr as [Hr _]; apply in_or_app; now left).
    set (sh := shaped_groups xs) in *.
    assert (Sc : forall r c, In r kept -> In c columns -> rget c (sh r) = rget c (with_star r)).
    { intros r c Hr Hc. apply (shaped_rget xs columns [] Hreq t r (A r (Hin r Hr))). now left. }
    assert (St : forall r, In r kept -> group_text columns (sh r) = group_text columns (with_star r)).
    { intros r Hr. exact (shaped_text xs columns [] Hreq t r (A r (Hin r Hr))). }
    destruct (SqlAnswer.groups_answer float_of date_of HF _ (filter_where float_of date_of py_is matches) quotient hash xxh ps ws cs e xs (map sh kept) columns in_memory G S W Hsel Src Hx Hgn Hcols Hp Hreq ND Hstar) as (firsts & groups & F1 & F2 & Hrest); auto.
    - intros a b Ha Hb. apply in_map_iff in Ha as (a0 & <- & Ha). apply in_map_iff in Hb as (b0 & <- & Hb).
      rewrite (agree_same columns kept sh with_star Sc a0 b0 Ha Hb). unfold group_key. rewrite !St by auto. apply K1; now apply in_map.
    - rewrite map_map. rewrite (map_ext_in _ (fun r => group_text columns (with_star r))) by exact St. unfold read in K2. now rewrite map_map in K2.
    - destruct (firsts_of_map sh with_star (agree_on columns) kept (fun a b Ha Hb => agree_same columns kept sh with_star Sc a b Ha Hb) kept [] firsts
                  (incl_refl _) (fun x H => False_ind _ H) F1) as (l' & I & -> & R).
      exists (map with_star l'), groups. split; [exact R|]. split; [|exact Hrest].
      clear R F1 Hrest. revert groups F2. induction l' as [|x l' IH]; intros groups F2; inversion F2 as [|? o ? os Hxo F2']; subst; constructor.
      + destruct Hxo as [X1 X2]. split; [exact X1|]. intros c Hc. rewrite <- (Sc x c) by (auto; apply I; now left). now apply X2.
      + apply IH; auto. intros y Hy. apply I. now right.
  Qed.

  Lemma grouped_query_until ps ws cs e xs d text t rows lost kept columns requested in_memory :
    gives_until (open (dots_to_slashes d)) (map VDict rows) (map VDict lost) -> length rows <= n ->
    (forall r, In r lost -> exists t' e, t = Some t' /\ evaluate_recursive float_of date_of py_is matches t' r = Raise e) ->
    (forall r, In r rows -> r <> [] /\ NoDup (map fst r)) ->
    good_pieces ps -> spread ws (text_of (without_comments ps)) -> written_parts cs (join $" " ws) ->
    last_of select_of cs = Some e -> last_of from_of cs = Some (inl d) -> safe_name (dots_to_slashes d) ->
    last_of where_of cs = text -> condition_of float_of date_of text t ->
    (forall r, In r rows -> answered float_of date_of py_is matches t r) ->
    picks (wanted float_of date_of py_is matches t) rows kept ->
    written_list label xs e -> grouping_columns cs columns ->
    Forall (grouped_entry label columns) xs -> requests xs requested -> requested <> [] ->
    NoDup (map asked_name xs) -> ~ In $"*" (map asked_name xs) ->
    (forall r, In r (rows ++ lost) -> groups_apart columns requested t r) ->
    let read := map with_star kept in
    (forall a b, In a read -> In b read -> (group_key xxh columns a = group_key xxh columns b <-> agree_on columns a b)) ->
    (Z.of_nat (length (dedup str_eqb (map (group_text columns) read))) < 4999999)%Z ->
    GroupBy.separate requested -> (forall f c, In (f, c) requested -> GroupBy.suitable read f c) ->
    (forall f c, In (f, c) requested -> ~ In (agg_name f c) columns) ->
    (forall c r group, In (AVG, c) requested -> In r read -> GroupBy.group_of columns r read group ->
                       GroupBy.has_values requested group -> 0 < GroupBy.counted c group) ->
    (forall m, last_of limit_of cs = Some m -> (0 < m)%Z) ->
    exists groups, GroupBy.group_by_is columns requested read groups /\
      forall having, having_keeps (filter_where float_of date_of py_is matches) cs (values_of quotient groups) having ->
      (forall r, In r having -> renamable xs r) ->
      (existsb asks_distinct cs = true -> told_apart hash (shown xs having)) -> orderable cs (shown xs having) ->
      exists once out, kept_once (existsb asks_distinct cs) (shown xs having) once /\ in_order_and_limited cs once out /\
        forall fuel, length (text_of ps) < fuel -> answer fuel in_memory (text_of ps) = Ok out.
  Proof.
    intros HG Hn Hlost Hrows G S W Hsel Hfrom Hsafe Hwhere HC Hcmp Hpick Hx Hcols Hp Hreq Hne ND Hstar A read K1 K2 K3 K4 K5 K6 Hlim.
    destruct (groups_read cs e xs d text t rows lost kept columns requested (fun fuel q => answer fuel in_memory q) _ HG Hn Hlost Hrows W Hsel Hfrom Hsafe Hwhere HC Hcmp Hpick Hx Hp Hreq Hstar A) as [Ek Src].
    assert (Hin : forall r, In r kept -> In r (rows ++ lost)) by (intros r Hr; rewrite Ek in Hr; apply filter_In in Hr as [Hr _]; apply in_or_app; now left).
    set (sh := shaped_groups xs) in *.
    assert (Sr : forall r k, In r (rows ++ lost) -> In k columns \/ (exists f, In (f, k) requested) \/ (exists t', t = Some t' /\ mentions t' k) ->
                 rget k (sh r) = rget k (with_star r)).
    { intros r k Hr U. exact (shaped_rget xs columns requested Hreq t r (A r Hr) k U). }
    assert (Sc : forall r c, In r kept -> In c columns -> rget c (sh r) = rget c (with_star r)) by (intros; apply Sr; auto).
    assert (Sq : forall r f c, In r kept -> In (f, c) requested -> rget c (sh r) = rget c (with_star r)).
    { intros r f c Hr Hf. apply Sr; auto. right. left. eauto. }
    assert (St : forall r, In r kept -> group_text columns (sh r) = group_text columns (with_star r)).
    { intros r Hr. exact (shaped_text xs columns requested Hreq t r (A r (Hin r Hr))). }
    destruct (SqlAnswer.grouped_answer float_of date_of HF _ (filter_where float_of date_of py_is matches) quotient hash xxh ps ws cs e xs (map sh kept) columns requested in_memory G S W Hsel Src Hx Hcols Hp Hreq Hne ND Hstar) as (groups & Hg & Hrest); auto.
    - intros a b Ha Hb. apply in_map_iff in Ha as (a0 & <- & Ha). apply in_map_iff in Hb as (b0 & <- & Hb).
      rewrite (agree_same columns kept sh with_star Sc a0 b0 Ha Hb). unfold group_key. rewrite !St by auto. apply K1; now apply in_map.
    - rewrite map_map. rewrite (map_ext_in _ (fun r => group_text columns (with_star r))) by exact St. unfold read in K2. now rewrite map_map in K2.
    - intros f c Hf. eapply (suitable_same requested kept with_star sh); [intros; symmetry; eauto|exact Hf|now apply K4].
    - intros c r group Hc Hr Hgr Hv. apply in_map_iff in Hr as (r0 & <- & Hr).
      destruct (picks_of_map sh _ kept group Hgr) as (g0 & -> & Hg0).
      assert (Hsub : forall x, In x g0 -> In x kept) by (intros; eapply picks_In; eauto).
      rewrite (counted_same requested kept sh with_star Sq AVG c g0 Hc Hsub).
      apply (K6 c (with_star r0) (map with_star g0) Hc); [now apply in_map| |].
      + eapply group_same; eauto.
      + eapply has_values_same; eauto.
    - exists groups. split; [|exact Hrest]. eapply group_by_same; [| |exact Hg]; eauto.
  Qed.

  Lemma groups_query ps ws cs e xs d text t rows kept columns in_memory :
    gives (open (dots_to_slashes d)) (map VDict rows) -> length rows <= n -> (forall r, In r rows -> r <> [] /\ NoDup (map fst r)) ->
    good_pieces ps -> spread ws (text_of (without_comments ps)) -> written_parts cs (join $" " ws) ->
    last_of select_of cs = Some e -> last_of from_of cs = Some (inl d) -> safe_name (dots_to_slashes d) ->
    last_of where_of cs = text -> condition_of float_of date_of text t ->
    (forall r, In r rows -> comparable float_of date_of py_is matches t r) ->
    picks (wanted float_of date_of py_is matches t) rows kept ->
    written_list label xs e -> last_of group_of cs <> None -> grouping_columns cs columns ->
    Forall (grouped_entry label columns) xs -> requests xs [] ->
    NoDup (map asked_name xs) -> ~ In $"*" (map asked_name xs) ->
    (forall r, In r rows -> groups_apart columns [] t r) ->
    let read := map with_star kept in
    (forall a b, In a read -> In b read -> (group_key xxh columns a = group_key xxh columns b <-> agree_on columns a b)) ->
    (Z.of_nat (length (dedup str_eqb (map (group_text columns) read))) < 4999999)%Z ->
    (forall m, last_of limit_of cs = Some m -> (0 < m)%Z) ->
    exists firsts groups, first_occurrences (agree_on columns) [] read firsts /\
      Forall2 (fun r o => first_occurrences eq [] columns (map fst o) /\
                          forall c, In c columns -> dget str_eqb c o = Some (rget c r)) firsts groups /\
      forall having, having_keeps (filter_where float_of date_of py_is matches) cs groups having -> (forall r, In r having -> renamable xs r) ->
      (existsb asks_distinct cs = true -> told_apart hash (shown xs having)) -> orderable cs (shown xs having) ->
      exists once out, kept_once (existsb asks_distinct cs) (shown xs having) once /\ in_order_and_limited cs once out /\
        forall fuel, length (text_of ps) < fuel -> answer fuel in_memory (text_of ps) = Ok out.
  Proof.
    intros HG Hn Hrows G S W Hsel Hfrom Hsafe Hwhere HC Hcmp Hpick Hx Hgn Hcols Hp Hreq ND Hstar A read K1 K2 Hlim.
    apply (groups_query_until ps ws cs e xs d text t rows [] kept columns in_memory); try assumption.
    - now apply gives_none_lost.
    - intros r [].
    - intros r Hr. apply comparable_answered; auto.
    - now rewrite app_nil_r.
  Qed.

  Lemma groups_blobs_query ps ws cs e xs d text t blobs goods kept columns in_memory :
    gives_blobs (open (dots_to_slashes d)) (map (map VDict) blobs) -> length (concat goods) <= n -> (forall r, In r (concat blobs) -> r <> [] /\ NoDup (map fst r)) ->
    good_pieces ps -> spread ws (text_of (without_comments ps)) -> written_parts cs (join $" " ws) ->
    last_of select_of cs = Some e -> last_of from_of cs = Some (inl d) -> safe_name (dots_to_slashes d) ->
    last_of where_of cs = text -> condition_of float_of date_of text t ->
    Forall2 (before_error float_of date_of py_is matches t) blobs goods ->
    picks (wanted float_of date_of py_is matches t) (concat goods) kept ->
    written_list label xs e -> last_of group_of cs <> None -> grouping_columns cs columns ->
    Forall (grouped_entry label columns) xs -> requests xs [] ->
    NoDup (map asked_name xs) -> ~ In $"*" (map asked_name xs) ->
    (forall r, In r (concat blobs) -> groups_apart columns [] t r) ->
    let read := map with_star kept in
    (forall a b, In a read -> In b read -> (group_key xxh columns a = group_key xxh columns b <-> agree_on columns a b)) ->
    (Z.of_nat (length (dedup str_eqb (map (group_text columns) read))) < 4999999)%Z ->
    (forall m, last_of limit_of cs = Some m -> (0 < m)%Z) ->
    exists firsts groups, first_occurrences (agree_on columns) [] read firsts /\
      Forall2 (fun r o => first_occurrences eq [] columns (map fst o) /\
                          forall c, In c columns -> dget str_eqb c o = Some (rget c r)) firsts groups /\
      forall having, having_keeps (filter_where float_of date_of py_is matches) cs groups having -> (forall r, In r having -> renamable xs r) ->
      (existsb asks_distinct cs = true -> told_apart hash (shown xs having)) -> orderable cs (shown xs having) ->
      exists once out, kept_once (existsb asks_distinct cs) (shown xs having) once /\ in_order_and_limited cs once out /\
        forall fuel, length (text_of ps) < fuel -> answer fuel in_memory (text_of ps) = Ok out.
  Proof.
    intros HG Hn Hrows G S W Hsel Hfrom Hsafe Hwhere HC HB Hpick Hx Hgn Hcols Hp Hreq ND Hstar A read K1 K2 Hlim.
    destruct (blobs_given float_of date_of py_is matches _ t blobs goods HG HB) as (lost & H1 & H2 & H3 & H4).
    apply (groups_query_until ps ws cs e xs d text t (concat goods) lost kept columns in_memory); try assumption.
    - intros r Hr. apply Hrows, H4, in_or_app. now left.
    - intros r Hr. exact (A r (H4 r Hr)).
  Qed.

  Lemma grouped_query ps ws cs e xs d text t rows kept columns requested in_memory :
    gives (open (dots_to_slashes d)) (map VDict rows) -> length rows <= n ->
    (forall r, In r rows -> r <> [] /\ NoDup (map fst r)) ->
    good_pieces ps -> spread ws (text_of (without_comments ps)) -> written_parts cs (join $" " ws) ->
    last_of select_of cs = Some e -> last_of from_of cs = Some (inl d) -> safe_name (dots_to_slashes d) ->
    last_of where_of cs = text -> condition_of float_of date_of text t ->
    (forall r, In r rows -> comparable float_of date_of py_is matches t r) ->
    picks (wanted float_of date_of py_is matches t) rows kept ->
    written_list label xs e -> grouping_columns cs columns ->
    Forall (grouped_entry label columns) xs -> requests xs requested -> requested <> [] ->
    NoDup (map asked_name xs) -> ~ In $"*" (map asked_name xs) ->
    (forall r, In r rows -> groups_apart columns requested t r) ->
    let read := map with_star kept in
    (forall a b, In a read -> In b read -> (group_key xxh columns a = group_key xxh columns b <-> agree_on columns a b)) ->
    (Z.of_nat (length (dedup str_eqb (map (group_text columns) read))) < 4999999)%Z ->
    GroupBy.separate requested -> (forall f c, In (f, c) requested -> GroupBy.suitable read f c) ->
    (forall f c, In (f, c) requested -> ~ In (agg_name f c) columns) ->
    (forall c r group, In (AVG, c) requested -> In r read -> GroupBy.group_of columns r read group ->
                       GroupBy.has_values requested group -> 0 < GroupBy.counted c group) ->
    (forall m, last_of limit_of cs = Some m -> (0 < m)%Z) ->
    exists groups, GroupBy.group_by_is columns requested read groups /\
      forall having, having_keeps (filter_where float_of date_of py_is matches) cs (values_of quotient groups) having ->
      (forall r, In r having -> renamable xs r) ->
      (existsb asks_distinct cs = true -> told_apart hash (shown xs having)) -> orderable cs (shown xs having) ->
      exists once out, kept_once (existsb asks_distinct cs) (shown xs having) once /\ in_order_and_limited cs once out /\
        forall fuel, length (text_of ps) < fuel -> answer fuel in_memory (text_of ps) = Ok out.
  Proof.
    intros HG Hn Hrows G S W Hsel Hfrom Hsafe Hwhere HC Hcmp Hpick Hx Hcols Hp Hreq Hne ND Hstar A read K1 K2 K3 K4 K5 K6 Hlim.
    apply (grouped_query_until ps ws cs e xs d text t rows [] kept columns requested in_memory); try assumption.
    - now apply gives_none_lost.
    - intros r [].
    - intros r Hr. apply comparable_answered; auto.
    - now rewrite app_nil_r.
  Qed.

  Lemma grouped_blobs_query ps ws cs e xs d text t blobs goods kept columns requested in_memory :
    gives_blobs (open (dots_to_slashes d)) (map (map VDict) blobs) -> length (concat goods) <= n ->
    (forall r, In r (concat blobs) -> r <> [] /\ NoDup (map fst r)) ->
    good_pieces ps -> spread ws (text_of (without_comments ps)) -> written_parts cs (join $" " ws) ->
    last_of select_of cs = Some e -> last_of from_of cs = Some (inl d) -> safe_name (dots_to_slashes d) ->
    last_of where_of cs = text -> condition_of float_of date_of text t ->
    Forall2 (before_error float_of date_of py_is matches t) blobs goods ->
    picks (wanted float_of date_of py_is matches t) (concat goods) kept ->
    written_list label xs e -> grouping_columns cs columns ->
    Forall (grouped_entry label columns) xs -> requests xs requested -> requested <> [] ->
    NoDup (map asked_name xs) -> ~ In $"*" (map asked_name xs) ->
    (forall r, In r (concat blobs) -> groups_apart columns requested t r) ->
    let read := map with_star kept in
    (forall a b, In a read -> In b read -> (group_key xxh columns a = group_key xxh columns b <-> agree_on columns a b)) ->
    (Z.of_nat (length (dedup str_eqb (map (group_text columns) read))) < 4999999)%Z ->
    GroupBy.separate requested -> (forall f c, In (f, c) requested -> GroupBy.suitable read f c) ->
    (forall f c, In (f, c) requested -> ~ In (agg_name f c) columns) ->
    (forall c r group, In (AVG, c) requested -> In r read -> GroupBy.group_of columns r read group ->
                       GroupBy.has_values requested group -> 0 < GroupBy.counted c group) ->
    (forall m, last_of limit_of cs = Some m -> (0 < m)%Z) ->
    exists groups, GroupBy.group_by_is columns requested read groups /\
      forall having, having_keeps (filter_where float_of date_of py_is matches) cs (values_of quotient groups) having ->
      (forall r, In r having -> renamable xs r) ->
      (existsb asks_distinct cs = true -> told_apart hash (shown xs having)) -> orderable cs (shown xs having) ->
      exists once out, kept_once (existsb asks_distinct cs) (shown xs having) once /\ in_order_and_limited cs once out /\
        forall fuel, length (text_of ps) < fuel -> answer fuel in_memory (text_of ps) = Ok out.
  Proof.
    intros HG Hn Hrows G S W Hsel Hfrom Hsafe Hwhere HC HB Hpick Hx Hcols Hp Hreq Hne ND Hstar A read K1 K2 K3 K4 K5 K6 Hlim.
    destruct (blobs_given float_of date_of py_is matches _ t blobs goods HG HB) as (lost & H1 & H2 & H3 & H4).
    apply (grouped_query_until ps ws cs e xs d text t (concat goods) lost kept columns requested in_memory); try assumption.
    - intros r Hr. apply Hrows, H4, in_or_app. now left.
    - intros r Hr. exact (A r (H4 r Hr)).
  Qed.
End Answer.
