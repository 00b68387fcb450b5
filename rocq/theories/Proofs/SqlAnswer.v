(** Proofs: the answer of a query with AS, DISTINCT, GROUP BY and HAVING. *)
From Coq Require Import Lia.
From Verif.Base Require Import Py Value PyFacts ValueFacts.
From Verif.Model Require Import Tokens Splitter Evaluator DictSet GroupBy Sql.
From Verif.Spec Require Import Tokens DictSet Evaluator Sql SqlAnswer.
From Verif.Spec Require GroupBy.
From Verif.Proofs Require Import Tokens Labels Sql SqlText SqlStatement SqlEnds SqlReader.
From Verif.Proofs Require SqlParse Evaluator Functions Sorting DictSet GroupBy.

(** ** Renaming *)
Lemma dget_filter_other k q (r : record) : q <> k -> dget str_eqb q (filter (fun kv => negb (str_eqb (fst kv) k)) r) = dget str_eqb q r.
Proof.
  intros H. induction r as [|[a v] r IH]; [reflexivity|]. cbn [filter fst dget].
  destruct (str_eqb a k) eqn:E; cbn [negb].
  - apply str_eqb_eq in E. subst a. rewrite IH. destruct (str_eqb q k) eqn:E2; auto. apply str_eqb_eq in E2. congruence.
  - cbn [dget]. now rewrite IH.
Qed.
Lemma dget_filter_same k (r : record) : dget str_eqb k (filter (fun kv => negb (str_eqb (fst kv) k)) r) = None.
Proof.
  induction r as [|[a v] r IH]; [reflexivity|]. cbn [filter fst]. destruct (str_eqb a k) eqn:E; cbn [negb]; auto.
  cbn [dget]. destruct (str_eqb k a) eqn:E2; auto. apply str_eqb_eq in E2. subst a. now rewrite str_eqb_refl in E.
Qed.

Lemma rename_fold R : forall ks r, NoDup ks -> (forall k, In k ks -> In k (dkeys r)) ->
  (forall k n, In k ks -> dget str_eqb k R = Some n -> ~ In n ks) ->
  (forall q, (forall k, In k ks -> dget str_eqb k R <> Some q) -> (In q ks -> dget str_eqb q R = None) ->
     rget q (fold_left (rename_one R) ks r) = rget q r) /\
  (forall k n, In k ks -> dget str_eqb k R = Some n -> (forall k', In k' ks -> dget str_eqb k' R = Some n -> k' = k) ->
     rget n (fold_left (rename_one R) ks r) = rget k r).
Proof.
  induction ks as [|k0 ks IH]; intros r ND Hin Hfresh; [split; [auto|intros ? ? []]|].
  inversion ND as [|? ? Nin ND']; subst.
  assert (Hk0 : In k0 (dkeys r)) by (apply Hin; now left).
  destruct (dget str_eqb k0 r) as [v|] eqn:Ev; [|apply (dget_None str_eqb str_keqb) in Ev; contradiction].
  set (r' := rename_one R r k0).
  assert (Hother : forall q, dget str_eqb k0 R <> Some q -> q <> k0 \/ dget str_eqb k0 R = None -> dget str_eqb q r' = dget str_eqb q r).
  { intros q H1 H2. unfold r', rename_one. destruct (dget str_eqb k0 R) as [n|] eqn:En; auto. rewrite Ev.
    destruct H2 as [H2|]; [|discriminate]. rewrite dget_dset_other by (try exact str_keqb; congruence). now apply dget_filter_other. }
  assert (Hin' : forall k, In k ks -> In k (dkeys r')).
  { intros k Hk. assert (Hr : In k (dkeys r)) by (apply Hin; now right).
    assert (k <> k0) by congruence.
    destruct (dget str_eqb k r') eqn:E; [apply (dget_Some_keys str_eqb str_keqb) in E; auto|].
    rewrite Hother in E; [apply (dget_None str_eqb str_keqb) in E; contradiction| |auto].
    intros E2. apply (Hfresh k0 k); auto; ((now left) || (now right)). }
  assert (Hfresh' : forall k n, In k ks -> dget str_eqb k R = Some n -> ~ In n ks).
  { intros k n Hk E H. apply (Hfresh k n); auto; now right. }
  destruct (IH r' ND' Hin' Hfresh') as [I1 I2]. cbn [fold_left]. fold r'. split.
  - intros q Hq Hq'. rewrite I1.
    + unfold rget. rewrite Hother; auto. { apply Hq. now left. }
      destruct (str_eqb q k0) eqn:E; [|left; intros ->; now rewrite str_eqb_refl in E]. apply str_eqb_eq in E. subst q.
      right. apply Hq'. now left.
    + intros k Hk. apply Hq. now right.
    + intros H. apply Hq'. now right.
  - intros k n [<-|Hk] En Hu.
    + rewrite I1.
      * unfold r', rename_one, rget. rewrite En, Ev. now rewrite dget_dset_same by exact str_keqb.
      * intros k' Hk' E. assert (k' = k0) by (apply Hu; auto; now right). congruence.
      * intros H. exfalso. apply (Hfresh k0 n); auto; ((now left) || (now right)).
    + rewrite (I2 k n Hk En); [|intros k' Hk' E; apply Hu; auto; now right].
      unfold rget. rewrite Hother; auto; [|left; congruence].
      intros E. apply (Hfresh k0 k); auto; ((now left) || (now right)).
Qed.

Section Renames.
  Context (float_of date_of : str -> option value) (HF : reads_floats float_of).
  Notation label := (get_token_type float_of date_of).
  Notation entry := (Evaluator.entry_item float_of date_of).

  Lemma entry_alias x : item_alias (entry x) = snd x.
  Proof. destruct x as [[w|f args] a]; reflexivity. Qed.
  Lemma entry_name x : Evaluator.good_expr float_of date_of (fst x) -> get_function_name (entry x) = plain_text (fst x).
  Proof. intros G. exact (Evaluator.function_name float_of date_of HF (fun _ _ => Ok VNull) _ (fst x) (snd x) (le_n _) G). Qed.

  Lemma renames_from xs : Forall (fun x => Evaluator.good_expr float_of date_of (fst x)) xs ->
    forall k n, dget str_eqb k (renames_of (map entry xs)) = Some n -> exists x, In x xs /\ snd x = Some n /\ plain_text (fst x) = k.
  Proof.
    induction xs as [|x xs IH] using rev_ind; intros G k n; [discriminate|]. apply Forall_app in G as [G Gx].
    inversion_clear Gx as [|? ? Gx' _]. unfold renames_of. rewrite map_app, fold_left_app. cbn [map fold_left].
    fold (renames_of (map entry xs)). rewrite entry_alias, entry_name by auto. intros H.
    assert (Old : dget str_eqb k (renames_of (map entry xs)) = Some n -> exists x0, In x0 (xs ++ [x]) /\ snd x0 = Some n /\ plain_text (fst x0) = k).
    { intros E. destruct (IH G k n E) as (x0 & I & E1). exists x0. split; auto. apply in_or_app. auto. }
    destruct (snd x) as [[|c a]|] eqn:Ea; auto.
    destruct (str_eqb k (plain_text (fst x))) eqn:E.
    - apply str_eqb_eq in E. subst k. rewrite dget_dset_same in H by exact str_keqb. exists x. split; [apply in_or_app; right; now left|]. split; congruence.
    - rewrite dget_dset_other in H; auto; [exact str_keqb|]. intros ->. now rewrite str_eqb_refl in E.
  Qed.

  Lemma renames_has xs : Forall (fun x => Evaluator.good_expr float_of date_of (fst x)) xs ->
    forall x n, In x xs -> snd x = Some n -> n <> [] -> exists m, dget str_eqb (plain_text (fst x)) (renames_of (map entry xs)) = Some m.
  Proof.
    induction xs as [|y xs IH] using rev_ind; intros G x n Hx; [destruct Hx|]. apply Forall_app in G as [G Gx].
    inversion_clear Gx as [|? ? Gx' _]. unfold renames_of. rewrite map_app, fold_left_app. cbn [map fold_left].
    fold (renames_of (map entry xs)). rewrite entry_alias, entry_name by auto. intros Ea Hn.
    assert (Old : In x xs -> exists m, dget str_eqb (plain_text (fst x)) (renames_of (map entry xs)) = Some m).
    { intros I. eauto. }
    destruct (snd y) as [[|c a]|] eqn:Ey.
    - apply Old. apply in_app_or in Hx as [Hx|[->|[]]]; auto. congruence.
    - destruct (str_eqb (plain_text (fst x)) (plain_text (fst y))) eqn:E.
      + apply str_eqb_eq in E. rewrite E. rewrite dget_dset_same by exact str_keqb. eauto.
      + rewrite dget_dset_other by (try exact str_keqb; intros E2; rewrite E2, str_eqb_refl in E; discriminate).
        apply Old. apply in_app_or in Hx as [Hx|[->|[]]]; auto. rewrite str_eqb_refl in E. discriminate.
    - apply Old. apply in_app_or in Hx as [Hx|[->|[]]]; auto. congruence.
  Qed.

  Lemma NoDup_map_eq {A B} (f : A -> B) l x y : NoDup (map f l) -> In x l -> In y l -> f x = f y -> x = y.
  Proof.
    induction l as [|a l IH]; [intros _ []|]. cbn [map]. intros ND. inversion_clear ND as [|? ? N1 N2].
    intros [->|Hx] [->|Hy] E; auto; exfalso; apply N1; [rewrite E|rewrite <- E]; now apply in_map.
  Qed.

  Lemma renamed xs r : Forall (fun x => Evaluator.good_expr float_of date_of (fst x)) xs ->
    Forall (fun x => forall n, snd x = Some n -> n <> []) xs ->
    NoDup (map asked_name xs) -> renamable xs r ->
    forall x, In x xs -> rget (asked_name x) (perform_renames (renames_of (map entry xs)) r) = rget (source_name x) r.
  Proof.
    intros G Hne NDa (NDr & NDs & Hal) x Hx. unfold perform_renames. set (R := renames_of (map entry xs)).
    assert (Hfresh : forall k n, In k (dkeys r) -> dget str_eqb k R = Some n -> ~ In n (dkeys r)).
    { intros k n Hk E. destruct (renames_from xs G k n E) as (y & Hy & Ey & <-). specialize (Hal y n Hy Ey).
      destruct (is_function y); [contradiction|exact Hal]. }
    destruct (rename_fold R (dkeys r) r NDr (fun k H => H) Hfresh) as [F1 F2].
    (* a renamed key belongs to one entry, which is no function *)
    assert (Owner : forall k n, In k (dkeys r) -> dget str_eqb k R = Some n ->
      exists y, In y xs /\ snd y = Some n /\ plain_text (fst y) = k /\ is_function y = false /\ asked_name y = n /\ source_name y = k).
    { intros k n Hk E. destruct (renames_from xs G k n E) as (y & Hy & Ey & Ek). exists y. pose proof (Hal y n Hy Ey) as H.
      assert (is_function y = false) by (destruct (is_function y); auto; subst k; contradiction).
      unfold asked_name, source_name. rewrite Ey, H0. repeat split; auto. }
    destruct (snd x) as [n|] eqn:Ex; [destruct (is_function x) eqn:Ef|].
    - (* a function with a name *)
      assert (As : asked_name x = n) by (unfold asked_name; now rewrite Ex).
      assert (So : source_name x = n) by (unfold source_name; now rewrite Ef). rewrite As, So. apply F1.
      + intros k Hk E. destruct (Owner k n Hk E) as (y & Hy & _ & _ & Fy & Ay & _).
        assert (y = x) by (apply (NoDup_map_eq asked_name xs); auto; congruence). congruence.
      + intros Hk. destruct (dget str_eqb n R) as [m|] eqn:E; auto. destruct (Owner n m Hk E) as (y & Hy & _ & _ & Fy & _ & Sy).
        assert (y = x) by (apply (NoDup_map_eq source_name xs); auto; congruence). congruence.
    - (* another entry with a name *)
      assert (As : asked_name x = n) by (unfold asked_name; now rewrite Ex).
      assert (So : source_name x = plain_text (fst x)) by (unfold source_name; now rewrite Ef). rewrite As, So.
      pose proof (Hal x n Hx Ex) as Hn. rewrite Ef in Hn. set (k := plain_text (fst x)) in *.
      destruct (in_dec (list_eq_dec Ascii.ascii_dec) k (dkeys r)) as [Hk|Hk].
      + assert (Hnn : n <> []) by (rewrite Forall_forall in Hne; eauto).
        destruct (renames_has xs G x n Hx Ex Hnn) as (m & Em). fold R in Em. fold k in Em.
        assert (m = n). { destruct (Owner k m Hk Em) as (y & Hy & Ey & _ & _ & _ & Sy).
          assert (y = x) by (apply (NoDup_map_eq source_name xs); auto; congruence). congruence. }
        subst m. apply F2; auto. intros k' Hk' E'. destruct (Owner k' n Hk' E') as (y & Hy & Ey & _ & _ & Ay & Sy).
        assert (y = x) by (apply (NoDup_map_eq asked_name xs); auto; congruence). congruence.
      + rewrite F1.
        * unfold rget. apply (dget_None str_eqb str_keqb) in Hk, Hn. now rewrite Hk, Hn.
        * intros k' Hk' E'. destruct (Owner k' n Hk' E') as (y & Hy & Ey & _ & _ & Ay & Sy).
          assert (y = x) by (apply (NoDup_map_eq asked_name xs); auto; congruence). congruence.
        * intros H. contradiction.
    - (* its own name *)
      assert (As : asked_name x = plain_text (fst x)) by (unfold asked_name; now rewrite Ex).
      assert (So : source_name x = plain_text (fst x)) by (unfold source_name; rewrite As; now destruct (is_function x)). rewrite As, So.
      apply F1.
      + intros k Hk E. destruct (Owner k _ Hk E) as (y & Hy & Ey & _ & Fy & Ay & _).
        assert (y = x) by (apply (NoDup_map_eq asked_name xs); auto; congruence). congruence.
      + intros Hk. destruct (dget str_eqb (plain_text (fst x)) R) as [m|] eqn:E; auto. destruct (Owner _ m Hk E) as (y & Hy & Ey & _ & Fy & _ & Sy).
        assert (y = x) by (apply (NoDup_map_eq source_name xs); auto; congruence). congruence.
  Qed.
End Renames.

Lemma first_occurrences_in {A} (same : A -> A -> Prop) before l out : first_occurrences same before l out -> forall x, In x out -> In x l.
Proof. induction 1; intros y Hy; auto; [destruct Hy as [->|Hy]; [now left|right; auto]|right; auto]. Qed.

Section Answers.
  Context (float_of date_of : str -> option value) (HF : reads_floats float_of).
  Context (reader : str -> str -> option str -> result (list record)) (where_ : str -> list record -> result (list record))
          (quotient : Z -> Z -> value) (hash : str -> Z) (xxh : str -> N).
  Notation answer := (sql_reader float_of date_of reader where_ quotient hash xxh).
  Notation label := (get_token_type float_of date_of).
  Notation entry := (Evaluator.entry_item float_of date_of).
  Notation rows_of := (sql_rows where_ quotient hash xxh).
  Notation grouped_rows := (group_rows quotient xxh).

  Lemma orderable_in cs rows rows' : (forall r, In r rows' -> In r rows) -> orderable cs rows -> orderable cs rows'.
  Proof.
    intros Hin Ho column E Hc. destruct (Ho column E Hc) as [H|H]; [left|right]; intros r Hr; apply H; auto.
  Qed.

  Lemma selected_shown xs e r : written_list label xs e -> NoDup (map asked_name xs) -> renamable xs r ->
    select_one (map asked_name xs) (perform_renames (renames_of (map entry xs)) r) =
    map (fun x => (asked_name x, rget (source_name x) r)) xs.
  Proof.
    intros W ND Hr. unfold select_one. rewrite map_map. rewrite DictSet.mkdict_id by (rewrite map_map; exact ND).
    apply map_ext_in. intros x Hx. f_equal.
    apply (renamed float_of date_of HF); auto; [exact (Evaluator.written_list_good float_of date_of xs e W)|exact (Evaluator.names_nonempty float_of date_of xs e W)].
  Qed.

  Lemma shown_selected xs e kept : written_list label xs e -> get_fields (map entry xs) = map asked_name xs ->
    NoDup (map asked_name xs) -> ~ In $"*" (map asked_name xs) -> (forall r, In r kept -> renamable xs r) ->
    select (get_fields (map entry xs))
      (match renames_of (map entry xs) with [] => kept | rs => map (perform_renames rs) kept end) = shown xs kept.
  Proof.
    intros W HFi ND Hstar Hren. rewrite HFi.
    assert (Er : match renames_of (map entry xs) with [] => kept | rs => map (perform_renames rs) kept end =
                 map (perform_renames (renames_of (map entry xs))) kept).
    { destruct (renames_of (map entry xs)) eqn:E; auto. rewrite <- (map_id kept) at 1. apply map_ext. intros r.
      unfold perform_renames. clear. generalize (dkeys r) as ks. intros ks. revert r. induction ks; intros r; auto. cbn. apply IHks. }
    rewrite Er. unfold select.
    assert (E1 : str_mem $"*" (map asked_name xs) = false).
    { destruct (str_mem $"*" (map asked_name xs)) eqn:E; auto. apply DictSet.str_mem_In in E. contradiction. }
    assert (E2 : list_eqb str_eqb (map asked_name xs) [$"*"] = false).
    { destruct (list_eqb str_eqb (map asked_name xs) [$"*"]) eqn:E; auto. exfalso. apply Hstar.
      destruct (map asked_name xs) as [|a l]; [discriminate E|]. cbn [list_eqb] in E. apply andb_prop in E as [E _].
      apply str_eqb_eq in E. subst a. now left. }
    rewrite E1, E2. rewrite map_map. unfold shown. apply map_ext_in. intros r Hr. apply (selected_shown xs e); auto.
  Qed.

  Lemma tail_answer in_memory st cs items rows grouped kept cols :
    grouped_rows st items rows = Ok grouped ->
    distinct_rows st = existsb asks_distinct cs -> having st = last_of having_of cs -> order_by st = last_of order_of cs ->
    order_descending st = (match last_of descending_of cs with Some b => b | None => false end) -> limit st = last_of limit_of cs ->
    having_keeps where_ cs grouped kept ->
    select (get_fields items) (match renames_of items with [] => kept | rs => map (perform_renames rs) kept end) = cols ->
    (existsb asks_distinct cs = true -> told_apart hash cols) -> orderable cs cols ->
    (forall n, last_of limit_of cs = Some n -> (0 < n)%Z) ->
    exists once out, kept_once (existsb asks_distinct cs) cols once /\ in_order_and_limited cs once out /\
      rows_of in_memory st items rows = Ok out.
  Proof.
    intros Hg Ed Eh Eo Eod El Hk Hsel Hapart Hord Hlim.
    assert (Hh : match having st with Some ((_ :: _) as h) => where_ h grouped | _ => Ok grouped end = Ok kept).
    { rewrite Eh. unfold having_keeps in Hk. destruct (last_of having_of cs) as [[|c h]|]; subst; auto. }
    assert (Honce : exists once, kept_once (existsb asks_distinct cs) cols once /\ (forall r, In r once -> In r cols) /\
      (if distinct_rows st then distinct hash [] cols else cols) = once).
    { rewrite Ed. unfold kept_once. destruct (existsb asks_distinct cs); [|eexists; eauto].
      destruct (Hapart eq_refl) as (H0 & H1 & H2).
      assert (F : first_occurrences eq [] cols (distinct hash [] cols)).
      { apply DictSet.distinct_rows_texts with (names := match cols with r :: _ => map fst r | [] => [] end); auto.
        intros r Hr. destruct cols as [|r0 cols']; [destruct Hr|]. apply H0; auto. now left. }
      eexists. split; [exact F|]. split; auto. eapply first_occurrences_in; eauto. }
    destruct Honce as (once & Ho1 & Ho2 & Ho3). exists once.
    pose proof (orderable_in cs _ once Ho2 Hord) as Hord'.
    assert (Hrows : rows_of in_memory st items rows =
      let* rows' := match last_of order_of cs with
                   | Some ((_ :: _) as column) =>
                       let n := match last_of limit_of cs with Some n => if (n =? 0)%Z then 10000%Z else n | None => 10000%Z end in
                       sort_and_take in_memory column n (match last_of descending_of cs with Some b => b | None => false end) once
                   | _ => Ok once
                   end in
      Ok (match last_of limit_of cs with Some n => if (n =? 0)%Z then rows' else take n rows' | None => rows' end)).
    { unfold sql_rows. rewrite Hg. cbn [bind]. rewrite Hh. cbn [bind]. cbv zeta. rewrite Hsel, Ho3, Eo, Eod, El. reflexivity. }
    rewrite Hrows. clear Hrows.
    assert (Take : forall l, match last_of limit_of cs with Some n => if (n =? 0)%Z then l else take n l | None => l end = limited (last_of limit_of cs) l).
    { intros l. destruct (last_of limit_of cs) as [n|] eqn:En; [|reflexivity]. specialize (Hlim n eq_refl).
      assert (E : (n =? 0)%Z = false) by (apply Z.eqb_neq; lia). rewrite E. cbn [limited].
      replace n with (Z.of_nat (Z.to_nat n)) at 1 by lia. apply DictSet.take_spec. lia. }
    unfold in_order_and_limited. unfold orderable in Hord'. destruct (last_of order_of cs) as [[|c column]|].
    { exists (limited (last_of limit_of cs) once). split; [exact Ho1|]. split; [reflexivity|]. cbn [bind]. now rewrite Take. }
    2:{ exists (limited (last_of limit_of cs) once). split; [exact Ho1|]. split; [reflexivity|]. cbn [bind]. now rewrite Take. }
    specialize (Hord' _ eq_refl ltac:(discriminate)).
    set (n := match last_of limit_of cs with Some n => Z.to_nat n | None => N.to_nat 10000 end).
    assert (Hn : (match last_of limit_of cs with Some n => if (n =? 0)%Z then 10000%Z else n | None => 10000%Z end) = Z.of_nat n).
    { unfold n. destruct (last_of limit_of cs) as [z|] eqn:En.
      - specialize (Hlim z eq_refl). assert (E : (z =? 0)%Z = false) by (apply Z.eqb_neq; lia). rewrite E. lia.
      - rewrite N_nat_Z. reflexivity. }
    rewrite Hn.
    destruct (Sorting.sort_and_take_spec in_memory (c :: column) n
                (match last_of descending_of cs with Some b => b | None => false end) _ Hord') as (full & Hs & E).
    exists (firstn n full). split; [exact Ho1|]. split; [exists full; split; [exact Hs|reflexivity]|]. cbv zeta. rewrite E. cbn [bind]. rewrite Take. f_equal. unfold limited.
    unfold n. destruct (last_of limit_of cs) as [z|]; auto. rewrite firstn_firstn, Nat.min_id. reflexivity.
  Qed.

  Lemma query_shorter cs s q : written_parts cs s -> last_of from_of cs = Some (inr q) -> length q < length s.
  Proof.
    assert (One : forall p t, written_part p t -> from_of p = Some (inr q) -> length q < length t).
    { intros p t H E. destruct H; cbn in E; try discriminate E. injection E as <-. rewrite !app_length. cbn. lia. }
    intros W. revert q One. induction W as [p s H|p s ps s' H He Hn W IH]; intros q One; cbn [last_of].
    - apply One. exact H.
    - rewrite app_length. destruct (last_of from_of ps) as [x|] eqn:E.
      + intros Ex. injection Ex as ->. pose proof (IH q One eq_refl). lia.
      + intros Ep. pose proof (One _ _ H Ep). lia.
  Qed.

  Lemma answer_run ps ws cs e xs rows in_memory :
    good_pieces ps -> spread ws (text_of (without_comments ps)) -> written_parts cs (join $" " ws) ->
    last_of select_of cs = Some e -> source_gives reader (fun fuel q => answer fuel in_memory q) cs e rows ->
    written_list label xs e ->
    exists st,
      (forall fuel, length (text_of ps) < fuel -> answer fuel in_memory (text_of ps) = rows_of in_memory st (map entry xs) rows) /\
      distinct_rows st = existsb asks_distinct cs /\ group_by st = last_of group_of cs /\ having st = last_of having_of cs /\ order_by st = last_of order_of cs /\
      order_descending st = (match last_of descending_of cs with Some b => b | None => false end) /\ limit st = last_of limit_of cs.
  Proof.
    intros G S W Hsel Hsrc Hx.
    destruct (statement_parts float_of date_of HF ps ws cs G S W) as (st & P & A1 & A2 & A3 & A4 & A5 & A6 & A7 & A8 & A9).
    { congruence. } { unfold source_gives in Hsrc. destruct (last_of from_of cs) as [[d|q]|]; tauto. }
    assert (Hq : forall q, last_of from_of cs = Some (inr q) -> length q < length (text_of ps)).
    { intros q E. pose proof (query_shorter cs _ q W E). pose proof (SqlText.spread_shorter ws _ S). pose proof (SqlText.without_shorter ps). lia. }
    rewrite Hsel in A1. exists st. split.
    { intros fuel L. destruct fuel as [|f]; [lia|]. cbn [sql_reader]. unfold sql_parser. rewrite P by lia. cbn [bind]. rewrite A1.
      rewrite (Evaluator.select_list_items float_of date_of HF xs e Hx). cbn [bind].
      unfold source_gives in Hsrc. destruct (last_of from_of cs) as [[d|q]|]; [| |contradiction].
      - rewrite A9, A1. destruct Hsrc as [_ Hread]. unfold actual_select. rewrite A3, Hread. reflexivity.
      - destruct A9 as (ts & Ets & A9). rewrite A9, Ets. rewrite Hsrc; [reflexivity|]. specialize (Hq q eq_refl). lia. }
    repeat split; auto.
  Qed.

  Lemma plain_fields xs e : written_list label xs e -> Forall (plain_entry label) xs ->
    get_fields (map entry xs) = map asked_name xs /\
    existsb (fun i => ttype_beq (item_type i) AGGREGATOR) (map entry xs) = false.
  Proof.
    intros W F. split.
    - destruct (Evaluator.select_list_fields float_of date_of xs e HF W) as (items & E & G).
      + rewrite Forall_forall in *. intros x Hx w Ew. specialize (F x Hx). unfold plain_entry in F. rewrite Ew in F. split.
        * intros H. apply F. cbn in *. tauto.
        * intros ->. exfalso. apply F. right. right. left. symmetry. reflexivity.
      + rewrite (Evaluator.select_list_items float_of date_of HF xs e W) in E. injection E as <-. exact G.
    - pose proof (Evaluator.written_list_good float_of date_of xs e W) as Gd. clear W. induction F as [|x xs Fs F IH]; auto. cbn [map existsb]. inversion Gd as [|? ? Gx Gr]; subst.
      rewrite (IH Gr), orb_false_r. unfold Evaluator.entry_item. unfold plain_entry in Fs. destruct (fst x) as [w|f args]; cbn [Evaluator.item_of item_type].
      + cbn in Gx. destruct Gx as [Gx _]. destruct (label w); try reflexivity. cbn in Gx. exfalso. intuition discriminate.
      + assert (L : label f = FUNCTION) by (apply labels_spec; auto; now constructor). now rewrite L.
  Qed.

  Lemma plain_answer ps ws cs e xs rows kept in_memory :
    good_pieces ps -> spread ws (text_of (without_comments ps)) -> written_parts cs (join $" " ws) ->
    last_of select_of cs = Some e -> source_gives reader (fun fuel q => answer fuel in_memory q) cs e rows ->
    written_list label xs e -> last_of group_of cs = None -> having_keeps where_ cs rows kept -> good_list label xs kept ->
    (existsb asks_distinct cs = true -> told_apart hash (columns_of xs kept)) -> orderable cs (columns_of xs kept) ->
    (forall n, last_of limit_of cs = Some n -> (0 < n)%Z) ->
    exists once out, kept_once (existsb asks_distinct cs) (columns_of xs kept) once /\ in_order_and_limited cs once out /\
      forall fuel, length (text_of ps) < fuel -> answer fuel in_memory (text_of ps) = Ok out.
  Proof.
    intros G S W Hsel Hsrc Hx Hgroup Hk Hl Hapart Hord Hlim.
    destruct (answer_run ps ws cs e xs rows in_memory G S W Hsel Hsrc Hx) as (st & R & A1 & A2 & A3 & A4 & A5 & A6).
    assert (Hag : existsb (fun i => ttype_beq (item_type i) AGGREGATOR) (map entry xs) = false).
    { destruct Hl as [->|(Hp & _)]; [reflexivity|exact (proj2 (plain_fields xs e Hx Hp))]. }
    assert (Hg : grouped_rows st (map entry xs) rows = Ok rows).
    { unfold group_rows. rewrite A2, Hgroup, Hag. reflexivity. }
    assert (Hc : select (get_fields (map entry xs)) (match renames_of (map entry xs) with [] => kept | rs => map (perform_renames rs) kept end) = columns_of xs kept).
    { destruct Hl as [->|(Hp & ND & Hstar & Hren)]; [reflexivity|].
      rewrite (shown_selected xs e); auto; [|exact (proj1 (plain_fields xs e Hx Hp))].
      destruct xs as [|[[w|f args] [n|]] [|y xs]]; try reflexivity. cbn [columns_of].
      destruct (str_eqb w $"*") eqn:E; auto. apply str_eqb_eq in E. subst w. exfalso. apply Hstar. now left. }
    destruct (tail_answer in_memory st cs (map entry xs) rows rows kept _ Hg A1 A3 A4 A5 A6 Hk Hc Hapart Hord Hlim) as (once & out & O1 & O2 & O3).
    exists once, out. split; auto. split; auto. intros fuel L. rewrite R by auto. exact O3.
  Qed.

  Lemma strip_blanks a c b : blanks a -> blanks b -> strip c = c -> c <> [] -> strip (a ++ c ++ b) = c.
  Proof. intros. rewrite SqlParse.strip_sides; auto. Qed.

  Lemma grouped_columns cs columns st : grouping_columns cs columns -> group_by st = last_of group_of cs ->
    match group_by st with
    | Some ((_ :: _) as g) => filter (fun x => negb (str_eqb x [])) (map strip (split ","%char g))
    | _ => [$"*"]
    end = columns.
  Proof.
    unfold grouping_columns. intros H ->. destruct (last_of group_of cs) as [g|]; [|symmetry; exact H].
    destruct H as (Hg & padded & E & F & T).
    destruct g as [|c0 g0] eqn:Eg; [contradiction|]. rewrite E. clear Eg.
    assert (Hp : padded <> []) by (destruct padded; [discriminate E|discriminate]).
    rewrite split_join.
    - clear E Hp. induction F as [|p c padded columns (a & b & -> & Ha & Hb) F IH]; [reflexivity|].
      inversion_clear T as [|? ? [Tc Tn] T']. cbn [map filter]. destruct Tc as [Tc1 Tc2]. rewrite strip_blanks by auto.
      destruct (str_eqb c []) eqn:Ec; [apply str_eqb_eq in Ec; contradiction|]. cbn [negb]. now rewrite IH.
    - exact Hp.
    - clear E Hp. induction F as [|p c padded columns (a & b & -> & Ha & Hb) F IH]; [intros ? []|].
      inversion_clear T as [|? ? [Tc Tn] T']. intros w [<-|Hw]; [|now apply IH]. intros H. rewrite !in_app_iff in H.
      destruct H as [H|[H|H]]; [apply Ha in H; discriminate H|contradiction|apply Hb in H; discriminate H].
  Qed.

  Lemma func_of_name fn : func_of (func_name fn) = Some fn.
  Proof. destruct fn; reflexivity. Qed.

  Lemma requests_items xs rs columns : requests xs rs -> Forall (grouped_entry label columns) xs ->
    Forall (fun x => Evaluator.good_expr float_of date_of (fst x)) xs ->
    mapM aggregation_of (map entry xs) = Ok (map (fun x => match fst x with Call f [Atom c] => match func_of (upper f) with Some fn => [(fn, c)] | None => [] end | _ => [] end) xs) /\
    concat (map (fun x => match fst x with Call f [Atom c] => match func_of (upper f) with Some fn => [(fn, c)] | None => [] end | _ => [] end) xs) = rs /\
    existsb (fun i => ttype_beq (item_type i) VARIABLE && negb (str_mem (item_value i) columns)) (map entry xs) = false /\
    (rs <> [] -> existsb (fun i => ttype_beq (item_type i) AGGREGATOR) (map entry xs) = true).
  Proof.
    induction 1 as [|w n xs rs R IH|fn f c n xs rs Ef R IH]; intros F G.
    - repeat split; auto.
    - inversion_clear F as [|? ? Fx Fr]. inversion_clear G as [|? ? Gx Gr]. destruct (IH Fr Gr) as (I1 & I2 & I3 & I4).
      cbn [fst] in *. destruct Fx as [Lw Iw]. cbn [fst] in *.
      cbn [map mapM existsb concat fst]. unfold Evaluator.entry_item at 1. cbn [fst snd Evaluator.item_of aggregation_of].
      rewrite Lw. cbn [bind]. rewrite I1. cbn [bind app]. repeat split; auto.
      + unfold Evaluator.entry_item at 1 2. cbn [fst snd Evaluator.item_of item_type item_value]. rewrite Lw. cbn [ttype_beq andb].
        apply DictSet.str_mem_In in Iw. rewrite Iw. exact I3.
      + intros H. rewrite (I4 H). apply orb_true_r.
    - inversion_clear F as [|? ? Fx Fr]. inversion_clear G as [|? ? Gx Gr]. destruct (IH Fr Gr) as (I1 & I2 & I3 & I4).
      assert (L : label f = AGGREGATOR).
      { apply labels_spec; auto. constructor. rewrite Ef. destruct fn; cbn; tauto. }
      cbn [map mapM existsb concat fst]. unfold Evaluator.entry_item at 1. cbn [fst snd Evaluator.item_of map aggregation_of].
      rewrite L, Ef, func_of_name. cbn [item_value bind]. rewrite I1. cbn [bind]. repeat split.
      + cbn [app]. now rewrite I2.
      + unfold Evaluator.entry_item at 1. cbn [fst snd Evaluator.item_of item_type]. rewrite L. exact I3.
      + intros _. unfold Evaluator.entry_item at 1. cbn [fst snd Evaluator.item_of item_type]. rewrite L. reflexivity.
  Qed.

  Lemma grouped_fields xs e columns : written_list label xs e -> Forall (grouped_entry label columns) xs ->
    get_fields (map entry xs) = map asked_name xs.
  Proof.
    intros W F. destruct (Evaluator.select_list_fields float_of date_of xs e HF W) as (items & E & G).
    - rewrite Forall_forall in *. intros x Hx w Ew. specialize (F x Hx). unfold grouped_entry in F. rewrite Ew in F. destruct F as [L _]. split.
      + rewrite L. cbn. intuition discriminate.
      + intros ->. exfalso. discriminate L.
    - rewrite (Evaluator.select_list_items float_of date_of HF xs e W) in E. injection E as <-. exact G.
  Qed.

  Lemma grouped_answer ps ws cs e xs rows columns requested in_memory :
    good_pieces ps -> spread ws (text_of (without_comments ps)) -> written_parts cs (join $" " ws) ->
    last_of select_of cs = Some e -> source_gives reader (fun fuel q => answer fuel in_memory q) cs e rows ->
    written_list label xs e -> grouping_columns cs columns ->
    Forall (grouped_entry label columns) xs -> requests xs requested -> requested <> [] ->
    NoDup (map asked_name xs) -> ~ In $"*" (map asked_name xs) ->
    (forall a b, In a rows -> In b rows -> (group_key xxh columns a = group_key xxh columns b <-> agree_on columns a b)) ->
    (Z.of_nat (length (dedup str_eqb (map (group_text columns) rows))) < 4999999)%Z ->
    GroupBy.separate requested -> (forall f c, In (f, c) requested -> GroupBy.suitable rows f c) ->
    (forall f c, In (f, c) requested -> ~ In (agg_name f c) columns) ->
    (forall c r group, In (AVG, c) requested -> In r rows -> GroupBy.group_of columns r rows group ->
                       GroupBy.has_values requested group -> 0 < GroupBy.counted c group) ->
    (forall n, last_of limit_of cs = Some n -> (0 < n)%Z) ->
    exists groups, GroupBy.group_by_is columns requested rows groups /\
      forall kept, having_keeps where_ cs (values_of quotient groups) kept -> (forall r, In r kept -> renamable xs r) ->
      (existsb asks_distinct cs = true -> told_apart hash (shown xs kept)) -> orderable cs (shown xs kept) ->
      exists once out, kept_once (existsb asks_distinct cs) (shown xs kept) once /\ in_order_and_limited cs once out /\
        forall fuel, length (text_of ps) < fuel -> answer fuel in_memory (text_of ps) = Ok out.
  Proof.
    intros G S W Hsel Hsrc Hx Hgroup Hp Hreq Hne ND Hstar K1 K2 K3 K4 K5 K6 Hlim.
    destruct (GroupBy.aggregate_spec xxh columns requested rows K1 K2 K3 K4 K5 K6) as (groups & E & Hg). exists groups. split; auto.
    intros kept Hk Hren Hapart Hord.
    destruct (answer_run ps ws cs e xs rows in_memory G S W Hsel Hsrc Hx) as (st & R & A1 & A2 & A3 & A4 & A5 & A6).
    destruct (requests_items xs requested columns Hreq Hp (Evaluator.written_list_good float_of date_of xs e Hx)) as (Q1 & Q2 & Q3 & Q4).
    assert (Hgr : grouped_rows st (map entry xs) rows = Ok (values_of quotient groups)).
    { unfold group_rows. rewrite (grouped_columns cs columns st Hgroup A2), (Q4 Hne), orb_true_r, Q1. cbn [bind]. rewrite Q3, Q2.
      destruct requested as [|q requested]; [congruence|]. rewrite E. reflexivity. }
    destruct (tail_answer in_memory st cs (map entry xs) rows _ kept _ Hgr A1 A3 A4 A5 A6 Hk
                (shown_selected xs e kept Hx (grouped_fields xs e columns Hx Hp) ND Hstar Hren) Hapart Hord Hlim) as (once & out & O1 & O2 & O3).
    exists once, out. split; auto. split; auto. intros fuel L. rewrite R by auto. exact O3.
  Qed.

  (** without aggregates: the groups *)
  Lemma groups_answer ps ws cs e xs rows columns in_memory :
    good_pieces ps -> spread ws (text_of (without_comments ps)) -> written_parts cs (join $" " ws) ->
    last_of select_of cs = Some e -> source_gives reader (fun fuel q => answer fuel in_memory q) cs e rows ->
    written_list label xs e -> last_of group_of cs <> None -> grouping_columns cs columns ->
    Forall (grouped_entry label columns) xs -> requests xs [] ->
    NoDup (map asked_name xs) -> ~ In $"*" (map asked_name xs) ->
    (forall a b, In a rows -> In b rows -> (group_key xxh columns a = group_key xxh columns b <-> agree_on columns a b)) ->
    (Z.of_nat (length (dedup str_eqb (map (group_text columns) rows))) < 4999999)%Z ->
    (forall n, last_of limit_of cs = Some n -> (0 < n)%Z) ->
    exists firsts groups, first_occurrences (agree_on columns) [] rows firsts /\
      Forall2 (fun r o => first_occurrences eq [] columns (map fst o) /\
                          forall c, In c columns -> dget str_eqb c o = Some (rget c r)) firsts groups /\
      forall kept, having_keeps where_ cs groups kept -> (forall r, In r kept -> renamable xs r) ->
      (existsb asks_distinct cs = true -> told_apart hash (shown xs kept)) -> orderable cs (shown xs kept) ->
      exists once out, kept_once (existsb asks_distinct cs) (shown xs kept) once /\ in_order_and_limited cs once out /\
        forall fuel, length (text_of ps) < fuel -> answer fuel in_memory (text_of ps) = Ok out.
  Proof.
    intros G S W Hsel Hsrc Hx Hgn Hgroup Hp Hreq ND Hstar K1 K2 Hlim.
    destruct (GroupBy.groups_spec xxh columns rows K1 K2) as (firsts & groups & E1 & E & E2). exists firsts, groups. split; auto. split; auto.
    intros kept Hk Hren Hapart Hord.
    destruct (answer_run ps ws cs e xs rows in_memory G S W Hsel Hsrc Hx) as (st & R & A1 & A2 & A3 & A4 & A5 & A6).
    destruct (requests_items xs [] columns Hreq Hp (Evaluator.written_list_good float_of date_of xs e Hx)) as (Q1 & Q2 & Q3 & Q4).
    assert (Hgr : grouped_rows st (map entry xs) rows = Ok groups).
    { unfold group_rows. rewrite (grouped_columns cs columns st Hgroup A2).
      assert (Hb : match group_by st with Some (_ :: _) => true | _ => false end = true).
      { rewrite A2. unfold grouping_columns in Hgroup. destruct (last_of group_of cs) as [[|]|]; [destruct Hgroup; congruence|reflexivity|congruence]. }
      rewrite Hb. cbn [orb]. rewrite Q1. cbn [bind]. rewrite Q3, Q2. exact E. }
    destruct (tail_answer in_memory st cs (map entry xs) rows _ kept _ Hgr A1 A3 A4 A5 A6 Hk
                (shown_selected xs e kept Hx (grouped_fields xs e columns Hx Hp) ND Hstar Hren) Hapart Hord Hlim) as (once & out & O1 & O2 & O3).
    exists once, out. split; auto. split; auto. intros fuel L. rewrite R by auto. exact O3.
  Qed.

  (** a column which is not grouped by is refused *)
  Lemma ungrouped_column ps ws cs e xs rows columns w n in_memory :
    good_pieces ps -> spread ws (text_of (without_comments ps)) -> written_parts cs (join $" " ws) ->
    last_of select_of cs = Some e -> source_gives reader (fun fuel q => answer fuel in_memory q) cs e rows ->
    written_list label xs e -> grouping_columns cs columns ->
    (last_of group_of cs <> None \/ exists f args m, In (Call f args, m) xs /\ In (upper f) aggregations) ->
    Forall (fun x => match fst x with
                     | Call f args => In (upper f) aggregations -> exists fn c rest, upper f = func_name fn /\ args = c :: rest
                     | Atom _ => True
                     end) xs ->
    In (Atom w, n) xs -> label w = VARIABLE -> ~ In w columns ->
    forall fuel, length (text_of ps) < fuel -> answer fuel in_memory (text_of ps) = Raise InvalidSqlError.
  Proof.
    intros G S W Hsel Hsrc Hx Hgroup Hsome Hp Hw Lw Nw.
    destruct (answer_run ps ws cs e xs rows in_memory G S W Hsel Hsrc Hx) as (st & R & A1 & A2 & A3 & A4 & A5 & A6).
    intros fuel L. rewrite R by auto. unfold sql_rows.
    assert (Hgr : grouped_rows st (map entry xs) rows = Raise InvalidSqlError).
    { unfold group_rows. rewrite (grouped_columns cs columns st Hgroup A2).
      assert (Hb : match group_by st with Some (_ :: _) => true | _ => false end || existsb (fun i => ttype_beq (item_type i) AGGREGATOR) (map entry xs) = true).
      { destruct Hsome as [Hs|(f & args & m & Hi & Hf)].
        - rewrite A2. unfold grouping_columns in Hgroup. destruct (last_of group_of cs) as [[|]|]; [destruct Hgroup; congruence|reflexivity|congruence].
        - apply orb_true_iff. right. apply existsb_exists. exists (entry (Call f args, m)). split; [now apply in_map|].
          unfold Evaluator.entry_item. cbn [fst snd Evaluator.item_of item_type].
          assert (E : label f = AGGREGATOR) by (apply labels_spec; auto; now constructor). now rewrite E. }
      rewrite Hb. cbv zeta.
      assert (M : exists aggs, mapM aggregation_of (map entry xs) = Ok aggs).
      { pose proof (Evaluator.written_list_good float_of date_of xs e Hx) as Gd. clear - Hp Gd HF. induction Hp as [|[e n] xs He Hp IH]; [eexists; reflexivity|].
        inversion_clear Gd as [|? ? Gx Gr]. destruct (IH Gr) as (aggs & IHe). cbn [fst] in *.
        assert (X : exists a, aggregation_of (entry (e, n)) = Ok a).
        { unfold Evaluator.entry_item. cbn [fst snd]. destruct e as [w|f args].
          - cbn [Evaluator.item_of aggregation_of]. cbn in Gx. destruct Gx as [Gk _]. destruct (label w); try (eexists; reflexivity). cbn in Gk. intuition discriminate.
          - cbn [Evaluator.item_of aggregation_of]. destruct Gx as [Gf _]. apply in_app_or in Gf as [Gf|Gf].
            + assert (E : label f = FUNCTION) by (apply labels_spec; auto; now constructor). rewrite E. eexists; reflexivity.
            + assert (E : label f = AGGREGATOR) by (apply labels_spec; auto; now constructor). rewrite E.
              destruct (He Gf) as (fn & c & rest & Ef & ->). rewrite Ef. cbn [map]. rewrite func_of_name. eexists; reflexivity. }
        destruct X as (a & Ea). cbn [map mapM]. rewrite Ea. cbn [bind]. rewrite IHe. eexists; reflexivity. }
      destruct M as (aggs & M). rewrite M. cbn [bind].
      assert (B : existsb (fun i => ttype_beq (item_type i) VARIABLE && negb (str_mem (item_value i) columns)) (map entry xs) = true).
      { apply existsb_exists. exists (entry (Atom w, n)). split; [now apply in_map|].
        unfold Evaluator.entry_item. cbn [fst snd Evaluator.item_of item_type item_value]. rewrite Lw. cbn [ttype_beq andb].
        destruct (str_mem w columns) eqn:E; auto. apply DictSet.str_mem_In in E. contradiction. }
      now rewrite B. }
    rewrite Hgr. reflexivity.
  Qed.
End Answers.
