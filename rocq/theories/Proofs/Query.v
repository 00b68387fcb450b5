(** Queries over stored records (C83). *)
From Verif.Base Require Import Py PyFacts Value ValueFacts.
From Verif.Model Require Import Tokens Evaluator Expression ToDnf Storage Reader Sql Query.
From Verif.Spec Require Import Tokens DictSet Expression Evaluator Json Reader Sql SqlAnswer Query QueryUntil.
From Verif.Proofs Require Labels Expression Evaluator SqlAnswer Filters GroupBy Stream SqlParse Functions.

Lemma filter_shorter {A} (f : A -> bool) l : length (filter f l) <= length l.
Proof. induction l as [|x l IH]; [apply le_n|]. cbn [filter length]. destruct (f x); cbn [length]; lia. Qed.

(** a reader which gives [rows] when the filter raises for the records [lost] *)
Definition gives_until (read : (value -> result value) -> (value -> result bool) -> nat -> result (list value)) (rows lost : list value) : Prop :=
  forall columns filters c p n, (forall r, In r rows -> applies columns filters c p r) ->
    (forall r, In r lost -> exists v e, columns r = Ok v /\ filters v = Raise e) ->
    read columns filters n = Ok (firstn n (filter p (map c rows))).
Lemma gives_none_lost read rows : gives read rows -> gives_until read rows [].
Proof. intros H columns filters c p n HA _. now apply H. Qed.

Section Query.
  Context (float_of date_of : str -> option value) (HF : reads_floats float_of).
  Context (py_is : value -> value -> bool) (matches : value -> value -> result bool) (apply : str -> list value -> result value).
  Local Notation label := (get_token_type float_of date_of).
  Local Notation ev := (evaluate_recursive float_of date_of py_is matches).
  Local Notation bind_all := Evaluator.bind_all.

  Lemma label_star : label $"*" = EVERYTHING.
  Proof. apply Labels.labels_spec; auto. constructor. Qed.

  (** ** Conditions look at columns only *)
  Lemma interpret_null : interpret_value float_of date_of VNull = VNull.
  Proof. reflexivity. Qed.
  Lemma column_value n r : match dget str_eqb n r with Some v => interpret_value float_of date_of v | None => VNull end
                           = interpret_value float_of date_of (rget n r).
  Proof. unfold rget. destruct (dget str_eqb n r); reflexivity. Qed.
  Lemma ev_ext t a b : (forall n, mentions t n -> rget n a = rget n b) -> ev t a = ev t b.
  Proof.
    induction t; cbn [mentions evaluate_recursive]; intros H; try reflexivity.
    - rewrite !column_value, H; [reflexivity|]. apply Expression.names_wrapped.
    - rewrite IHt1, IHt2 by auto. reflexivity.
    - rewrite IHt by auto. reflexivity.
    - rewrite IHt1, IHt2 by auto. reflexivity.
    - rewrite IHt1, IHt2 by auto. reflexivity.
  Qed.

  Lemma proper_dnf t : proper t -> exists d, to_dnf t = Ok d.
  Proof.
    induction t as [ty v|name| |op a IHa b IHb|a IHa|a IHa b IHb|a IHa b IHb]; cbn [proper to_dnf]; intros H.
    - destruct ty; eauto.
    - eauto.
    - destruct H.
    - destruct H as [H1 H2]. destruct (IHa H1) as [d1 ->], (IHb H2) as [d2 ->]. cbn. eauto.
    - destruct (IHa H) as [d ->]. cbn. eauto.
    - destruct H as [H1 H2]. destruct (IHa H1) as [d1 ->], (IHb H2) as [d2 ->]. cbn. eauto.
    - destruct H as [H1 H2]. destruct (IHa H1) as [d1 ->], (IHb H2) as [d2 ->]. cbn. eauto.
  Qed.

  (** ** The list with a star behind it *)
  Lemma written_star xs e : written_list label xs e -> written_list label (xs ++ everything) (e ++ $", *").
  Proof.
    assert (S : written_list label everything $" *").
    { apply list_one, entry_plain. apply (written_atom label $"*" $" " []).
      - split; [split; [discriminate|reflexivity]|]. split; [split|].
        + intros c [<-|[]]. cbn. intuition discriminate.
        + intros w Hw. vm_compute in Hw. repeat (destruct Hw as [<-|Hw]; [vm_compute; discriminate|]). destruct Hw.
        + rewrite label_star. cbn. tauto.
      - intros c [<-|[]]. reflexivity.
      - intros c []. }
    induction 1 as [x s H|x s xs s' H _ IH].
    - change ([x] ++ everything) with (x :: everything). change $", *" with ($"," ++ $" *"). now apply list_more.
    - rewrite <- !app_assoc. cbn [app]. apply list_more; auto.
  Qed.

  Lemma choose_values xs r : computable float_of date_of apply xs r ->
    exists vs, Forall2 (fun x v => means label float_of date_of apply r (fst x) v) xs vs.
  Proof.
    induction xs as [|x xs IH]; intros H; [exists []; constructor|].
    destruct IH as [vs Hvs]; [intros y Hy; apply H; now right|]. destruct (H x (or_introl eq_refl)) as [v Hv].
    exists (v :: vs). now constructor.
  Qed.
  Lemma value_unique (xs : list (expr * option str)) (r : record) vs : NoDup (map fst r) -> Forall2 (fun x v => means label float_of date_of apply r (fst x) v) xs vs ->
    forall ws, Forall2 (fun x v => means label float_of date_of apply r (fst x) v) xs ws -> vs = ws.
  Proof.
    intros N. induction 1 as [|x v xs vs H _ IH]; intros ws W; inversion W as [|x' w xs' ws' H' W']; subst; [reflexivity|].
    f_equal; [|now apply IH].
    pose proof (Evaluator.means_value float_of date_of HF apply r N _ (fst x) v None (le_n _) H) as E1.
    pose proof (Evaluator.means_value float_of date_of HF apply r N _ (fst x) w None (le_n _) H') as E2. congruence.
  Qed.

  (** ** The record a selection makes *)
  Definition shaped (xs : list (expr * option str)) (vs : list value) (r : record) : record :=
    bind_all (combine (map given_name (xs ++ everything)) (vs ++ [VStr $"*"])) r.
  Lemma binding_nodup k v l : NoDup (map fst l) -> In (k, v) l -> last_binding k l = Some v.
  Proof.
    induction l as [|[n w] l IH]; intros N H; [destruct H|]. cbn [map fst] in N. apply NoDup_cons_iff in N as [Nn N].
    cbn [last_binding]. destruct H as [H|H].
    - injection H as -> ->. destruct (last_binding k l) eqn:E.
      + apply Evaluator.last_binding_In in E. contradiction.
      + now rewrite str_eqb_refl.
    - now rewrite (IH N H).
  Qed.
  Lemma binding_none k l : ~ In k (map fst l) -> last_binding k l = None.
  Proof. intros H. destruct (last_binding k l) eqn:E; [|reflexivity]. now apply Evaluator.last_binding_In in E. Qed.

  Section Shaped.
    Context (xs : list (expr * option str)) (e : str) (W : written_list label xs e) (P : Forall (plain_entry label) xs).
    Context (Na : NoDup (map asked_name xs)) (Ns : ~ In $"*" (map asked_name xs)).

    Lemma not_starred : existsb (fun x => Evaluator.is_star (fst x)) (xs ++ everything) = true.
    Proof. rewrite existsb_app. cbn. apply orb_true_r. Qed.
    Lemma star_means r : means label float_of date_of apply r (Atom $"*") (VStr $"*").
    Proof. apply means_star, label_star. Qed.

    Lemma given_not_star : ~ In $"*" (map given_name xs).
    Proof.
      intros H. apply in_map_iff in H as ([e' a] & E & Hx). unfold given_name in E. cbn [fst] in E.
      destruct e' as [w|f args].
      - subst w. rewrite Forall_forall in P. specialize (P _ Hx). unfold plain_entry in P. cbn [fst] in P. apply P. rewrite label_star. right. right. now left.
      - apply Ns. apply in_map_iff. exists (Call f args, a). auto.
    Qed.
    Lemma given_source x : In x xs -> source_name x = given_name x.
    Proof.
      intros Hx. rewrite Forall_forall in P. specialize (P x Hx). destruct x as [[w|f args] a]; unfold plain_entry in P; cbn [fst] in P; unfold source_name, is_function, given_name; cbn [fst].
      - reflexivity.
      - replace (str_mem (upper f) Spec.Tokens.functions) with true; [reflexivity|]. symmetry. now apply str_mem_In.
    Qed.

    Context (r : record) (Nr : NoDup (map fst r)) (vs : list value)
            (M : Forall2 (fun x v => means label float_of date_of apply r (fst x) v) xs vs).

    Lemma selects : exists items, new_evaluator float_of date_of (e ++ $", *") = Ok items /\ evaluate float_of date_of apply items r = Ok (shaped xs vs r).
    Proof.
      destruct (Evaluator.select_list_records float_of date_of HF apply (xs ++ everything) (e ++ $", *") (vs ++ [VStr $"*"]) r) as (items & out & E1 & E2 & ->).
      - now apply written_star.
      - exact Nr.
      - apply Forall2_app; [exact M|]. constructor; [apply star_means|constructor].
      - rewrite not_starred in E2. eauto.
    Qed.

    Lemma shaped_names : map fst (combine (map given_name (xs ++ everything)) (vs ++ [VStr $"*"])) = map given_name xs ++ [$"*"].
    Proof.
      rewrite Evaluator.combine_names; [now rewrite map_app|]. rewrite !app_length, (Evaluator.Forall2_len _ _ _ M). reflexivity.
    Qed.
    Lemma shaped_keys : NoDup (map fst (shaped xs vs r)) /\
      forall k, In k (map fst (shaped xs vs r)) -> In k (map fst r) \/ In k (map given_name xs) \/ k = $"*".
    Proof.
      unfold shaped. assert (G : forall l base, NoDup (map fst base) -> NoDup (map fst (bind_all l base)) /\
        forall k, In k (map fst (bind_all l base)) -> In k (map fst base) \/ In k (map fst l)).
      { clear. induction l as [|[n v] l IH]; intros base N; [cbn; auto|]. cbn [Evaluator.bind_all fold_left fst snd].
        destruct (IH (dset str_eqb n v base)) as [I1 I2]; [now apply dset_NoDup; [exact str_keqb|]|]. split; [exact I1|].
        intros k Hk. apply I2 in Hk. cbn [map fst]. destruct Hk as [Hk|Hk]; [|now right; right].
        apply (dkeys_dset_In str_eqb str_keqb) in Hk. destruct Hk; auto. right. left. auto. }
      destruct (G (combine (map given_name (xs ++ everything)) (vs ++ [VStr $"*"])) r Nr) as [G1 G2]. split; [exact G1|].
      intros k Hk. apply G2 in Hk. rewrite shaped_names in Hk. rewrite in_app_iff in Hk. cbn in Hk. intuition.
    Qed.
    Context (Ng : NoDup (map given_name xs)).
    Lemma shaped_value x v : In (x, v) (combine xs vs) -> rget (given_name x) (shaped xs vs r) = v.
    Proof.
      intros H. unfold shaped, rget. rewrite Evaluator.bind_all_get, (binding_nodup _ v); [reflexivity| |].
      - rewrite shaped_names. apply GroupBy.NoDup_app_snoc; [exact Ng|exact given_not_star].
      - rewrite map_app. rewrite Stream.combine_app by (rewrite map_length; exact (Evaluator.Forall2_len _ _ _ M)).
        apply in_or_app. left. clear - H. revert vs H. induction xs as [|y ys IH]; intros [|w ws] H; cbn in *; try destruct H.
        + injection H as -> ->. now left.
        + right. now apply IH.
    Qed.
    Lemma shaped_other k : ~ In k (map given_name xs) -> k <> $"*" -> rget k (shaped xs vs r) = rget k r.
    Proof.
      intros H1 H2. unfold shaped, rget. rewrite Evaluator.bind_all_get, binding_none; [reflexivity|].
      rewrite shaped_names, in_app_iff. intros [H|[H|[]]]; [auto|now apply H2].
    Qed.
    Lemma own_value w v : names_column w w -> label w = VARIABLE -> means label float_of date_of apply r (Atom w) v -> rget w r = v.
    Proof.
      intros N L H. inversion H; subst; try congruence.
      - apply Expression.names_column_fun in H2. apply Expression.names_column_fun in N. rewrite <- N in H2. subst n.
        unfold rget. now rewrite (In_dget str_eqb str_keqb _ v).
      - apply Expression.names_column_fun in H2. apply Expression.names_column_fun in N. rewrite <- N in H2. subst n.
        unfold rget. destruct (dget str_eqb w r) eqn:E; [|reflexivity]. apply (dget_Some_keys str_eqb str_keqb) in E. contradiction.
    Qed.
  End Shaped.

  (** ** The text of a list without white space at its ends *)
  Lemma strip_twice s : strip (strip s) = strip s.
  Proof.
    destruct (Functions.trim_fn (fun _ => []) (fun _ _ => Ok VNull) (VStr s)) as (a & t & b & E1 & E2 & Ha & Hb & _).
    assert (t = strip s) as -> by (cbv [functions] in E1; cbn -[strip] in E1; congruence).
    cbn [py_str] in E2. rewrite E2 at 2. now rewrite SqlParse.strip_sides.
  Qed.
  Lemma select_stripped cs s e : written_parts cs s -> last_of select_of cs = Some e -> strip e = e.
  Proof.
    assert (P : forall p s e, written_part p s -> select_of p = Some e -> strip e = e).
    { intros p s0 e0 H E. destruct H; try discriminate E; injection E as <-; apply strip_twice. }
    induction 1 as [p s H|p s ps s' H _ _ _ IH]; cbn [last_of]; intros E.
    - eapply P; eauto.
    - destruct (last_of select_of ps) eqn:L; [auto|]. eapply P; eauto.
  Qed.
  Lemma everything_text e : written_list label everything e -> strip e = e -> e = $"*".
  Proof.
    intros W S. inversion W as [x s0 H E1 E2|]; subst.
    - inversion H as [e0 s1 H1 E|]; subst. inversion H1 as [w a b G Ha Hb E1 E2|]; subst.
      rewrite <- S. rewrite SqlParse.strip_sides by auto. reflexivity.
    - match goal with H : written_list _ [] _ |- _ => inversion H end.
  Qed.
  Lemma star_text xs : written_list label xs $"*" -> (forall x w, In x xs -> fst x = Atom w -> ~ In (label w) [BOOLEAN; NULL; EVERYTHING]) ->
    ~ In $"*" (map asked_name xs) -> False.
  Proof.
    intros W P N. destruct (Evaluator.select_list_fields float_of date_of xs $"*" HF W) as (items & E1 & E2).
    - rewrite Forall_forall. intros x Hx w E. specialize (P x w Hx E). split.
      + intros H. apply P. cbn [In] in *. tauto.
      + intros ->. exfalso. apply P. rewrite label_star. right. right. now left.
    - destruct (Evaluator.select_list_fields float_of date_of everything $"*" HF) as (items' & E1' & E2').
      + apply list_one, entry_plain. apply (written_atom label $"*" [] []); [|intros ? []|intros ? []].
        split; [split; [discriminate|reflexivity]|]. split; [split|].
        * intros c [<-|[]]. cbn. intuition discriminate.
        * intros w Hw. vm_compute in Hw. repeat (destruct Hw as [<-|Hw]; [vm_compute; discriminate|]). destruct Hw.
        * rewrite label_star. cbn. tauto.
      + constructor; [|constructor]. intros w E. assert (w = $"*") as -> by (cbn [fst] in E; congruence). split; [rewrite label_star; cbn; intuition discriminate|reflexivity].
      + apply N. rewrite <- E2. assert (items = items') as -> by congruence. rewrite E2'. now left.
  Qed.

  (** ** Reading *)
  Lemma comparable_answered t r : comparable float_of date_of py_is matches t r -> answered float_of date_of py_is matches t r.
  Proof. intros H t' ->. apply Expression.eval_returns. intros c Hc. exact (H t' c eq_refl Hc). Qed.
  Lemma before_error_unique t blob rows : before_error float_of date_of py_is matches t blob rows ->
    forall rows', before_error float_of date_of py_is matches t blob rows' -> rows' = rows.
  Proof.
    revert blob. induction rows as [|r rows IH]; intros blob (rest & -> & Ha & Hr) [|r' rows'] (rest' & E & Ha' & Hr').
    - reflexivity.
    - cbn [app] in E. subst rest. destruct Hr as (t' & e & -> & Ev). destruct (Ha' r' (or_introl eq_refl) t' eq_refl) as [v Ev']. congruence.
    - cbn [app] in E. subst rest'. destruct Hr' as (t' & e & -> & Ev). destruct (Ha r (or_introl eq_refl) t' eq_refl) as [v Ev']. congruence.
    - cbn [app] in E. assert (r' = r) as -> by congruence. f_equal. apply (IH (rows ++ rest)).
      + exists rest. split; [reflexivity|]. split; [intros x Hx; apply Ha; now right|exact Hr].
      + exists rest'. split; [congruence|]. split; [intros x Hx; apply Ha'; now right|exact Hr'].
  Qed.
  Lemma before_error_exists t blob : exists rows, before_error float_of date_of py_is matches t blob rows.
  Proof.
    induction blob as [|r blob (rows & rest & -> & Hr & Hrest)]; [exists [], []; split; [reflexivity|]; split; [intros r []|exact I]|].
    destruct t as [t'|].
    - destruct (ev t' r) as [v|e] eqn:E.
      + exists (r :: rows), rest. split; [reflexivity|]. split; [|exact Hrest]. intros x [<-|Hx]; [|auto]. intros t2 [= <-]. eauto.
      + exists [], (r :: rows ++ rest). split; [reflexivity|]. split; [intros x []|eauto].
    - exists (r :: rows), rest. split; [reflexivity|]. split; [|exact Hrest]. intros x _ t2 [=].
  Qed.
  Lemma before_error_one t blob : exists rows, before_error float_of date_of py_is matches t blob rows /\
    forall rows', before_error float_of date_of py_is matches t blob rows' -> rows' = rows.
  Proof. destruct (before_error_exists t blob) as [rows H]. exists rows. split; [exact H|]. now apply before_error_unique. Qed.
  Section Read.
    Context (open : str -> (value -> result value) -> (value -> result bool) -> nat -> result (list value)) (n : nat).
    Context (d : str) (rows lost : list record) (HG : gives_until (open d) (map VDict rows) (map VDict lost)) (Hn : length rows <= n).
    Context (Hrows : forall r, In r rows -> r <> [] /\ NoDup (map fst r)).
    Context (text : option str) (t : option tree) (HC : condition_of float_of date_of text t).
    Context (Hcmp : forall r, In r rows -> answered float_of date_of py_is matches t r).

    Definition keep (r : record) : bool :=
      match t with None => true | Some t => match ev t r with Ok v => truthy v | Raise _ => false end end.
    Lemma row_nodup r : In r rows -> NoDup (map fst r).
    Proof. intros H. exact (proj2 (Hrows r H)). Qed.
    Lemma keep_wanted r : In r rows -> (keep r = true <-> wanted float_of date_of py_is matches t r).
    Proof.
      intros H. unfold keep, wanted. destruct t as [t'|]; [|tauto]. destruct text as [x|]; [|destruct HC]. destruct HC as [E P].
      destruct (Hcmp r H t' eq_refl) as [v Ev].
      rewrite Ev. apply Expression.eval_meaning; auto; [now apply row_nodup|]. now apply Expression.parse_simple in E.
    Qed.
    Lemma filter_picks {A} (f : A -> bool) (Q : A -> Prop) l : (forall x, In x l -> (f x = true <-> Q x)) -> picks Q l (filter f l).
    Proof.
      induction l as [|x l IH]; intros H; [constructor|]. cbn [filter]. destruct (f x) eqn:E.
      - constructor; [apply H; [now left|exact E]|apply IH; intros; apply H; now right].
      - apply picks_out; [intros C; apply H in C; [congruence|now left]|apply IH; intros; apply H; now right].
    Qed.
    Lemma kept_picks : picks (wanted float_of date_of py_is matches t) rows (filter keep rows).
    Proof. apply filter_picks, keep_wanted. Qed.

    Context (select : str) (columns : value -> result value) (sh : record -> record).
    Context (HS : make_select float_of date_of apply select = Ok columns).
    Context (Hlost : forall r, In r lost -> exists t' e, t = Some t' /\ ev t' r = Raise e).
    Context (Hcol : forall r, In r (rows ++ lost) -> columns (VDict r) = Ok (VDict (sh r))).
    Context (Hne : forall r, In r rows -> sh r <> []).
    Context (Hm : forall r t' k, In r (rows ++ lost) -> t = Some t' -> mentions t' k -> rget k (sh r) = rget k r).

    Lemma filter_made : exists f, make_filter float_of date_of py_is matches text = Ok f /\
      (forall r, In r rows -> f (VDict (sh r)) = Ok (keep r)) /\
      (forall r, In r lost -> exists e, f (VDict (sh r)) = Raise e).
    Proof.
      unfold make_filter, keep. destruct text as [x|], t as [t'|]; cbn in HC; try contradiction.
      - destruct HC as [E P]. rewrite E. cbn [bind]. destruct (proper_dnf t' P) as [dn ->]. cbn [bind].
        eexists. split; [reflexivity|]. split; intros r H; cbn beta iota; rewrite (ev_ext t' (sh r) r) by (intros; eapply Hm; eauto using in_or_app).
        + destruct (Hcmp r H t' eq_refl) as [v Ev].
          now rewrite Ev.
        + destruct (Hlost r H) as (t2 & e & [= <-] & Ev). rewrite Ev. cbn [bind]. eauto.
      - exists pass_thru_filter. split; [reflexivity|]. split; [|intros r H; destruct (Hlost r H) as (t2 & e & [=] & _)].
        intros r H. unfold pass_thru_filter. f_equal. cbn.
        specialize (Hne r H). destruct (sh r); [congruence|reflexivity].
    Qed.

    Lemma read_all : query_reader float_of date_of py_is matches apply open n select d text = Ok (map sh (filter keep rows)).
    Proof.
      unfold query_reader. destruct filter_made as (f & -> & Hf & Hfl). rewrite HS. cbn [bind].
      assert (Hcol' : forall r, In r rows -> columns (VDict r) = Ok (VDict (sh r))) by auto using in_or_app.
      rewrite (HG columns f (fun v => match columns v with Ok x => x | Raise _ => v end) (fun v => match f v with Ok b => b | Raise _ => false end) n).
      - cbn [bind]. rewrite firstn_all2.
        + clear - Hcol' Hf. induction rows as [|r rs IH]; [reflexivity|]. cbn [map filter].
          rewrite Hcol', Hf by (now left). destruct (keep r).
          * cbn [mapM map as_record bind]. rewrite IH by (intros; auto using in_cons). reflexivity.
          * apply IH; intros; auto using in_cons.
        + etransitivity; [|exact Hn]. clear. etransitivity; [apply filter_shorter|]. now rewrite !map_length.
      - intros v Hv. apply in_map_iff in Hv as (r & <- & Hr). unfold applies.
        rewrite Hcol' by exact Hr. split; [reflexivity|]. now rewrite Hf.
      - intros v Hv. apply in_map_iff in Hv as (r & <- & Hr). destruct (Hfl r Hr) as [e He].
        exists (VDict (sh r)), e. split; [|exact He]. apply Hcol. apply in_or_app. now right.
    Qed.
  End Read.

  (** ** The answer *)
  Section Answer.
    Context (open : str -> (value -> result value) -> (value -> result bool) -> nat -> result (list value)) (n : nat).
    Context (quotient : Z -> Z -> value) (hash : str -> Z) (xxh : str -> N).
    Local Notation answer := (sql_reader float_of date_of (query_reader float_of date_of py_is matches apply open n)
                                (filter_where float_of date_of py_is matches) quotient hash xxh).

    Lemma no_having cs rows : last_of having_of cs = None -> having_keeps (filter_where float_of date_of py_is matches) cs rows rows.
    Proof. unfold having_keeps. now intros ->. Qed.

    Lemma query_answer_until ps ws cs e xs d text t rows lost in_memory :
      gives_until (open (dots_to_slashes d)) (map VDict rows) (map VDict lost) -> length rows <= n ->
      (forall r, In r lost -> exists t' e, t = Some t' /\ ev t' r = Raise e) ->
      (forall r, In r (rows ++ lost) -> r <> [] /\ NoDup (map fst r)) ->
      good_pieces ps -> spread ws (text_of (without_comments ps)) -> written_parts cs (join $" " ws) ->
      last_of select_of cs = Some e -> last_of from_of cs = Some (inl d) -> safe_name (dots_to_slashes d) ->
      last_of where_of cs = text -> last_of group_of cs = None -> last_of having_of cs = None ->
      (forall m, last_of limit_of cs = Some m -> (0 < m)%Z) ->
      written_list label xs e -> good_query float_of date_of apply xs t (rows ++ lost) ->
      condition_of float_of date_of text t -> (forall r, In r rows -> answered float_of date_of py_is matches t r) ->
      exists kept selected, picks (wanted float_of date_of py_is matches t) rows kept /\ rows_of float_of date_of apply xs kept selected /\
        ((existsb asks_distinct cs = true -> told_apart hash selected) -> orderable cs selected ->
         exists once out, kept_once (existsb asks_distinct cs) selected once /\ in_order_and_limited cs once out /\
           forall fuel, length (text_of ps) < fuel -> answer fuel in_memory (text_of ps) = Ok out).
    Proof.
      intros HG Hn Hlost Hrows G S W Hsel Hfrom Hsafe Hwhere Hgroup Hhaving Hlim Hx Hq HC Hcmp.
      pose proof (select_stripped cs _ e W Hsel) as He.
      set (kept := filter (keep t) rows).
      assert (Hpicks : picks (wanted float_of date_of py_is matches t) rows kept) by (eapply kept_picks; eauto using in_or_app).
      assert (Hin : forall r, In r kept -> In r (rows ++ lost)) by (intros r Hr; apply filter_In in Hr as [Hr _]; apply in_or_app; now left).
      destruct Hq as [->|(Hp & Na & Ns & Hr)].
      - (* SELECT * *)
        assert (e = $"*") as -> by (apply everything_text; auto).
        exists kept, kept. split; [exact Hpicks|]. split; [left; auto|]. intros Hd Ho.
        apply (SqlAnswer.plain_answer float_of date_of HF _ _ quotient hash xxh ps ws cs $"*" everything kept kept in_memory); auto.
        + unfold source_gives. rewrite Hfrom. split; [exact Hsafe|]. rewrite str_eqb_refl, Hwhere.
          rewrite (read_all open n (dots_to_slashes d) rows lost HG Hn text t HC Hcmp $"*" pass_thru (fun r => r));
            [now rewrite map_id|reflexivity|exact Hlost|reflexivity|intros r H; apply Hrows; apply in_or_app; now left|reflexivity].
        + now apply no_having.
        + now left.
      - assert (Hstar : str_eqb e $"*" = false).
        { destruct (str_eqb e $"*") eqn:E; [|reflexivity]. apply str_eqb_eq in E. subst e. exfalso. eapply star_text; eauto.
          intros x w Hxi Ew. rewrite Forall_forall in Hp. specialize (Hp x Hxi). unfold plain_entry in Hp. now rewrite Ew in Hp. }
        assert (Hev : xs <> everything).
        { intros ->. apply Ns. now left. }
        (* the records with the columns of the list *)
        assert (Hsh : exists sh items, new_evaluator float_of date_of (e ++ $", *") = Ok items /\
          forall r, In r (rows ++ lost) -> evaluate float_of date_of apply items r = Ok (sh r) /\
            exists vs, Forall2 (fun x v => means label float_of date_of apply r (fst x) v) xs vs /\ sh r = shaped xs vs r).
        { exists (fun r => match (let* items := new_evaluator float_of date_of (e ++ $", *") in evaluate float_of date_of apply items r) with Ok o => o | Raise _ => [] end).
          assert (I : exists items, new_evaluator float_of date_of (e ++ $", *") = Ok items).
          { eexists. apply (Evaluator.select_list_items float_of date_of HF _ _ (written_star xs e Hx)). }
          destruct I as [items I]. exists items. split; [exact I|]. intros r H. destruct (Hr r H) as [_ Hcomp].
          destruct (choose_values xs r Hcomp) as [vs M].
          destruct (selects xs e Hx r (proj2 (Hrows r H)) vs M) as (items' & E1 & E2).
          assert (items' = items) as -> by congruence. rewrite I. cbn [bind]. rewrite E2. split; [reflexivity|]. exists vs. auto. }
        destruct Hsh as (sh & items & I & Hsh).
        set (show := fun o : record => map (fun x => (asked_name x, rget (source_name x) o)) xs).
        exists kept, (map show (map sh kept)). split; [exact Hpicks|].
        assert (Hrow : forall r, In r (rows ++ lost) -> row_of float_of date_of apply xs r (show (sh r))).
        { intros r H. destruct (Hsh r H) as (_ & vs & M & ->). exists vs. split; [exact M|]. unfold show.
          destruct (Hr r H) as [(Ng & _) _].
          assert (L : length xs = length vs) by exact (Evaluator.Forall2_len _ _ _ M).
          assert (Q : forall ys us, length ys = length us -> (forall x v, In (x, v) (combine ys us) -> In x xs /\ In (x, v) (combine xs vs)) ->
            map (fun x => (asked_name x, rget (source_name x) (shaped xs vs r))) ys = combine (map asked_name ys) us).
          { induction ys as [|y ys IH]; intros [|u us] Hl Hi; try discriminate; [reflexivity|]. cbn [map combine].
            destruct (Hi y u (or_introl eq_refl)) as [Hy Hu].
            rewrite (given_source xs Hp y Hy), (shaped_value xs Hp Ns r vs M Ng y u Hu).
            f_equal. apply IH; [cbn in Hl; lia|]. intros x v Hv. apply Hi. now right. }
          apply Q; [exact L|]. intros x v Hv. split; [now apply in_combine_l in Hv|exact Hv]. }
        split.
        { right. split; [exact Hev|]. clear - Hrow Hin. induction kept as [|r ks IH]; cbn [map]; constructor.
          - apply Hrow, Hin. now left.
          - apply IH. intros x H. apply Hin. now right. }
        intros Hd Ho.
        assert (Hcols : columns_of xs (map sh kept) = map show (map sh kept)).
        { unfold columns_of. destruct xs as [|[[w|f args] [a|]] [|y ys]]; try reflexivity.
          destruct (str_eqb w $"*") eqn:E; [|reflexivity]. apply str_eqb_eq in E. subst w. now elim Hev. }
        rewrite <- Hcols in *.
        apply (SqlAnswer.plain_answer float_of date_of HF _ _ quotient hash xxh ps ws cs e xs (map sh kept) (map sh kept) in_memory); auto.
        + unfold source_gives. rewrite Hfrom. split; [exact Hsafe|]. rewrite Hstar, Hwhere.
          assert (Hsel' : str_eqb (e ++ $", *") $"*" = false).
          { destruct (str_eqb (e ++ $", *") $"*") eqn:E; [|reflexivity]. apply str_eqb_eq in E. destruct e as [|c [|c' e']]; discriminate E. }
          eapply (read_all open n (dots_to_slashes d) rows lost HG Hn text t HC Hcmp (e ++ $", *")).
          * unfold make_select. rewrite Hsel', I. reflexivity.
          * exact Hlost.
          * intros r H. cbn beta iota. destruct (Hsh r H) as [-> _]. reflexivity.
          * intros r H0 E. assert (H : In r (rows ++ lost)) by (apply in_or_app; now left). destruct (Hsh r H) as (_ & vs & M & Es). rewrite E in Es.
            assert (X : rget $"*" (shaped xs vs r) = VStr $"*").
            { unfold shaped, rget. rewrite Evaluator.bind_all_get, (binding_nodup _ (VStr $"*")); [reflexivity| |].
              - rewrite (shaped_names xs r vs M). apply GroupBy.NoDup_app_snoc; [exact (proj1 (proj1 (Hr r H)))|now apply given_not_star].
              - rewrite map_app, Stream.combine_app by (rewrite map_length; exact (Evaluator.Forall2_len _ _ _ M)). apply in_or_app. right. now left. }
            rewrite <- Es in X. discriminate X.
          * intros r t' k H Et Hk. destruct (Hsh r H) as (_ & vs & M & ->). destruct (Hr r H) as [(Ng & _ & Hm) _].
            destruct (Hm t' k Et Hk) as [K1 K2]. destruct (in_dec (list_eq_dec ascii_dec) k (map given_name xs)) as [Hin'|Hout].
            -- apply in_map_iff in Hin' as (x & Ek & Hxin). destruct (K2 x Hxin Ek) as (w & Ew & Lw & Nw).
               assert (V : exists v, In (x, v) (combine xs vs) /\ means label float_of date_of apply r (fst x) v).
               { clear - M Hxin. induction M as [|y u ys us Hy _ IH]; [destruct Hxin|]. destruct Hxin as [->|Hi].
                 - exists u. split; [now left|exact Hy].
                 - destruct (IH Hi) as (v & V1 & V2). exists v. split; [now right|exact V2]. }
               destruct V as (v & V1 & V2). rewrite <- Ek. rewrite (shaped_value xs Hp Ns r vs M Ng x v V1).
               rewrite Ew in V2. destruct x as [x1 x2]. cbn [fst] in Ew. subst x1. cbn [given_name fst].
               symmetry. apply own_value; auto. exact (proj2 (Hrows r H)).
            -- now apply shaped_other.
        + now apply no_having.
        + right. split; [exact Hp|]. split; [exact Na|]. split; [exact Ns|]. intros o Ho'. apply in_map_iff in Ho' as (r & <- & Hk).
          apply Hin in Hk. destruct (Hsh r Hk) as (_ & vs & M & ->). destruct (Hr r Hk) as [(Ng & Hf & _) _].
          destruct (shaped_keys xs r (proj2 (Hrows r Hk)) vs M) as [K1 K2]. split; [exact K1|]. split.
          * rewrite (map_ext_in source_name given_name); [exact Ng|]. intros x Hxi. now apply given_source with (xs := xs).
          * intros x a Hxi Ea Hfr. destruct (Hf x a Hxi Ea) as (F1 & F2 & F3). apply K2 in Hfr. tauto.
    Qed.

    Lemma query_answer ps ws cs e xs d text t rows in_memory :
      gives (open (dots_to_slashes d)) (map VDict rows) -> length rows <= n ->
      (forall r, In r rows -> r <> [] /\ NoDup (map fst r)) ->
      good_pieces ps -> spread ws (text_of (without_comments ps)) -> written_parts cs (join $" " ws) ->
      last_of select_of cs = Some e -> last_of from_of cs = Some (inl d) -> safe_name (dots_to_slashes d) ->
      last_of where_of cs = text -> last_of group_of cs = None -> last_of having_of cs = None ->
      (forall m, last_of limit_of cs = Some m -> (0 < m)%Z) ->
      written_list label xs e -> good_query float_of date_of apply xs t rows ->
      condition_of float_of date_of text t -> (forall r, In r rows -> comparable float_of date_of py_is matches t r) ->
      exists kept selected, picks (wanted float_of date_of py_is matches t) rows kept /\ rows_of float_of date_of apply xs kept selected /\
        ((existsb asks_distinct cs = true -> told_apart hash selected) -> orderable cs selected ->
         exists once out, kept_once (existsb asks_distinct cs) selected once /\ in_order_and_limited cs once out /\
           forall fuel, length (text_of ps) < fuel -> answer fuel in_memory (text_of ps) = Ok out).
    Proof.
      intros HG Hn Hrows G S W Hsel Hfrom Hsafe Hwhere Hgroup Hhaving Hlim Hx Hq HC Hcmp.
      apply (query_answer_until ps ws cs e xs d text t rows [] in_memory); auto.
      - now apply gives_none_lost.
      - intros r [].
      - now rewrite app_nil_r.
      - now rewrite app_nil_r.
      - intros r Hr. apply comparable_answered; auto.
    Qed.

    (** The records of blobs *)
    Lemma until_rows columns filters c p good rest out :
      (forall r, In r good -> applies columns filters c p r) -> until_error columns filters (good ++ rest) out ->
      exists out', out = filter p (map c good) ++ out' /\ until_error columns filters rest out'.
    Proof.
      revert out. induction good as [|r good IH]; intros out HA U; [exists out; split; [reflexivity|exact U]|].
      destruct (HA r (or_introl eq_refl)) as [H1 H2]. cbn [map filter].
      inversion U as [|r0 v rest0 out0 C F U'|r0 v rest0 out0 C F U'|r0 e rest0 C|r0 v e rest0 C F]; subst; try congruence.
      - assert (v = c r) as -> by congruence. assert (p (c r) = true) as -> by congruence.
        destruct (IH out0 (fun x Hx => HA x (or_intror Hx)) U') as (o & -> & Ho). exists o. split; [reflexivity|exact Ho].
      - assert (v = c r) as -> by congruence. assert (p (c r) = false) as -> by congruence.
        destruct (IH out (fun x Hx => HA x (or_intror Hx)) U') as (o & -> & Ho). exists o. split; [reflexivity|exact Ho].
    Qed.

    Lemma blobs_given read t (blobs goods : list (list record)) :
      gives_blobs read (map (map VDict) blobs) -> Forall2 (before_error float_of date_of py_is matches t) blobs goods ->
      exists lost, gives_until read (map VDict (concat goods)) (map VDict lost) /\
        (forall r, In r (concat goods) -> answered float_of date_of py_is matches t r) /\
        (forall r, In r lost -> exists t' e, t = Some t' /\ ev t' r = Raise e) /\
        (forall r, In r (concat goods ++ lost) -> In r (concat blobs)).
    Proof.
      intros G B.
      assert (L : exists losts, Forall2 (fun x l => exists rest, fst x = snd x ++ rest /\ l = firstn 1 rest) (combine blobs goods) losts /\
        (forall r, In r (concat goods) -> answered float_of date_of py_is matches t r) /\
        (forall r, In r (concat losts) -> exists t' e, t = Some t' /\ ev t' r = Raise e) /\
        (forall r, In r (concat goods ++ concat losts) -> In r (concat blobs))).
      { clear G. induction B as [|b g bs gs (rest & E & Hc & Hr) _ (losts & I1 & I2 & I3 & I4)].
        - exists []. split; [constructor|]. repeat split; intros r [].
        - exists (firstn 1 rest :: losts). split; [constructor; [cbn; eauto|exact I1]|]. split; [|split].
          + intros r H. cbn [concat] in H. apply in_app_iff in H as [H|H]; auto.
          + intros r H. cbn [concat] in H. apply in_app_iff in H as [H|H]; auto. destruct rest as [|x rest]; [destruct H|]. destruct H as [<-|[]]. exact Hr.
          + intros r H. cbn [concat] in *. rewrite !in_app_iff in *. subst b. rewrite in_app_iff.
            destruct H as [[H|H]|[H|H]]; auto.
            * right. apply I4. rewrite in_app_iff. now left.
            * left. right. destruct rest as [|x rest]; [destruct H|]. destruct H as [<-|[]]. now left.
            * right. apply I4. rewrite in_app_iff. now right. }
      destruct L as (losts & L1 & L2 & L3 & L4). exists (concat losts). split; [|auto].
      intros columns filters c p m HA HL. destruct (G columns filters m) as (outs & F & ->). f_equal. f_equal.
      clear - B F L1 HA HL. revert losts outs L1 F HA HL. induction B as [|b g bs gs _ _ IH]; intros losts outs L1 F HA HL.
      - inversion F; subst. reflexivity.
      - cbn [combine] in L1. inversion L1 as [|? l ? losts' (rest & E & El) L1']; subst. cbn [fst snd] in E. subst b.
        cbn [map] in F. inversion F as [|? o ? outs' U F']; subst. rewrite map_app in U.
        cbn [concat] in *. rewrite map_app in *.
        destruct (until_rows columns filters c p (map VDict g) (map VDict rest) o) as (o' & -> & U').
        + intros r Hr. apply HA. apply in_app_iff. now left.
        + exact U.
        + assert (o' = []) as ->.
          { destruct rest as [|x rest]; [now inversion U'|].
            destruct (HL (VDict x)) as (v & e & H1 & H2); [apply in_app_iff; left; now left|].
            cbn [map] in U'. inversion U'; subst; try congruence; reflexivity. }
          rewrite app_nil_r, map_app, filter_app. f_equal. apply (IH losts' outs' L1' F').
          * intros r Hr. apply HA. apply in_app_iff. now right.
          * intros r Hr. apply HL. apply in_app_iff. now right.
    Qed.

    Lemma blobs_answer ps ws cs e xs d text t blobs goods in_memory :
      gives_blobs (open (dots_to_slashes d)) (map (map VDict) blobs) -> length (concat goods) <= n ->
      (forall r, In r (concat blobs) -> r <> [] /\ NoDup (map fst r)) ->
      good_pieces ps -> spread ws (text_of (without_comments ps)) -> written_parts cs (join $" " ws) ->
      last_of select_of cs = Some e -> last_of from_of cs = Some (inl d) -> safe_name (dots_to_slashes d) ->
      last_of where_of cs = text -> last_of group_of cs = None -> last_of having_of cs = None ->
      (forall m, last_of limit_of cs = Some m -> (0 < m)%Z) ->
      written_list label xs e -> good_query float_of date_of apply xs t (concat blobs) ->
      condition_of float_of date_of text t -> Forall2 (before_error float_of date_of py_is matches t) blobs goods ->
      exists kept selected, picks (wanted float_of date_of py_is matches t) (concat goods) kept /\ rows_of float_of date_of apply xs kept selected /\
        ((existsb asks_distinct cs = true -> told_apart hash selected) -> orderable cs selected ->
         exists once out, kept_once (existsb asks_distinct cs) selected once /\ in_order_and_limited cs once out /\
           forall fuel, length (text_of ps) < fuel -> answer fuel in_memory (text_of ps) = Ok out).
    Proof.
      intros HG Hn Hrows G S W Hsel Hfrom Hsafe Hwhere Hgroup Hhaving Hlim Hx Hq HC HB.
      destruct (blobs_given _ t blobs goods HG HB) as (lost & H1 & H2 & H3 & H4).
      apply (query_answer_until ps ws cs e xs d text t (concat goods) lost in_memory); try assumption.
      - intros r Hr. exact (Hrows r (H4 r Hr)).
      - destruct Hq as [->|(Q1 & Q2 & Q3 & Q4)]; [now left|right]. split; [exact Q1|]. split; [exact Q2|]. split; [exact Q3|].
        intros r Hr. exact (Q4 r (H4 r Hr)).
    Qed.
  End Answer.
End Query.
