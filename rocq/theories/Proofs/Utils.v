(** Helpers. *)
From Verif.Base Require Import Py PyFacts Value ValueFacts.
From Verif.Model Require Import Utils.
From Verif.Spec Require Import Utils.
From Verif.Proofs Require Import Filters.

(** ** Edit distance *)
Fixpoint L (a : str) : str -> nat :=
  match a with
  | [] => fun b => length b
  | c :: a' =>
      fix La b := match b with
                  | [] => S (length a')
                  | d :: b' => if Ascii.eqb c d then Nat.min (L a' b + 1) (Nat.min (L a' b') (La b' + 1))
                               else Nat.min (L a' b + 1) (Nat.min (L a' b' + 1) (La b' + 1))
                  end
  end.
Lemma L_nil b : L [] b = length b. Proof. reflexivity. Qed.
Lemma L_nil_r a : L a [] = length a. Proof. destruct a; reflexivity. Qed.
Lemma L_cons c a d b : L (c :: a) (d :: b) =
  if Ascii.eqb c d then Nat.min (L a (d :: b) + 1) (Nat.min (L a b) (L (c :: a) b + 1))
  else Nat.min (L a (d :: b) + 1) (Nat.min (L a b + 1) (L (c :: a) b + 1)).
Proof. reflexivity. Qed.
Opaque L.

Fixpoint row_from (ra rq w2 : str) : list nat :=
  L ra rq :: match w2 with [] => [] | d :: w2' => row_from ra (d :: rq) w2' end.
Lemma row_from_cons ra rq w2 : row_from ra rq w2 = L ra rq :: tl (row_from ra rq w2).
Proof. destruct w2; reflexivity. Qed.

Lemma lev_cells_row c w2 : forall ra rq,
  lev_cells c w2 (L ra rq) (tl (row_from ra rq w2)) (L (c :: ra) rq) = tl (row_from (c :: ra) rq w2).
Proof.
  induction w2 as [|d w2 IH]; intros ra rq; [reflexivity|].
  cbn [row_from tl lev_cells]. rewrite row_from_cons at 1. cbn [lev_cells]. rewrite <- L_cons.
  rewrite IH. symmetry. apply row_from_cons.
Qed.
Lemma lev_rows_row w1 w2 : forall ra,
  lev_rows w1 w2 (length ra) (row_from ra [] w2) = row_from (rev w1 ++ ra) [] w2.
Proof.
  induction w1 as [|c w1 IH]; intros ra; [reflexivity|].
  cbn [lev_rows rev]. rewrite row_from_cons. cbn [tl].
  replace (S (length ra)) with (L (c :: ra) []) at 1 2 by apply L_nil_r.
  rewrite lev_cells_row, <- row_from_cons. rewrite <- app_assoc. apply (IH (c :: ra)).
Qed.
Lemma row_first w2 : forall rq, row_from [] rq w2 = seq (length rq) (length w2 + 1).
Proof.
  induction w2 as [|d w2 IH]; intros rq; [reflexivity|]. cbn [row_from length Nat.add seq]. rewrite L_nil, IH. reflexivity.
Qed.
Lemma row_last ra w2 : forall rq, last (row_from ra rq w2) 0 = L ra (rev w2 ++ rq).
Proof.
  induction w2 as [|d w2 IH]; intros rq; [reflexivity|].
  cbn [row_from rev]. rewrite <- app_assoc. cbn [app]. rewrite <- IH. rewrite row_from_cons. reflexivity.
Qed.
Lemma lev_is_L w1 w2 : get_levenshtein_distance w1 w2 = L (rev (lower w1)) (rev (lower w2)).
Proof.
  unfold get_levenshtein_distance. cbv zeta. rewrite <- (row_first _ []). rewrite (lev_rows_row _ _ []).
  rewrite row_last, !app_nil_r. reflexivity.
Qed.

Lemma edit_cons c a b : edit a b -> edit (c :: a) (c :: b).
Proof.
  intros [u d v|u d v|u d e v]; [apply (edit_insert (c :: u))|apply (edit_delete (c :: u))|apply (edit_replace (c :: u))].
Qed.
Lemma edits_cons c n a b : edits n a b -> edits n (c :: a) (c :: b).
Proof. induction 1; econstructor; eauto using edit_cons. Qed.
Lemma edits_length_l a : edits (length a) a [].
Proof. induction a as [|c a IH]; simpl; econstructor; [apply (edit_delete [] c)|exact IH]. Qed.
Lemma edits_length_r b : edits (length b) [] b.
Proof.
  induction b as [|c b IH]; simpl; [constructor|]. econstructor; [apply (edit_insert [] c [])|]. apply edits_cons, IH.
Qed.
Lemma L_edits a : forall b, edits (L a b) a b.
Proof.
  induction a as [|c a IHa]; [intros b; apply edits_length_r|].
  induction b as [|d b IHb]; [rewrite L_nil_r; apply edits_length_l|].
  assert (H1 : edits (S (L a (d :: b))) (c :: a) (d :: b)) by (econstructor; [apply (edit_delete [] c)|apply IHa]).
  assert (H3 : edits (S (L (c :: a) b)) (c :: a) (d :: b))
    by (econstructor; [apply (edit_insert [] d)|apply edits_cons, IHb]).
  rewrite L_cons. destruct (Ascii.eqb c d) eqn:E.
  - apply Ascii.eqb_eq in E. subst d.
    assert (H2 : edits (L a b) (c :: a) (c :: b)) by apply edits_cons, IHa.
    rewrite !Nat.add_1_r. destruct (Nat.min_spec (L a b) (S (L (c :: a) b))) as [[_ ->]|[_ ->]];
      match goal with |- edits (Nat.min ?x ?y) _ _ => destruct (Nat.min_spec x y) as [[_ ->]|[_ ->]] end; auto.
  - assert (H2 : edits (S (L a b)) (c :: a) (d :: b))
      by (econstructor; [apply (edit_replace [] c d)|apply edits_cons, IHa]).
    rewrite !Nat.add_1_r. destruct (Nat.min_spec (S (L a b)) (S (L (c :: a) b))) as [[_ ->]|[_ ->]];
      match goal with |- edits (Nat.min ?x ?y) _ _ => destruct (Nat.min_spec x y) as [[_ ->]|[_ ->]] end; auto.
Qed.

Ltac lcons := rewrite L_cons; match goal with |- context [Ascii.eqb ?c ?d] => destruct (Ascii.eqb c d) end.
Lemma L_del_le c a b : L (c :: a) b <= L a b + 1.
Proof. destruct b; [rewrite !L_nil_r; simpl; lia|]. lcons; lia. Qed.
Lemma L_ins_le a d b : L a (d :: b) <= L a b + 1.
Proof. destruct a; [rewrite !L_nil; simpl; lia|]. lcons; lia. Qed.
Lemma L_sub_le c a d b : L (c :: a) (d :: b) <= L a b + 1.
Proof. lcons; lia. Qed.
Lemma L_undel c a b : L a b <= L (c :: a) b + 1.
Proof.
  induction b as [|d b IH]; [rewrite !L_nil_r; simpl; lia|].
  pose proof (L_ins_le a d b). lcons; lia.
Qed.
Lemma L_repl c d a b : L (c :: a) b <= L (d :: a) b + 1.
Proof.
  induction b as [|e b IH]; [rewrite !L_nil_r; simpl; lia|].
  pose proof (L_ins_le (c :: a) e b). pose proof (L_sub_le c a e b). pose proof (L_del_le c a (e :: b)).
  rewrite (L_cons d). destruct (Ascii.eqb d e); lia.
Qed.
Lemma L_ctx c x y : (forall b, L x b <= L y b + 1) -> forall b, L (c :: x) b <= L (c :: y) b + 1.
Proof.
  intros H. induction b as [|d b IH]; [specialize (H []); rewrite !L_nil_r in *; simpl; lia|].
  pose proof (H b). pose proof (H (d :: b)). rewrite !L_cons. destruct (Ascii.eqb c d); lia.
Qed.
Lemma L_ctxs u x y : (forall b, L x b <= L y b + 1) -> forall b, L (u ++ x) b <= L (u ++ y) b + 1.
Proof. intros H. induction u; simpl; auto using L_ctx. Qed.
Lemma L_edit a a' b : edit a a' -> L a b <= L a' b + 1.
Proof.
  intros [u c v|u c v|u c d v]; apply L_ctxs; intros.
  - apply L_undel. - apply L_del_le. - apply L_repl.
Qed.
Lemma L_refl a : L a a = 0.
Proof. induction a as [|c a IH]; auto. rewrite L_cons, Ascii.eqb_refl, IH. lia. Qed.
Lemma L_least n a b : edits n a b -> L a b <= n.
Proof.
  induction 1 as [w|n a b c E H IH]; [rewrite L_refl; auto|]. pose proof (L_edit a b c E). lia.
Qed.
Lemma L_fewest a b : fewest_edits a b (L a b).
Proof. split; [apply L_edits|]. intros m. apply L_least. Qed.

Lemma edit_rev a b : edit a b -> edit (rev a) (rev b).
Proof.
  intros [u c v|u c v|u c d v]; rewrite !rev_app_distr; cbn [rev]; rewrite <- !app_assoc; cbn [app].
  - apply edit_insert. - apply edit_delete. - apply edit_replace.
Qed.
Lemma edits_rev n a b : edits n a b -> edits n (rev a) (rev b).
Proof. induction 1; econstructor; eauto using edit_rev. Qed.
Lemma fewest_rev a b n : fewest_edits (rev a) (rev b) n -> fewest_edits a b n.
Proof.
  intros [H1 H2]. split.
  - apply edits_rev in H1. rewrite !rev_involutive in H1. exact H1.
  - intros m H. apply H2, edits_rev, H.
Qed.
Theorem levenshtein_fewest w1 w2 : fewest_edits (lower w1) (lower w2) (get_levenshtein_distance w1 w2).
Proof. rewrite lev_is_L. apply fewest_rev, L_fewest. Qed.

Lemma edit_sym a b : edit a b -> edit b a.
Proof. intros []; constructor. Qed.
Lemma edits_app n m a b c : edits n a b -> edits m b c -> edits (n + m) a c.
Proof. induction 1; simpl; auto. intros. econstructor; eauto. Qed.
Lemma edits_sym n a b : edits n a b -> edits n b a.
Proof.
  induction 1 as [|n a b c E H IH]; [constructor|]. rewrite <- Nat.add_1_r. eapply edits_app; [exact IH|].
  econstructor; [apply edit_sym, E|constructor].
Qed.
Lemma fewest_unique a b n m : fewest_edits a b n -> fewest_edits a b m -> n = m.
Proof. intros [H1 H2] [H3 H4]. specialize (H2 _ H3). specialize (H4 _ H1). lia. Qed.
Lemma levenshtein_metric w1 w2 w3 :
  get_levenshtein_distance w1 w2 = get_levenshtein_distance w2 w1
  /\ (get_levenshtein_distance w1 w2 = 0 <-> lower w1 = lower w2)
  /\ get_levenshtein_distance w1 w3 <= get_levenshtein_distance w1 w2 + get_levenshtein_distance w2 w3.
Proof.
  pose proof (levenshtein_fewest w1 w2) as H12. pose proof (levenshtein_fewest w2 w1) as H21.
  pose proof (levenshtein_fewest w2 w3) as H23. pose proof (levenshtein_fewest w1 w3) as H13.
  repeat split.
  - eapply fewest_unique; [exact H12|]. destruct H21 as [A B]. split; [apply edits_sym, A|].
    intros m H. apply B, edits_sym, H.
  - intros E. rewrite E in H12. destruct H12 as [A _]. inversion A; auto.
  - intros E. rewrite E in H12. eapply fewest_unique; [exact H12|]. split; [constructor|lia].
  - apply H13. eapply edits_app; [apply H12|apply H23].
Qed.

(** ** validate *)
Lemma entered_ok ps args : forall kwargs,
  length args <= length ps -> NoDup (map fst kwargs ++ firstn (length args) ps) ->
  entered ps args kwargs = Ok (kwargs ++ combine ps args).
Proof.
  revert ps. induction args as [|a args IH]; intros ps kwargs Hl Hnd; cbn [entered].
  - destruct ps; cbn [combine]; rewrite app_nil_r; reflexivity.
  - destruct ps as [|p ps]; cbn [length] in Hl; [lia|]. cbn [length firstn] in Hnd. cbn [entered combine].
    assert (Hp : ~ In p (map fst kwargs)).
    { intros H. apply NoDup_remove_2 in Hnd. apply Hnd, in_or_app. auto. }
    rewrite dset_notin by auto using str_keqb. rewrite IH.
    + rewrite <- app_assoc. reflexivity.
    + lia.
    + rewrite map_app, <- app_assoc. exact Hnd.
Qed.

Lemma dhas_In {A} k (d : list (str * A)) : dhas str_eqb k d = true <-> In k (map fst d).
Proof.
  unfold dhas. destruct (dget str_eqb k d) eqn:E.
  - split; auto. intros _. eapply dget_Some_keys; eauto using str_keqb.
  - split; [discriminate|]. intros H. exfalso. apply dget_None in E; auto using str_keqb.
Qed.

Lemma combine_keys {A} (ps : list str) (args : list A) : length args <= length ps ->
  map fst (combine ps args) = firstn (length args) ps.
Proof.
  revert ps. induction args; intros [|p ps] H; simpl in *; auto; try lia. f_equal. apply IHargs. lia.
Qed.

(** ** sanitize *)
Definition escape (c : ascii) : str :=
  if Ascii.eqb "&" c then $"&amp;" else if Ascii.eqb "034" c then $"&quot;" else if Ascii.eqb "'" c then $"&#39;"
  else if Ascii.eqb "<" c then $"&lt;" else if Ascii.eqb ">" c then $"&gt;" else if Ascii.eqb "$" c then $"&#x24;" else [c].
Lemma sanitize_escape s : sanitize s = flat_map escape s.
Proof.
  unfold sanitize. cbn [list_ascii_of_string]. rewrite !replace_char, !flat_map_flat_map. apply flat_map_ext.
  intros [[] [] [] [] [] [] [] []]; reflexivity.
Qed.
Lemma sanitize_shows s : shows (sanitize s) s.
Proof.
  rewrite sanitize_escape. induction s as [|c s IH]; [constructor|]. cbn [flat_map]. unfold escape at 1.
  repeat match goal with |- context [Ascii.eqb ?x c] => destruct (Ascii.eqb x c) eqn:? end;
    repeat match goal with H : Ascii.eqb _ c = true |- _ => apply Ascii.eqb_eq in H; subst end;
    try (apply shows_entity; [simpl; tauto|exact IH]).
  apply shows_char; [|exact IH]. intros ->. discriminate.
Qed.
Lemma sanitize_markup s : filter markup (sanitize s) = [].
Proof.
  rewrite sanitize_escape. induction s as [|c s IH]; [reflexivity|]. cbn [flat_map]. rewrite filter_app, IH, app_nil_r.
  destruct c as [[] [] [] [] [] [] [] []]; reflexivity.
Qed.
Lemma shows_det a : forall x, shows a x -> forall y, shows a y -> x = y.
Proof.
  intros x H. induction H as [|e c s t He H IH|c s t Hc H IH]; intros y Hy.
  - inversion Hy; subst; auto. destruct e; [|discriminate].
    simpl in H0. repeat (destruct H0 as [H0|H0]; [discriminate|]). destruct H0.
  - inversion Hy; subst.
    + exfalso. symmetry in H1. apply app_eq_nil in H1. destruct H1 as [-> _].
      simpl in He. repeat (destruct He as [He|He]; [discriminate|]). destruct He.
    + simpl in He, H1. repeat (destruct He as [He|He]); try contradiction; injection He as <- <-;
        (repeat (destruct H1 as [H1|H1]); try contradiction; injection H1 as <- <-; try discriminate);
        simpl in H0; injection H0 as <-; f_equal; auto.
    + exfalso. simpl in He. repeat (destruct He as [He|He]); try contradiction; injection He as <- <-;
        simpl in H0; injection H0 as -> _; auto.
  - inversion Hy; subst.
    + exfalso. simpl in H1. repeat (destruct H1 as [H1|H1]); try contradiction; injection H1 as <- <-;
        simpl in H0; injection H0 as <- _; auto.
    + f_equal. auto.
Qed.
Lemma sanitize_inj a b : sanitize a = sanitize b -> a = b.
Proof. intros E. eapply shows_det; [apply sanitize_shows|]. rewrite E. apply sanitize_shows. Qed.

Lemma dec_markup n : filter markup (dec n) = [].
Proof.
  enough (forall c, In c (dec n) -> markup c = false) as H.
  { induction (dec n) as [|c s IH]; auto. simpl. rewrite H by (left; auto). apply IH. intros; apply H; right; auto. }
  intros c Hc. assert (is_digit c = true) by (eapply dec_digits; eauto).
  destruct c as [[] [] [] [] [] [] [] []]; try reflexivity; discriminate.
Qed.
Lemma join_markup sep parts : filter markup sep = [] -> Forall (fun p => filter markup p = []) parts -> filter markup (join sep parts) = [].
Proof.
  intros Hs H. induction H as [|p ps Hp H IH]; auto. simpl. destruct ps; auto. rewrite !filter_app, Hp, Hs. exact IH.
Qed.
Lemma sanitize_value_markup v w : sanitize_value v = Ok w -> filter markup (py_str w) = [].
Proof.
  revert w. induction v as [|b|z|s|l IH|d IH] using value_ind'; intros w H; cbn [sanitize_value] in H.
  - injection H as <-. reflexivity.
  - injection H as <-. destruct b; reflexivity.
  - injection H as <-. cbn [py_str py_repr]. unfold decZ. destruct (z <? 0)%Z; [rewrite filter_app|]; rewrite dec_markup; reflexivity.
  - injection H as <-. apply sanitize_markup.
  - apply bind_Ok in H. destruct H as (parts & Hp & E). injection E as <-.
    change (filter markup ($"[ " ++ join $", " parts ++ $" ]") = []).
    rewrite !filter_app. change (filter markup $"[ ") with (@nil ascii). change (filter markup $" ]") with (@nil ascii).
    rewrite app_nil_r. cbn [app]. apply join_markup; [reflexivity|].
    revert parts Hp. induction IH as [|i l Hi IH IHl]; intros parts Hp; [injection Hp as <-; constructor|].
    apply bind_Ok in Hp. destruct Hp as (t & Ht & Hp). apply bind_Ok in Hp. destruct Hp as (t' & Ht' & Hp).
    apply bind_Ok in Hp. destruct Hp as (ts & Hts & E). injection E as <-.
    destruct t; try discriminate. injection Ht' as <-. constructor; auto. apply (Hi _ Ht).
  - injection H as <-. apply sanitize_markup.
Qed.

Lemma existsb_false {A} (f : A -> bool) l : existsb f l = false <-> forall x, In x l -> f x = false.
Proof.
  induction l as [|x l IH]; simpl; [split; [tauto|auto]|]. rewrite orb_false_iff, IH. split.
  - intros [H1 H2] y [<-|H]; auto.
  - auto.
Qed.

Notation rule_view := (fun r : rule => (rule_name r, rule_required r, rule_incompatible r)).
Notation arg_view := (fun p : str * argument => (fst p, arg_truthy (snd p))).

Lemma arg_names (params : list (str * argument)) : map fst (map arg_view params) = map fst params.
Proof. rewrite map_map. reflexivity. Qed.

Lemma has_unknown_spec my_rules params :
  has_unknown my_rules params = false <-> names_known (map rule_view my_rules) (map arg_view params).
Proof.
  unfold has_unknown, names_known. rewrite existsb_false, arg_names, map_map. cbn [fst]. split.
  - intros H p Hp. apply in_map_iff in Hp. destruct Hp as (x & <- & Hx). apply H in Hx. apply negb_false_iff in Hx.
    apply str_mem_In in Hx. exact Hx.
  - intros H p Hp. apply negb_false_iff, str_mem_In. apply H, in_map, Hp.
Qed.
Lemma has_missing_spec my_rules params :
  has_missing my_rules params = false <-> required_given (map rule_view my_rules) (map arg_view params).
Proof.
  unfold has_missing, required_given. rewrite existsb_false, arg_names. split.
  - intros H n i Hn. apply in_map_iff in Hn. destruct Hn as (r & E & Hr). injection E as <- Hq <-. apply H in Hr.
    rewrite Hq in Hr. apply negb_false_iff, dhas_In in Hr. exact Hr.
  - intros H r Hr. destruct (rule_required r) eqn:E; auto. apply negb_false_iff, dhas_In. apply (H _ (rule_incompatible r)).
    apply in_map_iff. exists r. rewrite E. auto.
Qed.
Lemma has_toxic_spec rules params : NoDup (map fst params) ->
  has_toxic rules params = false <-> compatible (map rule_view rules) (map arg_view params).
Proof.
  intros Hnd. unfold has_toxic, compatible. rewrite existsb_false, arg_names. split.
  - intros H n q i o Hn Hp Ho Hin. apply in_map_iff in Hn. destruct Hn as (r & E & Hr). injection E as <- <- <-.
    apply in_map_iff in Hp. destruct Hp as ([k a] & E & Hp). cbn [fst snd] in E. injection E as -> Ha.
    apply H in Hr. rewrite (In_dget str_eqb str_keqb (rule_name r) a params) in Hr by auto.
    rewrite Ha in Hr. cbn [andb] in Hr. rewrite existsb_false in Hr. apply Hr in Ho.
    apply dhas_In in Hin. congruence.
  - intros H r Hr. destruct (dget str_eqb (rule_name r) params) as [a|] eqn:E; auto.
    apply dget_Some_In in E; auto using str_keqb.
    destruct (arg_truthy a) eqn:Ha; auto. cbn [andb]. apply existsb_false. intros o Ho.
    destruct (dhas str_eqb o params) eqn:E'; auto. apply dhas_In in E'. exfalso.
    apply (H (rule_name r) (rule_required r) (rule_incompatible r) o); auto.
    + apply in_map_iff. exists r. auto.
    + apply in_map_iff. exists (rule_name r, a). cbn. rewrite Ha. auto.
Qed.

Section Validate.
  Context {S R : Type}.
  Variables (rules : list rule) (ps : list str) (func : list argument -> list (str * argument) -> S -> result R * S).
  Variables (args : list argument) (kwargs : list (str * argument)) (s : S).
  Hypothesis Hlen : length args <= length ps.
  Hypothesis Hnd : NoDup (map fst kwargs ++ firstn (length args) ps).

  Lemma validated_unfold : let params := kwargs ++ combine ps args in
    validated rules ps func args kwargs s =
    if has_unknown (all_rules rules params) params || has_missing (all_rules rules params) params || has_toxic rules params
    then (Raise InvalidReaderConfigError, s) else func args kwargs s.
  Proof. intros params. unfold validated. rewrite entered_ok by auto. reflexivity. Qed.

  Lemma params_nodup : NoDup (map fst (kwargs ++ combine ps args)).
  Proof. rewrite map_app, combine_keys; auto. Qed.

  Lemma validate_exact : let params := kwargs ++ combine ps args in
    let own := map rule_view rules in
    let all := own ++ flat_map (fun p => match arg_rules (snd p) with Some rs => map rule_view rs | None => [] end) params in
    let given := map arg_view params in
    (names_known all given /\ required_given all given /\ compatible own given
       -> validated rules ps func args kwargs s = func args kwargs s)
    /\ (~ (names_known all given /\ required_given all given /\ compatible own given)
       -> validated rules ps func args kwargs s = (Raise InvalidReaderConfigError, s)).
  Proof.
    intros params own all given.
    assert (Hall : all = map rule_view (all_rules rules params)).
    { unfold all, own, all_rules. rewrite map_app. f_equal. induction params as [|p l IH]; auto. cbn [flat_map].
      rewrite map_app, IH. destruct (arg_rules (snd p)); reflexivity. }
    rewrite validated_unfold. cbv zeta. fold params. rewrite Hall. unfold own, given.
    rewrite <- has_unknown_spec, <- has_missing_spec, <- has_toxic_spec by apply params_nodup.
    destruct (has_unknown _ _), (has_missing _ _), (has_toxic _ _); cbn [orb]; split; auto; intros H; try (destruct H; tauto);
      try tauto; destruct H; intuition discriminate.
  Qed.
End Validate.

(** ** the HTML table *)
Lemma Ok_inj {A} (a b : A) : Ok a = Ok b -> a = b.
Proof. congruence. Qed.
Definition table_markup (columns rows : nat) : str :=
  filter markup ($"<table class=" ++ ["034"%char] ++ $"table table-sm" ++ ["034"%char] ++ $">")
  ++ match rows with O => [] | _ => filter markup (html_header (repeat [] columns)) end
  ++ concat (repeat (filter markup $"<tr>" ++ concat (repeat (filter markup $"<td title='' style=''><td>") columns) ++ filter markup $"</tr>") rows)
  ++ filter markup $"</tbody></table>".

Lemma html_cell_markup c r t : html_cell c r = Ok t -> filter markup t = filter markup $"<td title='' style=''><td>".
Proof.
  unfold html_cell. intros H. apply bind_Ok in H. destruct H as (v & Hv & E). apply Ok_inj in E; subst t.
  apply sanitize_value_markup in Hv. rewrite !filter_app, Hv. reflexivity.
Qed.
Lemma mapM_markup {A} (f : A -> result str) (m : str) l ts :
  (forall x t, f x = Ok t -> filter markup t = m) -> mapM f l = Ok ts ->
  filter markup (concat ts) = concat (repeat m (length l)).
Proof.
  intros Hf. revert ts. induction l as [|x l IH]; intros ts H; cbn [mapM] in H.
  - injection H as <-. reflexivity.
  - apply bind_Ok in H. destruct H as (t & Ht & H). apply bind_Ok in H. destruct H as (ts' & Hts & E). injection E as <-.
    cbn [concat length repeat]. rewrite filter_app, (Hf _ _ Ht), (IH _ Hts). reflexivity.
Qed.
Lemma html_row_markup columns r t : html_row columns r = Ok t ->
  filter markup t = filter markup $"<tr>" ++ concat (repeat (filter markup $"<td title='' style=''><td>") (length columns)) ++ filter markup $"</tr>".
Proof.
  unfold html_row. intros H. apply bind_Ok in H. destruct H as (cells & Hc & E). apply Ok_inj in E; subst t.
  rewrite !filter_app, (mapM_markup _ _ _ _ (fun c t => html_cell_markup c r t) Hc). reflexivity.
Qed.
Lemma html_header_markup columns : filter markup (html_header columns) = filter markup (html_header (repeat [] (length columns))).
Proof.
  unfold html_header. rewrite !filter_app.
  match goal with |- context [concat (map ?f columns)] =>
    assert (E : filter markup (concat (map f columns)) = filter markup (concat (map f (repeat [] (length columns))))) end.
  { induction columns as [|c cs IH]; [reflexivity|]. cbn [map concat length repeat]. rewrite !filter_app, sanitize_markup, IH. reflexivity. }
  rewrite E. reflexivity.
Qed.
Lemma html_rows_markup columns data t : html_rows columns data = Ok t ->
  filter markup t = table_markup (length columns) (length data).
Proof.
  unfold html_rows, table_markup. intros H. apply bind_Ok in H. destruct H as (rows & Hr & E). apply Ok_inj in E; subst t.
  rewrite !filter_app, (mapM_markup _ _ _ _ (html_row_markup columns) Hr), <- !app_assoc.
  assert (E : filter markup (match data with [] => [] | _ :: _ => html_header columns end)
              = match length data with O => [] | S _ => filter markup (html_header (repeat [] (length columns))) end).
  { destruct data; [reflexivity|]. apply html_header_markup. }
  rewrite E. reflexivity.
Qed.
Lemma html_same_markup columns data t columns' data' t' :
  html_rows columns data = Ok t -> html_rows columns' data' = Ok t' ->
  length columns = length columns' -> length data = length data' ->
  filter markup t = filter markup t'.
Proof. intros H H' E E'. apply html_rows_markup in H. apply html_rows_markup in H'. congruence. Qed.

Definition plain (v : value) : Prop := match v with VList l => Forall (fun i => exists s, i = VStr s) l | _ => True end.
Lemma sanitize_plain v : plain v -> exists w, sanitize_value v = Ok w.
Proof.
  destruct v; intros H; cbn [sanitize_value]; eauto. cbn [plain] in H.
  match goal with |- exists w, bind ?x _ = Ok w => enough (exists ts, x = Ok ts) as (ts & ->); [eexists; reflexivity|] end.
  induction H as [|i l (s & ->) H (ts & IH)]; [eauto|]. cbn [sanitize_value]. rewrite IH. eexists. reflexivity.
Qed.
Lemma html_returns columns data :
  (forall r k v, In r data -> In (k, v) r -> plain v) -> exists t, html_rows columns data = Ok t.
Proof.
  intros H. unfold html_rows.
  enough (exists rows, mapM (html_row columns) data = Ok rows) as (rows & ->) by (eexists; reflexivity).
  induction data as [|r data IH]; [eexists; reflexivity|]. cbn [mapM].
  destruct IH as (rows & ->); [intros; eapply H; [right|]; eauto|].
  enough (exists t, html_row columns r = Ok t) as (t & ->) by (eexists; reflexivity).
  unfold html_row. enough (exists cells, mapM (fun c => html_cell c r) columns = Ok cells) as (cells & ->) by (eexists; reflexivity).
  induction columns as [|c cs IHc]; [eexists; reflexivity|]. cbn [mapM]. destruct IHc as (cells & ->).
  enough (exists t, html_cell c r = Ok t) as (t & ->) by (eexists; reflexivity).
  unfold html_cell. destruct (dget str_eqb c r) as [v|] eqn:E.
  - apply dget_Some_In in E; auto using str_keqb. destruct (sanitize_plain v) as (w & ->); [|eexists; reflexivity].
    eapply H; [left; reflexivity|exact E].
  - eexists; reflexivity.
Qed.

(** ** entropy *)
Lemma bytes_to_int_app bs c : bytes_to_int (bs ++ [c]) = (256 * bytes_to_int bs + Z.of_N (N_of_ascii c))%Z.
Proof. unfold bytes_to_int. rewrite fold_left_app. reflexivity. Qed.
Lemma byte_range c : (0 <= Z.of_N (N_of_ascii c) < 256)%Z.
Proof. pose proof (N_ascii_bounded c). lia. Qed.
Lemma bytes_to_int_range bs : (0 <= bytes_to_int bs < 256 ^ Z.of_nat (length bs))%Z.
Proof.
  induction bs as [|c bs IH] using rev_ind; [cbn; lia|]. rewrite bytes_to_int_app, app_length.
  pose proof (byte_range c). cbn [length]. replace (Z.of_nat (length bs + 1)) with (Z.of_nat (length bs) + 1)%Z by lia.
  rewrite Z.pow_add_r by lia. change (256 ^ 1)%Z with 256%Z. lia.
Qed.
Lemma bytes_to_int_onto n : forall z, (0 <= z < 256 ^ Z.of_nat n)%Z -> exists bs, length bs = n /\ bytes_to_int bs = z.
Proof.
  induction n as [|n IH]; intros z Hz.
  - exists []. cbn in *. split; auto. change (bytes_to_int []) with 0%Z. lia.
  - rewrite Nat2Z.inj_succ, Z.pow_succ_r in Hz by lia.
    destruct (IH (z / 256)%Z) as (bs & Hl & Hb); [lia|].
    exists (bs ++ [ascii_of_N (Z.to_N (z mod 256))]). rewrite app_length, bytes_to_int_app, Hb, Hl. split; [simpl; lia|].
    rewrite N_ascii_embedding by lia. lia.
Qed.
Lemma random_range_in bs a b z : (a <= b)%Z -> random_range bs a b = Ok z -> (a <= z <= b)%Z.
Proof.
  unfold random_range. intros Hab. destruct (Z.eqb_spec (b + 1 - a) 0); [lia|]. intros E. injection E as <-.
  pose proof (Z.mod_pos_bound (bytes_to_int bs) (b + 1 - a)). lia.
Qed.
Lemma random_range_returns bs a b : (a <= b)%Z -> exists z, random_range bs a b = Ok z.
Proof. unfold random_range. intros H. destruct (Z.eqb_spec (b + 1 - a) 0); [lia|]. eauto. Qed.
Lemma random_range_onto a b z : (a <= z <= b)%Z -> (b - a < 2 ^ 64)%Z ->
  exists bs, length bs = 8 /\ random_range bs a b = Ok z.
Proof.
  intros Hz Hw. destruct (bytes_to_int_onto 8 (z - a)) as (bs & Hl & Hb).
  { change (256 ^ Z.of_nat 8)%Z with (2 ^ 64)%Z. lia. }
  exists bs. split; auto. unfold random_range. destruct (Z.eqb_spec (b + 1 - a) 0); [lia|]. rewrite Hb. f_equal.
  rewrite Z.mod_small; lia.
Qed.
Lemma random_choice_in {A} bs (l : list A) x : random_choice bs l = Ok x -> In x l.
Proof.
  unfold random_choice. intros H. apply bind_Ok in H. destruct H as (z & _ & H). unfold py_index in H.
  destruct (_ <? 0)%Z eqn:E; [discriminate|]. destruct (nth_error l _) eqn:En; [|discriminate]. injection H as <-.
  eapply nth_error_In; eauto.
Qed.
Lemma random_choice_returns {A} bs (l : list A) : l <> [] -> exists x, random_choice bs l = Ok x.
Proof.
  intros Hl. destruct l as [|y l]; [congruence|]. unfold random_choice.
  destruct (random_range_returns bs 0 (Z.of_nat (length (y :: l)) - 1)) as (z & Hz); [cbn [length]; lia|].
  rewrite Hz. apply random_range_in in Hz; [|cbn [length]; lia]. cbn [bind]. unfold py_index.
  destruct (Z.ltb_spec z 0); [lia|]. destruct (Z.ltb_spec z 0); [lia|].
  destruct (nth_error (y :: l) (Z.to_nat z)) eqn:E; eauto. apply nth_error_None in E. lia.
Qed.
Lemma random_choice_onto {A} (l : list A) x : In x l -> (Z.of_nat (length l) <= 2 ^ 64)%Z ->
  exists bs, length bs = 8 /\ random_choice bs l = Ok x.
Proof.
  intros Hx Hl. apply In_nth_error in Hx. destruct Hx as (i & Hi).
  assert (Hb : i < length l) by (apply nth_error_Some; congruence).
  destruct (random_range_onto 0 (Z.of_nat (length l) - 1) (Z.of_nat i)) as (bs & H8 & Hr); [lia|lia|].
  exists bs. split; auto. unfold random_choice. rewrite Hr. cbn [bind]. unfold py_index.
  destruct (Z.ltb_spec (Z.of_nat i) 0); [lia|]. destruct (Z.ltb_spec (Z.of_nat i) 0); [lia|].
  rewrite Nat2Z.id, Hi. reflexivity.
Qed.

Lemma b64_digit_ok n : base64_char (b64_digit n).
Proof.
  unfold b64_digit. assert (H : N.to_nat (n mod 64) < 64) by (pose proof (N.mod_lt n 64); lia).
  revert H. generalize (N.to_nat (n mod 64)). intros i H.
  assert (Forall base64_char b64_alphabet) as HF.
  { unfold b64_alphabet. cbn [list_ascii_of_string]. repeat (constructor; [unfold base64_char; vm_compute; tauto|]). constructor. }
  eapply Forall_forall; [exact HF|]. apply nth_In. exact H.
Qed.

Lemma b64_digits bs : exists ds pad, b64encode bs = ds ++ pad /\ length ds = (4 * length bs + 2) / 3 /\ Forall base64_char ds.
Proof.
  remember (length bs) as n eqn:Hn. revert bs Hn. induction n as [n IH] using lt_wf_ind. intros bs Hn.
  destruct bs as [|a [|b [|c bs]]]; cbn [length] in Hn; subst n.
  - exists [], []. repeat split; constructor.
  - cbn [b64encode]. eexists [_; _], [_; _]. split; [reflexivity|]. split; [reflexivity|]. repeat (apply Forall_cons; [apply b64_digit_ok|]); auto.
  - cbn [b64encode]. eexists [_; _; _], [_]. split; [reflexivity|]. split; [reflexivity|]. repeat (apply Forall_cons; [apply b64_digit_ok|]); auto.
  - destruct (IH (length bs)) with (bs := bs) as (ds & pad & E & Hl & HF); [lia|reflexivity|].
    cbn [b64encode]. rewrite E. eexists (_ :: _ :: _ :: _ :: ds), pad. split; [reflexivity|]. split.
    + cbn [length]. rewrite Hl. replace (4 * S (S (S (length bs))) + 2) with (4 * 3 + (4 * length bs + 2)) by lia.
      rewrite Nat.div_add_l by lia. reflexivity.
    + repeat (apply Forall_cons; [apply b64_digit_ok|]); auto.
Qed.
Lemma random_string_ok n bs : length bs = random_string_bytes n ->
  length (random_string n bs) = n /\ Forall base64_char (random_string n bs).
Proof.
  intros Hl. unfold random_string. destruct (b64_digits bs) as (ds & pad & -> & Hd & HF).
  assert (Hn : n <= length ds).
  { rewrite Hd, Hl. unfold random_string_bytes. pose proof (Nat.div_mod (3 * n + 3) 4).
    pose proof (Nat.mod_upper_bound (3 * n + 3) 4). apply Nat.div_le_lower_bound; lia. }
  rewrite firstn_app. replace (n - length ds) with 0 by lia. cbn [firstn]. rewrite app_nil_r. split.
  - apply firstn_length_le, Hn.
  - apply Forall_forall. intros c Hc. eapply Forall_forall; [exact HF|]. rewrite <- (firstn_skipn n ds). apply in_or_app; auto.
Qed.

Lemma b64_index c : base64_char c -> exists k, (k < 64)%N /\ forall m, (m mod 64)%N = k -> b64_digit m = c.
Proof.
  intros H. enough (exists i, i < 64 /\ nth i b64_alphabet "A"%char = c) as (i & Hi & E).
  { exists (N.of_nat i). split; [lia|]. intros m Hm. unfold b64_digit. rewrite Hm, Nat2N.id. exact E. }
  assert (In c b64_alphabet) as Hin.
  { assert (M : str_mem [c] (map (fun x => [x]) b64_alphabet) = true).
    { unfold base64_char in H. destruct c as [[] [] [] [] [] [] [] []]; vm_compute;
        try reflexivity; exfalso; vm_compute in H; repeat destruct H as [H|H]; discriminate H. }
    unfold str_mem in M. apply existsb_exists in M. destruct M as (y & Hy & E). apply str_eqb_eq in E. subst y.
    apply in_map_iff in Hy. destruct Hy as (x & [= ->] & Hx). exact Hx. }
  apply (In_nth _ _ "A"%char) in Hin. exact Hin.
Qed.
Lemma byte_exists n : (n < 256)%N -> exists a, N_of_ascii a = n.
Proof. intros H. exists (ascii_of_N n). apply N_ascii_embedding, H. Qed.

Lemma digits_bytes d0 d1 d2 d3 : (d0 < 64)%N -> (d1 < 64)%N -> (d2 < 64)%N -> (d3 < 64)%N ->
  exists a b c, let n := (65536 * N_of_ascii a + 256 * N_of_ascii b + N_of_ascii c)%N in
    ((n / 262144) mod 64 = d0 /\ (n / 4096) mod 64 = d1 /\ (n / 64) mod 64 = d2 /\ n mod 64 = d3)%N.
Proof.
  intros H0 H1 H2 H3. set (m := (262144 * d0 + 4096 * d1 + 64 * d2 + d3)%N).
  destruct (byte_exists (m / 65536)%N) as (a & Ha); [unfold m; zify; lia|].
  destruct (byte_exists ((m / 256) mod 256)%N) as (b & Hb); [apply N.mod_lt; lia|].
  destruct (byte_exists (m mod 256)%N) as (c & Hc); [apply N.mod_lt; lia|].
  exists a, b, c. cbv zeta. rewrite Ha, Hb, Hc.
  assert (65536 * (m / 65536) + 256 * ((m / 256) mod 256) + m mod 256 = m)%N as ->.
  { assert (m / 65536 = m / 256 / 256)%N as -> by (rewrite N.div_div by lia; reflexivity). zify; lia. }
  unfold m. repeat split; zify; lia.
Qed.
Lemma random_string_onto n : forall s, length s = n -> Forall base64_char s ->
  exists bs, length bs = random_string_bytes n /\ random_string n bs = s.
Proof.
  induction n as [n IH] using lt_wf_ind. intros s Hs HF.
  assert (Hdig : forall d, base64_char d -> exists k, (k < 64)%N /\ forall m, (m mod 64)%N = k -> b64_digit m = d) by exact b64_index.
  assert (Z64 : (0 < 64)%N) by lia.
  assert (zero : N_of_ascii "000" = 0%N) by reflexivity.
  destruct s as [|d0 [|d1 [|d2 [|d3 s]]]]; cbn [length] in Hs; subst n.
  - exists []. split; reflexivity.
  - inversion HF; subst. destruct (Hdig d0) as (k0 & K0 & E0); auto.
    destruct (byte_exists (4 * k0)%N) as (a & Ha); [lia|]. exists [a]. split; [reflexivity|].
    unfold random_string. cbn [b64encode firstn]. rewrite Ha. f_equal. apply E0. zify; lia.
  - inversion HF as [|? ? ? HF1]; subst. inversion HF1; subst.
    destruct (Hdig d0) as (k0 & K0 & E0); auto. destruct (Hdig d1) as (k1 & K1 & E1); auto.
    destruct (byte_exists (4 * k0 + k1 / 16)%N) as (a & Ha); [zify; lia|].
    destruct (byte_exists (16 * (k1 mod 16))%N) as (b & Hb); [zify; lia|].
    exists [a; b]. split; [reflexivity|]. unfold random_string. cbn [b64encode firstn]. rewrite Ha, Hb.
    rewrite E0 by (zify; lia). rewrite E1 by (zify; lia). reflexivity.
  - inversion HF as [|? ? ? HF1]; subst. inversion HF1 as [|? ? ? HF2]; subst. inversion HF2; subst.
    destruct (Hdig d0) as (k0 & K0 & E0); auto. destruct (Hdig d1) as (k1 & K1 & E1); auto. destruct (Hdig d2) as (k2 & K2 & E2); auto.
    destruct (digits_bytes k0 k1 k2 0 K0 K1 K2 Z64) as (a & b & c & N0 & N1 & N2 & N3).
    exists [a; b; c]. split; [reflexivity|]. unfold random_string. cbn [b64encode firstn].
    rewrite (E0 _ N0), (E1 _ N1), (E2 _ N2). reflexivity.
  - inversion HF as [|? ? ? HF1]; subst. inversion HF1 as [|? ? ? HF2]; subst. inversion HF2 as [|? ? ? HF3]; subst. inversion HF3; subst.
    destruct (Hdig d0) as (k0 & K0 & E0); auto. destruct (Hdig d1) as (k1 & K1 & E1); auto. destruct (Hdig d2) as (k2 & K2 & E2); auto.
    destruct (Hdig d3) as (k3 & K3 & E3); auto.
    destruct (digits_bytes k0 k1 k2 k3 K0 K1 K2 K3) as (a & b & c & N0 & N1 & N2 & N3).
    destruct (IH (length s)) with (s := s) as (bs & Hl & Hr); [lia|auto|auto|].
    exists (a :: b :: c :: bs). split.
    + cbn [length]. rewrite Hl. unfold random_string_bytes. replace (3 * S (S (S (S (length s)))) + 3) with (3 * 4 + (3 * length s + 3)) by lia.
      rewrite Nat.div_add_l by lia. reflexivity.
    + unfold random_string in *. cbn [b64encode firstn]. rewrite (E0 _ N0), (E1 _ N1), (E2 _ N2), (E3 _ N3), Hr. reflexivity.
Qed.

(** ** histogram *)
Lemma fold_min_least v0 vs : least (v0 :: vs) (fold_left Z.min vs v0).
Proof.
  revert v0. induction vs as [|v vs IH]; intros v0; cbn [fold_left].
  - split; [left; auto|]. intros v [<-|[]]. lia.
  - destruct (IH (Z.min v0 v)) as [H1 H2]. split.
    + destruct H1 as [H1|H1]; [|right; right; auto]. rewrite <- H1. destruct (Z.min_spec v0 v) as [[_ ->]|[_ ->]]; simpl; auto.
    + intros x [<-|[<-|H]]; [| |apply H2; right; auto]; specialize (H2 (Z.min v0 v) (or_introl eq_refl)); lia.
Qed.
Lemma fold_max_greatest v0 vs : greatest (v0 :: vs) (fold_left Z.max vs v0).
Proof.
  revert v0. induction vs as [|v vs IH]; intros v0; cbn [fold_left].
  - split; [left; auto|]. intros v [<-|[]]. lia.
  - destruct (IH (Z.max v0 v)) as [H1 H2]. split.
    + destruct H1 as [H1|H1]; [|right; right; auto]. rewrite <- H1. destruct (Z.max_spec v0 v) as [[_ ->]|[_ ->]]; simpl; auto.
    + intros x [<-|[<-|H]]; [| |apply H2; right; auto]; specialize (H2 (Z.max v0 v) (or_introl eq_refl)); lia.
Qed.
Lemma bump_length l i : length (bump l i) = length l.
Proof. revert i. induction l; intros [|i]; simpl; auto. Qed.
Lemma bump_nth l i j : i < length l -> nth j (bump l i) 0 = if (j =? i)%nat then S (nth j l 0) else nth j l 0.
Proof.
  revert i j. induction l as [|x l IH]; intros i j H; simpl in H; [lia|].
  destruct i, j; cbn [bump nth Nat.eqb]; auto. apply IH. lia.
Qed.
Lemma bump_sum l i : i < length l -> list_sum (bump l i) = S (list_sum l).
Proof.
  revert i. induction l as [|x l IH]; intros i H; simpl in H; [lia|]. destruct i; cbn [bump list_sum fold_right]; auto.
  change (fold_right Nat.add 0) with list_sum. rewrite IH by lia. lia.
Qed.

Lemma in_bin_iff mn mx n i v : (mn <= v <= mx)%Z -> 2 <= n ->
  in_bin mn mx n i v = (Z.of_nat i =? bin_of mn mx (Z.of_nat n) v)%Z.
Proof.
  intros Hv Hn. unfold in_bin, bin_of. set (x := ((v - mn) * (Z.of_nat n - 1))%Z). set (w := (1 + mx - mn)%Z).
  assert (Hw : (0 < w)%Z) by (unfold w; lia).
  pose proof (Z.div_mod x w ltac:(lia)) as D. pose proof (Z.mod_pos_bound x w Hw) as M.
  set (q := (x / w)%Z) in *.
  destruct (Z.eqb_spec (Z.of_nat i) q) as [E|E].
  - apply andb_true_iff. rewrite E. split; [apply Z.leb_le|apply Z.ltb_lt]; nia.
  - apply andb_false_iff. destruct (Z.leb_spec (Z.of_nat i * w) x); [right|left; auto]. apply Z.ltb_ge.
    destruct (Z.le_gt_cases (Z.of_nat i + 1) q); nia.
Qed.
Lemma bin_of_range mn mx n v : (mn <= v <= mx)%Z -> 2 <= n -> (0 <= bin_of mn mx (Z.of_nat n) v < Z.of_nat n - 1)%Z.
Proof.
  intros Hv Hn. unfold bin_of. split; [apply Z.div_pos; nia|]. apply Z.div_lt_upper_bound; nia.
Qed.

Lemma histogram_fold mn mx n vs : 2 <= n -> (forall v, In v vs -> (mn <= v <= mx)%Z) -> forall bins, length bins = n ->
  exists bins', fold_left (fun acc v => let* bins := acc in
                        let i := bin_of mn mx (Z.of_nat n) v in
                        if (0 <=? i)%Z && (i <? Z.of_nat (length bins))%Z
                        then Ok (bump bins (Z.to_nat i)) else Raise IndexError) vs (Ok bins) = Ok bins'
    /\ length bins' = n /\ list_sum bins' = list_sum bins + length vs
    /\ forall i, i < n -> nth i bins' 0 = nth i bins 0 + length (filter (in_bin mn mx n i) vs).
Proof.
  intros Hn. induction vs as [|v vs IH]; intros Hv bins Hb; cbn [fold_left].
  - exists bins. repeat split; auto.
  - assert (Hr : (mn <= v <= mx)%Z) by (apply Hv; left; auto). pose proof (bin_of_range mn mx n v Hr Hn) as Hi.
    cbn [bind]. cbv zeta. rewrite Hb. replace ((0 <=? bin_of mn mx (Z.of_nat n) v) && (bin_of mn mx (Z.of_nat n) v <? Z.of_nat n))%Z with true
      by (symmetry; apply andb_true_iff; split; [apply Z.leb_le|apply Z.ltb_lt]; lia).
    destruct (IH (fun x Hx => Hv x (or_intror Hx)) (bump bins (Z.to_nat (bin_of mn mx (Z.of_nat n) v)))) as (bins' & E & H1 & H2 & H3);
      [rewrite bump_length; auto|].
    exists bins'. split; [exact E|]. split; [auto|]. split.
    + rewrite H2, bump_sum by lia. cbn [length]. lia.
    + intros i Hin. rewrite H3 by auto. rewrite bump_nth by lia. cbn [filter]. rewrite in_bin_iff by auto.
      destruct (Nat.eqb_spec i (Z.to_nat (bin_of mn mx (Z.of_nat n) v))) as [Ei|Ei];
        destruct (Z.eqb_spec (Z.of_nat i) (bin_of mn mx (Z.of_nat n) v)); cbn [length]; lia.
Qed.
Lemma list_sum_repeat0 n : list_sum (repeat 0 n) = 0.
Proof. induction n; auto. Qed.
Lemma histogram_exact values n mn mx : least values mn -> greatest values mx -> 2 <= n ->
  exists bins, histogram values n = Ok bins /\ length bins = n /\ list_sum bins = length values
    /\ (forall i, i < n -> nth i bins 0 = length (filter (in_bin mn mx n i) values)).
Proof.
  intros Hmn Hmx Hn. destruct values as [|v0 vs]; [destruct Hmn as [[] _]|]. unfold histogram.
  destruct (fold_min_least v0 vs) as [A1 A2]. destruct (fold_max_greatest v0 vs) as [B1 B2].
  destruct Hmn as [C1 C2], Hmx as [D1 D2].
  assert (fold_left Z.min vs v0 = mn) as -> by (specialize (A2 _ C1); specialize (C2 _ A1); lia).
  assert (fold_left Z.max vs v0 = mx) as -> by (specialize (B2 _ D1); specialize (D2 _ B1); lia).
  cbv zeta. destruct (Nat.eqb_spec n 1); [lia|].
  destruct (histogram_fold mn mx n (v0 :: vs) Hn) with (bins := repeat 0 n) as (bins & E & H1 & H2 & H3); [intros; auto|apply repeat_length|].
  exists bins. split; [exact E|]. split; [auto|]. split; [rewrite H2, list_sum_repeat0; reflexivity|].
  intros i Hi. rewrite H3 by auto. rewrite nth_repeat. reflexivity.
Qed.
Lemma one_bin mn mx n v : (mn <= v <= mx)%Z -> 2 <= n ->
  exists i, i < n - 1 /\ in_bin mn mx n i v = true /\ forall j, in_bin mn mx n j v = true -> j = i.
Proof.
  intros Hv Hn. pose proof (bin_of_range mn mx n v Hv Hn). exists (Z.to_nat (bin_of mn mx (Z.of_nat n) v)).
  split; [lia|]. split; [rewrite in_bin_iff by auto; apply Z.eqb_eq; lia|].
  intros j Hj. rewrite in_bin_iff in Hj by auto. apply Z.eqb_eq in Hj. lia.
Qed.
Lemma bins_monotone mn mx n v w i j : (mn <= v <= w)%Z -> (w <= mx)%Z -> 2 <= n ->
  in_bin mn mx n i v = true -> in_bin mn mx n j w = true -> i <= j.
Proof.
  intros Hv Hw Hn. rewrite !in_bin_iff by (auto; lia). intros Ei Ej. apply Z.eqb_eq in Ei, Ej.
  enough (bin_of mn mx (Z.of_nat n) v <= bin_of mn mx (Z.of_nat n) w)%Z by lia. unfold bin_of.
  apply Z.div_le_mono; nia.
Qed.
Lemma last_bin_empty values n bins : 2 <= n -> histogram values n = Ok bins -> nth (n - 1) bins 0 = 0.
Proof.
  intros Hn H. destruct values as [|v0 vs]; [discriminate|].
  destruct (fold_min_least v0 vs) as [A1 A2]. destruct (fold_max_greatest v0 vs) as [B1 B2].
  destruct (histogram_exact (v0 :: vs) n _ _ (conj A1 A2) (conj B1 B2) Hn) as (bins' & E & Hl & _ & H3).
  rewrite E in H. injection H as <-. rewrite H3 by lia.
  match goal with |- length ?l = 0 => enough (l = []) as -> by reflexivity end.
  destruct (filter _ (v0 :: vs)) as [|v l] eqn:F; auto. exfalso.
  assert (Hv : In v (filter (in_bin (fold_left Z.min vs v0) (fold_left Z.max vs v0) n (n - 1)) (v0 :: vs))) by (rewrite F; left; auto).
  apply filter_In in Hv. destruct Hv as [Hin Hb].
  destruct (one_bin (fold_left Z.min vs v0) (fold_left Z.max vs v0) n v) as (i & Hi & _ & U); auto.
  apply U in Hb. lia.
Qed.
