(** C27, C30: filters and LIKE. *)
From Verif.Base Require Import Py Value.
From Verif.Model Require Import Filters.
From Verif.Spec Require Import DictSet Filters.
From Verif.Proofs Require Filters.

(** ** C30 *)
(** For every pattern and every value whose text has no line feed: LIKE is SQL's LIKE and NOT LIKE its
    negation.  Missing: texts with line feeds, where it is false (below). *)
Theorem like_is_sql_like_partial : forall x p, ~ In newline (py_str x) ->
  exists b, like_values x (VStr p) = Ok b /\ not_like_values x (VStr p) = Ok (negb b) /\
            (b = true <-> sql_like p (py_str x)).
Proof. exact Filters.like_sql. Qed.
Print Assumptions like_is_sql_like_partial.

(** what LIKE is for every pattern and every value *)
Theorem like_characterised : forall x p,
  exists b, like_values x (VStr p) = Ok b /\ not_like_values x (VStr p) = Ok (negb b) /\
            (b = true <-> line_like p (py_str x)).
Proof. exact Filters.like_lines. Qed.
Print Assumptions like_characterised.

(** "a\n" is LIKE 'a', and "a\nb" is not LIKE 'a%b' *)
Theorem like_refuted : exists x p y q,
  like_values x (VStr p) = Ok true /\ ~ sql_like p (py_str x) /\
  like_values y (VStr q) = Ok false /\ sql_like q (py_str y).
Proof.
  exists (VStr ["a"%char; newline]), $"a", (VStr ["a"%char; newline; "b"%char]), $"a%b".
  split; [reflexivity|]. split; [|split; [reflexivity|]].
  - intros H. inversion H as [| | |? ? ? ? ? ? ? H']; subst. inversion H'.
  - apply like_same; try discriminate; auto.
    apply (like_percent _ $"b" [newline] $"b"); [repeat constructor|].
    apply like_same; try discriminate; auto. constructor.
Qed.
Print Assumptions like_refuted.

Example like_examples :
  like_values (VStr $"Saturn (6)*") (VStr $"s_tu%(6)*") = Ok true /\ like_values (VStr $"Saturn") (VStr $"s.*") = Ok false /\
  like_values (VInt 1234) (VStr $"1%4") = Ok true /\ ~ In newline (py_str (VStr $"Saturn (6)*")).
Proof. vm_compute. intuition discriminate. Qed.

(** ** C27 *)
(** Whenever the evaluation of a filter returns, it says whether the filter selects the record: *)
Theorem filter_means_what_it_says : forall matches r p b,
  evaluate matches p r = Ok b -> (b = true <-> selects matches r p).
Proof. exact Filters.evaluate_spec. Qed.
Print Assumptions filter_means_what_it_says.

(** and it returns for every filter of the documented form of any nesting, if its comparisons do *)
Theorem filter_returns : forall matches r p, well_formed_filter p ->
  (forall k op v, in_filter k op v p -> exists b, evaluate matches (PTuple k op v) r = Ok b) ->
  exists b, evaluate matches p r = Ok b.
Proof. exact Filters.evaluate_total. Qed.
Print Assumptions filter_returns.

(** Any other form is an error, or selects the record through a part before the error; no record is left out
    because of it. *)
Theorem filter_malformed_never_excludes : forall matches r p, ~ well_formed_filter p ->
  (forall k op v, in_filter k op v p -> exists b, evaluate matches (PTuple k op v) r = Ok b) ->
  evaluate matches p r = Ok true \/ evaluate matches p r = Raise InvalidSyntaxError.
Proof. exact Filters.evaluate_malformed. Qed.
Print Assumptions filter_malformed_never_excludes.

(** so the malformed part goes unnoticed here: *)
Theorem filter_malformed_is_error_refuted : exists p r, ~ well_formed_filter p /\ forall matches, evaluate matches p r = Ok true.
Proof.
  exists (PList [PList [PTuple $"a" $"=" (VInt 1)]; PList [PNone]]), [($"a", VInt 1)]. split; [|reflexivity].
  assert (~ well_formed_clause (PList [PNone])) as N.
  { intros H. inversion H as [|l F|l F]; subst; inversion F as [|x y X]; subst; [destruct X as (? & ? & ? & X)|destruct X as (? & X)]; discriminate. }
  intros H. inversion H as [|p' W]; subst. inversion W as [|l F|l F G]; subst.
  - inversion F as [|x y X]; subst. destruct X as (? & ? & ? & X). discriminate.
  - inversion G as [|x y _ G']; subst. inversion G'; subst. contradiction.
Qed.
Print Assumptions filter_malformed_is_error_refuted.

(** Filtering a set of records keeps exactly the selected ones, in order, and filtering again changes nothing *)
Theorem filtering_selects_exactly : forall matches filters rows out,
  filter_dictset matches filters rows = Ok out ->
  picks (fun r => selects matches r filters) rows out /\ filter_dictset matches filters out = Ok out.
Proof. exact Filters.filter_dictset_spec. Qed.
Print Assumptions filtering_selects_exactly.

Theorem filtering_returns : forall matches filters rows, well_formed_filter filters ->
  (forall r k op v, In r rows -> in_filter k op v filters -> exists b, evaluate matches (PTuple k op v) r = Ok b) ->
  exists out, filter_dictset matches filters rows = Ok out.
Proof. exact Filters.filter_dictset_total. Qed.
Print Assumptions filtering_returns.

Definition no_regex (x y : value) : result bool := Raise ValueError.
Definition moons : pred :=
  PList [PList [PTuple $"n" $">" (VInt 10); PTuple $"name" $"LIKE" (VStr $"%us")];
         PList [PTuple $"name" $"in" (VList [VStr $"Earth"; VStr $"Mars"])]].
Definition planets : list record :=
  [[($"name", VStr $"Uranus"); ($"n", VInt 27)]; [($"name", VStr $"Venus"); ($"n", VInt 0)];
   [($"name", VStr $"Mars")]; [($"name", VNull); ($"n", VInt 80)]; [($"name", VStr $"Saturn"); ($"n", VInt 80)]].
Example moons_filter :
  well_formed_filter moons /\
  (forall r k op v, In r planets -> in_filter k op v moons -> exists b, evaluate no_regex (PTuple k op v) r = Ok b) /\
  filter_dictset no_regex moons planets =
    Ok [[($"name", VStr $"Uranus"); ($"n", VInt 27)]; [($"name", VStr $"Mars")]].
Proof.
  split; [|split; [|vm_compute; reflexivity]].
  - apply wf_shape, wf_any.
    + repeat constructor; eexists; reflexivity.
    + repeat constructor; unfold a_tuple; eauto.
  - intros r k op v Hr Hk.
    inversion Hk as [|p l Hp Hk']; subst. destruct Hp as [<-|[<-|[]]];
      inversion Hk' as [|p l Hp Hk2]; subst; repeat (destruct Hp as [<-|Hp]); try contradiction;
      inversion Hk2; subst; repeat (destruct Hr as [<-|Hr]); try contradiction; vm_compute; eauto.
Qed.
