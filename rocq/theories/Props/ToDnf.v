(** C67: the disjunctive normal form of an expression. *)
From Verif.Base Require Import Py Value.
From Verif.Model Require Import Tokens Expression ToDnf.
From Verif.Spec Require Import Expression ToDnf.
From Verif.Proofs Require ToDnf.

(** C67, for alternatives of up to two comparisons of columns with integers, on records with integers in these
    columns. *)
Theorem dnf_selects_the_same_partial :
  forall (float_of date_of : str -> option value) (py_is : value -> value -> bool)
         (matches : value -> value -> result bool) (t : tree) (r : record),
    alternatives t -> numbers_for t r ->
    exists v, evaluate_recursive float_of date_of py_is matches t r = Ok v /\ dnf_selects matches t r = Ok (truthy v).
Proof. exact ToDnf.dnf_right. Qed.
Print Assumptions dnf_selects_the_same_partial.

Definition nothing (_ : str) : option value := None.
Definition no_regex (_ _ : value) : result bool := Raise TypeError.
Definition ex_tree : tree :=
  TOr (TAnd (TOp $">" (TVar $"a") (TLeaf INTEGER (VInt 1))) (TOp $"<=" (TVar $"b") (TLeaf INTEGER (VInt 5))))
      (TOp $"<>" (TVar $"c") (TLeaf INTEGER (VInt 3))).
Example ex_alternatives :
  init_expression nothing nothing $"a > 1 AND b <= 5 OR c <> 3" = Ok ex_tree /\ alternatives ex_tree /\
  let r := [($"a", VInt 2); ($"b", VInt 5); ($"c", VInt 3)] in
  numbers_for ex_tree r /\ dnf_selects no_regex ex_tree r = Ok true.
Proof.
  split; [vm_compute; reflexivity|]. split.
  - apply alternatives_or; [apply alternatives_two|apply alternatives_one]; constructor; cbn [plain_comparisons In]; auto 10.
  - split; [|vm_compute; reflexivity]. repeat split; eexists; reflexivity.
Qed.

(** Every expression without a bare NOT can be converted, so a reader can be made with it. *)
Theorem every_expression_converts :
  forall t : tree, proper t -> exists d, to_dnf t = Ok d.
Proof. exact ToDnf.to_dnf_total. Qed.
Print Assumptions every_expression_converts.

(** Findings.  An AND of two parts that are ANDs or ORs themselves is taken for an OR; *)
Theorem and_of_groups_is_taken_for_or :
  forall (matches : value -> value -> result bool) (a b : tree) (r : record) (x y : bool),
    match a with TAnd _ _ | TOr _ _ => True | _ => False end ->
    match b with TAnd _ _ | TOr _ _ => True | _ => False end ->
    dnf_selects matches a r = Ok x -> dnf_selects matches b r = Ok y ->
    dnf_selects matches (TAnd a b) r = Ok (x || y).
Proof. exact ToDnf.and_of_groups. Qed.
Print Assumptions and_of_groups_is_taken_for_or.

(** ... an AND of a comparison and such a part raises for every record, *)
Theorem and_with_a_group_fails :
  forall (matches : value -> value -> result bool) (g : tree) (op : str) (x y : tree) (r : record) (dg : dnf),
    proper (TOp op x y) -> match g with TAnd _ _ | TOr _ _ => True | _ => False end -> to_dnf g = Ok dg ->
    dnf_selects matches (TAnd g (TOp op x y)) r = Raise InvalidSyntaxError /\
    dnf_selects matches (TAnd (TOp op x y) g) r = Raise InvalidSyntaxError.
Proof. exact ToDnf.mixed_and. Qed.
Print Assumptions and_with_a_group_fails.

(** ... and so does NOT; *)
Theorem not_fails :
  forall (matches : value -> value -> result bool) (t : tree) (r : record) (d : dnf),
    to_dnf t = Ok d -> dnf_selects matches (TNot t) r = Raise ValueError.
Proof. exact ToDnf.not_fails. Qed.
Print Assumptions not_fails.

(** ... texts are compared with their quotes. *)
Theorem text_equality_needs_quotes :
  forall (matches : value -> value -> result bool) (name op s w : str) (r : record),
    In op [$"="; $"=="] -> rget name r = VStr w ->
    dnf_selects matches (TOp op (TVar name) (TLeaf LITERAL (VStr s))) r = Ok (str_eqb w ($"""" ++ s ++ $"""")).
Proof. exact ToDnf.text_equality. Qed.
Print Assumptions text_equality_needs_quotes.

Theorem dnf_selects_the_same_refuted :
  exists (exp : str) (t : tree) (r : record),
    init_expression nothing nothing exp = Ok t /\
    evaluate_recursive nothing nothing (fun _ _ => false) no_regex t r = Ok (VBool false) /\
    dnf_selects no_regex t r = Ok true.
Proof.
  exists $"(a = 1 AND b = 1) AND (c = 1 AND d = 1)". eexists.
  exists [($"a", VInt 1); ($"b", VInt 1); ($"c", VInt 2); ($"d", VInt 1)].
  split; [vm_compute; reflexivity|]. split; vm_compute; reflexivity.
Qed.
Print Assumptions dnf_selects_the_same_refuted.

Theorem texts_refuted :
  exists (exp : str) (t : tree) (r : record),
    init_expression nothing nothing exp = Ok t /\
    evaluate_recursive nothing nothing (fun _ _ => false) no_regex t r = Ok (VBool true) /\
    dnf_selects no_regex t r = Ok false.
Proof.
  exists $"name = 'tom'". eexists. exists [($"name", VStr $"tom")].
  split; [vm_compute; reflexivity|]. split; vm_compute; reflexivity.
Qed.
Print Assumptions texts_refuted.
