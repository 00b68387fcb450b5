(** C28, C29: filter expressions as text. *)
From Verif.Base Require Import Py Value.
From Verif.Model Require Import Tokens Expression.
From Verif.Spec Require Import DictSet Tokens Expression.
From Verif.Proofs Require Expression Labels Texts.
From Verif.Proofs Require Import ExpressionCases.   (* cases: none_of, rows_where, ex_... *)

(** ** C28 *)
(** Parsing ends for every sequence of tokens. *)
Theorem expression_parsing_ends : forall float_of date_of ts, parse float_of date_of ts <> Raise OutOfFuel.
Proof. exact Expression.parse_ends. Qed.
Print Assumptions expression_parsing_ends.

(** Tokens derived from the grammar (NOT binds tighter than AND, AND tighter than OR, parentheses override) parse to
    the tree they are derived for, for every depth: *)
Theorem expression_precedence : forall float_of date_of ts t,
  either (get_token_type float_of date_of) (member float_of date_of) float_of date_of ts t ->
  parse float_of date_of ts = Ok t.
Proof. exact Expression.grammar_complete. Qed.
Print Assumptions expression_precedence.

(** so that the tree of tokens is unique *)
Theorem expression_unambiguous : forall float_of date_of ts t t',
  either (get_token_type float_of date_of) (member float_of date_of) float_of date_of ts t ->
  either (get_token_type float_of date_of) (member float_of date_of) float_of date_of ts t' -> t = t'.
Proof. exact Expression.grammar_unambiguous. Qed.
Print Assumptions expression_unambiguous.

(** The kinds of tokens: *)
Theorem token_labels : forall float_of date_of s ty, reads_floats float_of ->
  labelled float_of date_of s ty -> get_token_type float_of date_of s = ty.
Proof. exact Labels.labels_spec. Qed.
Print Assumptions token_labels.

(** The tokens of a text are its lexemes, in the order in which they are written, keywords in any case.  Quoted
    texts may have the words and signs of the language inside; what they must not have is repeated spaces, a space
    between two of these words or signs, or another quote right after one: [quoted_texts_changed_refuted].) *)
Theorem expression_tokens_partial : forall float_of date_of first l ts,
  reads_floats float_of -> well_written first l ->
  Forall2 (token_for float_of date_of) (first :: map snd l) ts ->
  tokenize float_of date_of (whole_text first l) = ts.
Proof. exact Texts.texts_tokens. Qed.
Print Assumptions expression_tokens_partial.

(** Together, the text of an expression parses to its tree: *)
Theorem expression_text_parses : forall float_of date_of first l ts t,
  reads_floats float_of -> well_written first l ->
  Forall2 (token_for float_of date_of) (first :: map snd l) ts ->
  either (get_token_type float_of date_of) (member float_of date_of) float_of date_of ts t ->
  init_expression float_of date_of (whole_text first l) = Ok t.
Proof. exact Texts.texts_parse. Qed.
Print Assumptions expression_text_parses.

(** and every tree of comparisons of names, numbers, quoted texts and lists of them has a text: *)
Theorem every_expression_tree_has_a_text : forall float_of date_of, reads_floats float_of -> forall t,
  plain_tree (get_token_type float_of date_of) (member float_of date_of) float_of date_of t ->
  exists text, init_expression float_of date_of text = Ok t.
Proof. exact Texts.every_tree_has_a_text. Qed.
Print Assumptions every_expression_tree_has_a_text.

(** the members of a list: numbers and quoted texts (or dates) *)
Theorem in_list_members : forall float_of date_of, reads_floats float_of ->
  (forall n, interpret_quoted float_of date_of (member float_of date_of (decZ n)) = VInt n) /\
  (forall q s, In q [""""%char; "'"%char] -> date_of (q :: s ++ [q]) = None ->
     interpret_quoted float_of date_of (member float_of date_of (q :: s ++ [q])) =
     match date_of s with Some d => d | None => VStr s end).
Proof.
  exact (fun float_of date_of HF =>
    conj (Texts.member_integer float_of date_of) (fun q s => Texts.member_text float_of date_of q s HF)).
Qed.
Print Assumptions in_list_members.

(** ** C29 *)
(** A filter keeps exactly the records which satisfy the tree of its text, in order: *)
Theorem expression_filter_exact : forall float_of date_of py_is matches exp rows out,
  Forall (fun r => NoDup (map fst r)) rows ->
  filter_where float_of date_of py_is matches exp rows = Ok out ->
  exists t, init_expression float_of date_of exp = Ok t /\
            picks (fun r => satisfied (test float_of date_of py_is matches r) t) rows out.
Proof. exact Expression.where_picks. Qed.
Print Assumptions expression_filter_exact.

(** with the text as it is written: *)
Theorem expression_filter_as_written : forall float_of date_of py_is matches first l ts t rows out,
  reads_floats float_of -> well_written first l ->
  Forall2 (token_for float_of date_of) (first :: map snd l) ts ->
  either (get_token_type float_of date_of) (member float_of date_of) float_of date_of ts t ->
  Forall (fun r => NoDup (map fst r)) rows ->
  filter_where float_of date_of py_is matches (whole_text first l) rows = Ok out ->
  picks (fun r => satisfied (test float_of date_of py_is matches r) t) rows out.
Proof. exact Texts.text_filter. Qed.
Print Assumptions expression_filter_as_written.

(** It returns if every comparison does for every record: *)
Theorem expression_filter_returns : forall float_of date_of py_is matches exp rows t,
  init_expression float_of date_of exp = Ok t ->
  (forall r c, In r rows -> In c (comparisons t) ->
     exists v, evaluate_recursive float_of date_of py_is matches c r = Ok v) ->
  exists out, filter_where float_of date_of py_is matches exp rows = Ok out.
Proof. exact Expression.where_returns. Qed.
Print Assumptions expression_filter_returns.

(** which they do whatever the types of the values: values which cannot be compared do not match ([compares]).  Only
    regular expressions, and LIKE with something else than a text, may raise. *)
Theorem expression_filter_always_returns : forall float_of date_of py_is matches exp rows t,
  init_expression float_of date_of exp = Ok t -> (forall c, In c (comparisons t) -> has_answer c) ->
  exists out, filter_where float_of date_of py_is matches exp rows = Ok out.
Proof. exact Expression.where_always_returns. Qed.
Print Assumptions expression_filter_always_returns.
Example ex_mixed_types :
  (exists t, init_expression none_of none_of $"a < 5 OR NOT b >= 'x' AND c IN (1)" = Ok t /\ forall c, In c (comparisons t) -> has_answer c) /\
  rows_where $"a < 5 OR NOT b >= 'x' AND c IN (1)"
    [[($"a", VStr $"y"); ($"b", VStr $"z")]; [($"a", VDict []); ($"c", VInt 1)]; [($"a", VList []); ($"b", VNull); ($"c", VInt 2)];
     [($"a", VInt 4)]]
  = Ok [[($"a", VDict []); ($"c", VInt 1)]; [($"a", VInt 4)]].
Proof.
  split; [|vm_compute; reflexivity]. eexists. split; [vm_compute; reflexivity|]. intros c H. cbn in H.
  repeat (destruct H as [<-|H]); try contradiction; (split; [left; cbn; tauto|]); cbn; intuition (subst; eauto).
Qed.

(** Accepted tokens without NULL and function calls: the tree is the one the grammar gives to the tokens before
    some point, which are as many as the grammar can take.  Missing: that there is nothing after it, and NULLs
    and function calls; with these it is false (below). *)
Theorem every_condition_applied_partial : forall float_of date_of ts t,
  Forall (plain_token (get_token_type float_of date_of)) ts -> parse float_of date_of ts = Ok t -> proper t ->
  exists ts1 rest, ts = ts1 ++ rest /\
    either (get_token_type float_of date_of) (member float_of date_of) float_of date_of ts1 t /\
    forall x r, rest = x :: r ->
      get_token_type float_of date_of x <> AND /\ get_token_type float_of date_of x <> OR.
Proof. exact Expression.grammar_sound. Qed.
Print Assumptions every_condition_applied_partial.

(** "a IS NULL AND b = 1" and "a = 1 NOT b = 2" ignore what comes after the first comparison; "COUNT(a) (b = 1)"
    ignores the function *)
Theorem every_condition_applied_refuted :
  (exists r, rows_where $"a IS NULL AND b = 1" [r] = Ok [r] /\ rget $"b" r = VInt 2) /\
  (exists r, rows_where $"a = 1 NOT b = 2" [r] = Ok [r] /\ rget $"b" r = VInt 2) /\
  (exists r, rows_where $"COUNT(a) (b = 1)" [r] = Ok [r]) /\
  (exists r, rows_where $"a = 1 ) OR anything at all" [r] = Ok [r]).
Proof.
  repeat split.
  - exists [($"a", VNull); ($"b", VInt 2)]. vm_compute. split; reflexivity.
  - exists [($"a", VInt 1); ($"b", VInt 2)]. vm_compute. split; reflexivity.
  - exists [($"a", VInt 1); ($"b", VInt 1)]. vm_compute. reflexivity.
  - exists [($"a", VInt 1); ($"b", VInt 1)]. vm_compute. reflexivity.
Qed.
Print Assumptions every_condition_applied_refuted.

(** The text '1' is never equal to the text 1 of a record, and spaces in literals are lost. *)
Theorem quoted_numbers_refuted :
  rows_where $"a = '1'" [[($"a", VStr $"1")]] = Ok [] /\
  rows_where $"a IN ('1', '2')" [[($"a", VStr $"1")]] = Ok [] /\
  rows_where $"a = 'x  y'" [[($"a", VStr $"x  y")]] = Ok [] /\
  rows_where $"a = 'x, (y)'" [[($"a", VStr $"x, (y)")]] = Ok [].
Proof. vm_compute. repeat split. Qed.
Print Assumptions quoted_numbers_refuted.

(** What [expression_tokens_partial] leaves out is lost: the space between two words of the language, repeated
    spaces, and what stands before another quote. *)
Theorem quoted_texts_changed_refuted :
  tokenize none_of none_of $"a = 'x and not y'" = [$"a"; $"="; $"'x andnot y'"] /\
  tokenize none_of none_of $"a = 'salt and (pepper)'" = [$"a"; $"="; $"'salt and(pepper)'"] /\
  tokenize none_of none_of $"a = 'x  y'" = [$"a"; $"="; $"'x y'"] /\
  tokenize none_of none_of ($"a = " ++ """"%char :: $"x in 'y' or z" ++ [""""%char]) =
    [$"a"; $"="; $"'y'"; """"%char :: $"x inor z" ++ [""""%char]].
Proof. vm_compute. repeat split. Qed.
Print Assumptions quoted_texts_changed_refuted.

(** ** Cases: the hypotheses of the theorems above *)
Example case_text : ex_text = $"age >= 18 and not (name = 'Dora (and Jo)' or `size`<>2)" /\ whole_text ex_first ex_rest = ex_text.
Proof. split; reflexivity. Qed.
Example case_well_written : reads_floats none_of /\ well_written ex_first ex_rest.
Proof. exact (conj none_reads ex_well_written). Qed.
Example case_tokens : Forall2 (token_for none_of none_of) (ex_first :: map snd ex_rest) ex_tokens.
Proof. exact ex_token_for. Qed.
Example case_grammar :
  either (get_token_type none_of none_of) (member none_of none_of) none_of none_of ex_tokens ex_tree /\
  ex_tree = TAnd (TOp $">=" (TVar $"age") (TLeaf INTEGER (VInt 18)))
       (TNot (TOr (TOp $"=" (TVar $"name") (TLeaf LITERAL (VStr $"Dora (and Jo)")))
                  (TOp $"<>" (TVar $"`size`") (TLeaf INTEGER (VInt 2))))).
Proof. exact (conj ex_grammar eq_refl). Qed.
Example case_filters :
  let keep := [($"age", VInt 20); ($"name", VStr $"Ann"); ($"size", VInt 2)] in
  let young := [($"age", VInt 17); ($"name", VStr $"Ann"); ($"size", VInt 2)] in
  let dora := [($"age", VInt 20); ($"name", VStr $"Dora (and Jo)"); ($"size", VInt 2)] in
  rows_where ex_text [young; keep; dora; keep] = Ok [keep; keep].
Proof. exact ex_filters. Qed.
Example case_call : init_expression none_of none_of $"LEN(name) > 3" =
  Ok (TOp $">" (TVar $"LEN(name)") (TLeaf INTEGER (VInt 3))).
Proof. vm_compute. reflexivity. Qed.
Example case_plain_tree : exists t,
  plain_tree (get_token_type none_of none_of) (member none_of none_of) none_of none_of t /\
  t = TNot (TAnd (TOr (TOp $"=" (TVar $"a") (TLeaf INTEGER (VInt 1)))
                      (TOp $"IN" (TVar $"b") (TLeaf LITERAL (VList [VInt 1; VStr $"'x'"]))))
                 (TOp $"LIKE" (TVar $"c") (TLeaf LITERAL (VStr $"%z")))).
Proof. exact ex_plain_tree. Qed.
Example case_sound : Forall (plain_token (get_token_type none_of none_of)) [$"a"; $"="; $"1"; $"AND"; $"b"; $"<"; $"2"; $")"] /\
  parse none_of none_of [$"a"; $"="; $"1"; $"AND"; $"b"; $"<"; $"2"; $")"] =
    Ok (TAnd (TOp $"=" (TVar $"a") (TLeaf INTEGER (VInt 1))) (TOp $"<" (TVar $"b") (TLeaf INTEGER (VInt 2)))).
Proof. split; [|reflexivity]. repeat constructor; discriminate. Qed.
