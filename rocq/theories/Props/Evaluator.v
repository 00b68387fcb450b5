(** C50, C62: select lists and their functions. *)
From Coq Require Import Sorted Permutation.
From Verif.Base Require Import Py Value.
From Verif.Model Require Import Tokens Evaluator.
From Verif.Spec Require Import Tokens Expression Evaluator Letters.
From Verif.Proofs Require Evaluator Functions Letters.
From Verif.Proofs Require Import ExpressionCases EvaluatorCases.   (* cases: none_of, ex_list, ... *)

(** ** C50 *)
(** For every select list (any number of entries, any nesting of functions, any white space) and every record, the
    columns named by the list hold the values of the expressions: those of calls are the function's for the values of
    the arguments.  The other columns are those of the record if the list has a star, and there are none otherwise.
    Missing for the whole of C50: the name after AS counts only for functions ([given_name]). *)
Theorem select_list_evaluates_partial : forall float_of date_of apply xs s vs r,
  reads_floats float_of -> written_list (get_token_type float_of date_of) xs s -> NoDup (map fst r) ->
  Forall2 (fun x v => means (get_token_type float_of date_of) float_of date_of apply r (fst x) v) xs vs ->
  exists items out, new_evaluator float_of date_of s = Ok items /\ evaluate float_of date_of apply items r = Ok out /\
    (forall k v, last_binding k (combine (map given_name xs) vs) = Some v -> dget str_eqb k out = Some v) /\
    (forall k, ~ In k (map given_name xs) -> starred xs -> dget str_eqb k out = dget str_eqb k r) /\
    (forall k, ~ In k (map given_name xs) -> ~ starred xs -> dget str_eqb k out = None).
Proof. exact Evaluator.select_list_evaluates. Qed.
Print Assumptions select_list_evaluates_partial.

(** Without a star and with distinct names, the record has exactly the columns of the list, in its order. *)
Theorem select_list_columns_partial : forall float_of date_of apply xs s vs r,
  reads_floats float_of -> written_list (get_token_type float_of date_of) xs s -> NoDup (map fst r) ->
  Forall2 (fun x v => means (get_token_type float_of date_of) float_of date_of apply r (fst x) v) xs vs ->
  ~ starred xs -> NoDup (map given_name xs) ->
  exists items, new_evaluator float_of date_of s = Ok items /\
    evaluate float_of date_of apply items r = Ok (combine (map given_name xs) vs).
Proof. exact Evaluator.select_list_columns. Qed.
Print Assumptions select_list_columns_partial.

Example select_list_case :
  written_list (get_token_type none_of none_of) ex_list ex_select /\ NoDup (map fst ex_row) /\
  Forall2 (fun x v => means (get_token_type none_of none_of) none_of none_of fns ex_row (fst x) v) ex_list ex_values /\
  ~ starred ex_list /\ NoDup (map given_name ex_list) /\ map given_name ex_list = [$"who"; $"`size`"; $"7"].
Proof.
  split; [exact ex_written|]. split; [repeat constructor; cbn; intuition discriminate|]. split; [exact ex_means|].
  split; [exact ex_not_starred|exact ex_names].
Qed.

(** A function which raises for the values of its arguments makes the evaluation of the record raise that. *)
Theorem failing_function_raises : forall float_of date_of apply xs s vs r e f args x more,
  reads_floats float_of -> NoDup (map fst r) ->
  written_list (get_token_type float_of date_of) (xs ++ (Call f args, e) :: more) s ->
  Forall2 (fun x v => means (get_token_type float_of date_of) float_of date_of apply r (fst x) v) xs vs ->
  forall ws, In (upper f) Tokens.functions ->
    Forall2 (means (get_token_type float_of date_of) float_of date_of apply r) args ws -> apply (upper f) ws = Raise x ->
  exists items, new_evaluator float_of date_of s = Ok items /\ evaluate float_of date_of apply items r = Raise x.
Proof. exact Evaluator.select_list_raises. Qed.
Print Assumptions failing_function_raises.

Example failing_case : exists items, new_evaluator none_of none_of $"size,LEN(size) " = Ok items /\
  evaluate none_of none_of fns items ex_row = Raise TypeError.
Proof. eexists. split; [vm_compute; reflexivity|vm_compute; reflexivity]. Qed.

(** [fields()] gives the names asked for, for every list without constants TRUE, FALSE and NULL. *)
Theorem select_list_fields_partial : forall float_of date_of xs s,
  reads_floats float_of -> written_list (get_token_type float_of date_of) xs s ->
  Forall (fun x => forall w, fst x = Atom w ->
            ~ In (get_token_type float_of date_of w) [BOOLEAN; NULL] /\ (w = $"*" -> snd x = None)) xs ->
  exists items, new_evaluator float_of date_of s = Ok items /\ get_fields items = map asked_name xs.
Proof. exact Evaluator.select_list_fields. Qed.
Print Assumptions select_list_fields_partial.

Example fields_case : Forall (fun x => forall w, fst x = Atom w ->
    ~ In (get_token_type none_of none_of w) [BOOLEAN; NULL] /\ (w = $"*" -> snd x = None)) ex_list /\
  map asked_name ex_list = [$"who"; $"`size`"; $"7"].
Proof.
  split; [|reflexivity]. apply Forall_forall. intros x Hx w E. cbn in Hx.
  destruct Hx as [<-|[<-|[<-|[]]]]; cbn [fst] in E; try discriminate E; injection E as <-; (split; [vm_compute; intuition discriminate|discriminate]).
Qed.

(** The constants are among the columns of the record, and not in [fields()]. *)
Theorem constant_fields_refuted : exists s items out r, new_evaluator none_of none_of s = Ok items /\
  evaluate none_of none_of fns items r = Ok out /\ map fst out = [$"size"; $"TRUE"] /\ get_fields items = [$"size"].
Proof. exists $"size, TRUE". eexists _, _, ex_row. repeat split; vm_compute; reflexivity. Qed.
Print Assumptions constant_fields_refuted.

(** A column with another name: the record keeps the old name, [fields()] has the new one. *)
Theorem column_alias_refuted : exists s items out r, new_evaluator none_of none_of s = Ok items /\
  written_list (get_token_type none_of none_of) [(Atom $"size", Some $"n")] s /\
  evaluate none_of none_of fns items r = Ok out /\ out = [($"size", VInt 5)] /\ get_fields items = [$"n"].
Proof.
  exists $"size AS n". eexists _, _, ex_row. split; [vm_compute; reflexivity|]. split.
  - apply list_one. apply (entry_as (get_token_type none_of none_of) _ $"size " $"AS" $" " $"n" []); try reflexivity; try blanks_tac; try discriminate.
    + apply (written_atom (get_token_type none_of none_of) $"size" [] $" "); try blanks_tac. atom_tac.
    + exists $"size", " "%char. split; [reflexivity|]. vm_compute. intuition discriminate.
    + split; [discriminate|reflexivity].
    + uncut_tac.
  - repeat split; vm_compute; reflexivity.
Qed.
Print Assumptions column_alias_refuted.

(** A quoted text with a comma is read as two entries. *)
Theorem quoted_comma_refuted : exists items out, new_evaluator none_of none_of $"CONCAT('a,b')" = Ok items /\
  evaluate none_of none_of fns items [] = Ok out /\ out <> [($"CONCAT('a,b')", VStr $"a,b")] /\
  map fst out = [$"CONCAT('a,b')"].
Proof. eexists _, _. split; [vm_compute; reflexivity|]. split; [vm_compute; reflexivity|]. split; [discriminate|reflexivity]. Qed.
Print Assumptions quoted_comma_refuted.

(** Every text is read, or refused with an exception. *)
Theorem select_list_reading_ends : forall float_of date_of s,
  match new_evaluator float_of date_of s with Ok _ => True | Raise e => e = InvalidEvaluator \/ e = IndexError end.
Proof. exact Evaluator.evaluator_ends. Qed.
Print Assumptions select_list_reading_ends.

(** ** C62: functions of texts, for every text and every number *)
Theorem left_is_the_first_characters : forall dumps other x n,
  Model.Evaluator.functions dumps other $"LEFT" [x; VInt (Z.of_nat n)] = Ok (VStr (firstn n (py_str x))).
Proof. exact Functions.left_fn. Qed.
Print Assumptions left_is_the_first_characters.

(** RIGHT(x, n) is the last n characters; for n = 0 it is the whole text (below) *)
Theorem right_is_the_last_characters_partial : forall dumps other x n, 0 < n ->
  exists t u, Model.Evaluator.functions dumps other $"RIGHT" [x; VInt (Z.of_nat n)] = Ok (VStr t) /\
    py_str x = u ++ t /\ length t = Nat.min n (length (py_str x)).
Proof. exact Functions.right_fn. Qed.
Print Assumptions right_is_the_last_characters_partial.

Theorem right_of_nothing_refuted : forall dumps other s,
  Model.Evaluator.functions dumps other $"RIGHT" [VStr s; VInt 0] = Ok (VStr s).
Proof. exact Functions.right_zero_fn. Qed.
Print Assumptions right_of_nothing_refuted.

Theorem mid_is_the_characters_between : forall dumps other x a n,
  Model.Evaluator.functions dumps other $"MID" [x; VInt (Z.of_nat a); VInt (Z.of_nat n)] =
  Ok (VStr (firstn n (skipn a (py_str x)))).
Proof. exact Functions.mid_fn. Qed.
Print Assumptions mid_is_the_characters_between.

Theorem left_and_mid_make_the_text : forall dumps other s n, exists a b,
  Model.Evaluator.functions dumps other $"LEFT" [VStr s; VInt (Z.of_nat n)] = Ok a /\
  Model.Evaluator.functions dumps other $"MID" [VStr s; VInt (Z.of_nat n); VInt (Z.of_nat (length s))] = Ok b /\
  Model.Evaluator.functions dumps other $"CONCAT" [a; b] = Ok (VStr s).
Proof. exact Functions.parts_fn. Qed.
Print Assumptions left_and_mid_make_the_text.

Theorem concat_joins_texts : forall dumps other l, length l <> 1 ->
  Model.Evaluator.functions dumps other $"CONCAT" (map VStr l) = Ok (VStr (concat l)).
Proof. exact Functions.concat_fn. Qed.
Print Assumptions concat_joins_texts.

(** CONCAT or STRING of a single list: the items with a comma and a space between them. *)
Theorem concat_of_list_separates : forall dumps other x l,
  let text := VStr (x ++ concat (map (fun t => $", " ++ t) l)) in
  Model.Evaluator.functions dumps other $"CONCAT" [VList (map VStr (x :: l))] = Ok text /\
  Model.Evaluator.functions dumps other $"STRING" [VList (map VStr (x :: l))] = Ok text /\
  Model.Evaluator.functions dumps other $"CONCAT" [VList []] = Ok (VStr []) /\
  Model.Evaluator.functions dumps other $"STRING" [VList []] = Ok (VStr []).
Proof. exact Functions.concat_list_fn. Qed.
Print Assumptions concat_of_list_separates.

(** SORT gives the same items, in order: numbers, texts, and the keys of a dictionary. *)
Theorem sort_orders_numbers : forall dumps other l, exists s,
  Model.Evaluator.functions dumps other $"SORT" [VList (map VInt l)] = Ok (VList (map VInt s)) /\
  Permutation s l /\ StronglySorted Z.le s.
Proof. exact Functions.sort_numbers_fn. Qed.
Print Assumptions sort_orders_numbers.
Theorem sort_orders_texts : forall dumps other l, exists s,
  Model.Evaluator.functions dumps other $"SORT" [VList (map VStr l)] = Ok (VList (map VStr s)) /\
  Permutation s l /\ StronglySorted (fun a b => str_leb a b = true) s.
Proof. exact Functions.sort_texts_fn. Qed.
Print Assumptions sort_orders_texts.
Theorem sort_of_dictionary_orders_keys : forall dumps other d, exists s,
  Model.Evaluator.functions dumps other $"SORT" [VDict d] = Ok (VList (map VStr s)) /\
  Permutation s (map fst d) /\ StronglySorted (fun a b => str_leb a b = true) s.
Proof. exact Functions.sort_keys_fn. Qed.
Print Assumptions sort_of_dictionary_orders_keys.

(** ISNONE is true of a missing value only; BOOLEAN is false of the text "false" in any case only; LEN counts. *)
Theorem isnone_finds_missing_values : forall dumps other x,
  Model.Evaluator.functions dumps other $"ISNONE" [x] = Ok (VBool true) <-> x = VNull.
Proof. exact Functions.isnone_fn. Qed.
Print Assumptions isnone_finds_missing_values.
Theorem boolean_is_false_of_false_only : forall dumps other s,
  Model.Evaluator.functions dumps other $"BOOLEAN" [VStr s] = Ok (VBool false) <-> lower s = $"false".
Proof. exact Functions.boolean_fn. Qed.
Print Assumptions boolean_is_false_of_false_only.
Theorem len_counts : forall dumps other s l,
  Model.Evaluator.functions dumps other $"LEN" [VStr s] = Ok (VInt (Z.of_nat (length s))) /\
  Model.Evaluator.functions dumps other $"LEN" [VList l] = Ok (VInt (Z.of_nat (length l))).
Proof. exact Functions.len_fn. Qed.
Print Assumptions len_counts.

Theorem trim_removes_blanks_at_the_ends : forall dumps other x, exists a t b,
  Model.Evaluator.functions dumps other $"TRIM" [x] = Ok (VStr t) /\ py_str x = a ++ t ++ b /\ blanks a /\ blanks b /\
  match t with [] => True | c :: _ => is_space c = false end /\ match rev t with [] => True | c :: _ => is_space c = false end.
Proof. exact Functions.trim_fn. Qed.
Print Assumptions trim_removes_blanks_at_the_ends.

(** UPPER and LOWER change small letters to capitals, or the other way, and nothing else *)
Theorem upper_and_lower_change_case_only : forall dumps other x, exists u l,
  Model.Evaluator.functions dumps other $"UPPER" [x] = Ok (VStr u) /\
  Model.Evaluator.functions dumps other $"LOWER" [x] = Ok (VStr l) /\
  Forall2 in_capitals (py_str x) u /\ Forall2 in_small_letters (py_str x) l.
Proof. exact Letters.case_fn. Qed.
Print Assumptions upper_and_lower_change_case_only.

(** BETWEEN leaves out both ends *)
Theorem between_excludes_its_ends : forall dumps other x a b,
  Model.Evaluator.functions dumps other $"BETWEEN" [VInt x; VInt a; VInt b] = Ok (VBool true) <-> (a < x < b)%Z.
Proof. exact Functions.between_fn. Qed.
Print Assumptions between_excludes_its_ends.

Example functions_case :
  fns $"LEFT" [VStr $"dorothy"; VInt 3] = Ok (VStr $"dor") /\ fns $"RIGHT" [VStr $"dorothy"; VInt 3] = Ok (VStr $"thy") /\
  fns $"MID" [VInt 12345; VInt 1; VInt 2] = Ok (VStr $"23") /\ fns $"TRIM" [VStr $" a b  "] = Ok (VStr $"a b") /\
  fns $"UPPER" [VStr $"a1"] = Ok (VStr $"A1") /\ fns $"CONCAT" [VStr $"a"; VStr $"b"] = Ok (VStr $"ab") /\
  fns $"BETWEEN" [VInt 2; VInt 1; VInt 3] = Ok (VBool true) /\ fns $"BETWEEN" [VInt 1; VInt 1; VInt 3] = Ok (VBool false) /\
  fns $"CONCAT" [VList [VStr $"a"; VStr $"b"; VStr $"c"]] = Ok (VStr $"a, b, c") /\
  fns $"SORT" [VList [VInt 3; VInt 1; VInt 2; VInt 1]] = Ok (VList [VInt 1; VInt 1; VInt 2; VInt 3]) /\
  fns $"SORT" [VList [VStr $"b"; VStr $"a"; VStr $"B"]] = Ok (VList [VStr $"B"; VStr $"a"; VStr $"b"]) /\
  fns $"BOOLEAN" [VStr $"False"] = Ok (VBool false) /\ fns $"BOOLEAN" [VStr $"no"] = Ok (VBool true) /\
  fns $"ISNONE" [VNull] = Ok (VBool true) /\ fns $"ISNONE" [VStr []] = Ok (VBool false).
Proof. vm_compute. repeat split. Qed.
