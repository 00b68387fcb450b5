(** Parameter validation, HTML tables, random values and histograms (C41 - C45). *)
From Verif.Base Require Import Py Value.
From Verif.Model Require Import Utils.
From Verif.Spec Require Import Utils.
From Verif.Proofs Require Utils.

(** ** C41 *)
(** The distance is the fewest insertions, deletions and replacements, ignoring case. *)
Theorem levenshtein_is_fewest_edits w1 w2 :
  fewest_edits (lower w1) (lower w2) (get_levenshtein_distance w1 w2).
Proof. exact (Utils.levenshtein_fewest w1 w2). Qed.
Print Assumptions levenshtein_is_fewest_edits.
Theorem levenshtein_is_a_metric w1 w2 w3 :
  get_levenshtein_distance w1 w2 = get_levenshtein_distance w2 w1
  /\ (get_levenshtein_distance w1 w2 = 0 <-> lower w1 = lower w2)
  /\ get_levenshtein_distance w1 w3 <= get_levenshtein_distance w1 w2 + get_levenshtein_distance w2 w3.
Proof. exact (Utils.levenshtein_metric w1 w2 w3). Qed.
Print Assumptions levenshtein_is_a_metric.
Example levenshtein_kitten : get_levenshtein_distance $"Kitten" $"sitting" = 3.
Proof. reflexivity. Qed.

(** ** C42 *)
(** A call (positional arguments [args], named ones [kwargs], none given twice) runs the function exactly when all
    names are known, all required ones given and none of the function's own incompatible ones combined;
    otherwise the configuration error is raised and the program's state is as before. *)
Theorem validated_call_exact {S R} rules ps (func : list argument -> list (str * argument) -> S -> result R * S) args kwargs s :
  length args <= length ps ->
  NoDup (map fst kwargs ++ firstn (length args) ps) ->
  let params := kwargs ++ combine ps args in
  let own := map (fun r => (rule_name r, rule_required r, rule_incompatible r)) rules in
  let of_arguments := flat_map (fun p => match arg_rules (snd p) with
                                         | Some rs => map (fun r => (rule_name r, rule_required r, rule_incompatible r)) rs
                                         | None => [] end) params in
  let given := map (fun p => (fst p, arg_truthy (snd p))) params in
  let valid := names_known (own ++ of_arguments) given /\ required_given (own ++ of_arguments) given /\ compatible own given in
  (valid -> validated rules ps func args kwargs s = func args kwargs s)
  /\ (~ valid -> validated rules ps func args kwargs s = (Raise InvalidReaderConfigError, s)).
Proof. exact (@Utils.validate_exact S R rules ps func args kwargs s). Qed.
Print Assumptions validated_call_exact.

(** the Reader's parameters raw_path and freshness_limit (reader.py 25-43) *)
Definition ex_rules : list rule :=
  [mkRule $"dataset" true []; mkRule $"raw_path" false [$"freshness_limit"]; mkRule $"freshness_limit" false []].
Definition ex_yes : argument := mkArgument true None.
Definition ex_no : argument := mkArgument false None.
Definition ex_func (_ : list argument) (_ : list (str * argument)) (s : nat) : result nat * nat := (Ok s, S s).
Example validated_ok :
  validated ex_rules [$"dataset"] ex_func [ex_yes] [($"raw_path", ex_no); ($"freshness_limit", ex_yes)] 7 = (Ok 7, 8).
Proof. reflexivity. Qed.
Example validated_incompatible :
  validated ex_rules [$"dataset"] ex_func [ex_yes] [($"raw_path", ex_yes); ($"freshness_limit", ex_yes)] 7
  = (Raise InvalidReaderConfigError, 7).
Proof. reflexivity. Qed.
Example validated_misspelt :
  validated ex_rules [$"dataset"] ex_func [ex_yes] [($"raw_paht", ex_yes)] 7 = (Raise InvalidReaderConfigError, 7).
Proof. reflexivity. Qed.

(** A reader class given as an argument brings its own rules; incompatibilities among these are not checked. *)
Theorem validated_argument_rules_refuted :
  exists rules params (func : list argument -> list (str * argument) -> nat -> result nat * nat) rs,
    In (mkRule $"project" false [$"endpoint"]) rs /\ In ($"inner_reader", mkArgument true (Some rs)) params
    /\ In ($"project", ex_yes) params /\ In ($"endpoint", ex_yes) params
    /\ validated rules [] func [] params 7 = (Ok 7, 8).
Proof.
  exists [mkRule $"inner_reader" false []],
    [($"inner_reader", mkArgument true (Some [mkRule $"project" false [$"endpoint"]; mkRule $"endpoint" false []]));
     ($"project", ex_yes); ($"endpoint", ex_yes)],
    ex_func, [mkRule $"project" false [$"endpoint"]; mkRule $"endpoint" false []].
  repeat split; simpl; auto.
Qed.
Print Assumptions validated_argument_rules_refuted.

(** ** C43 *)
(** The escaped text has no markup character, and shows exactly the text. *)
Theorem escaped_text_has_no_markup s : filter markup (sanitize s) = [].
Proof. exact (Utils.sanitize_markup s). Qed.
Print Assumptions escaped_text_has_no_markup.
Theorem escaped_text_shows_the_text s : shows (sanitize s) s /\ forall t, shows (sanitize s) t -> t = s.
Proof.
  exact (conj (Utils.sanitize_shows s) (fun t H => Utils.shows_det _ _ H _ (Utils.sanitize_shows s))).
Qed.
Print Assumptions escaped_text_shows_the_text.
Theorem escaped_texts_differ a b : sanitize a = sanitize b -> a = b.
Proof. exact (Utils.sanitize_inj a b). Qed.
Print Assumptions escaped_texts_differ.
Example escaped_script : sanitize $"<b>&amp;'$" = $"&lt;b&gt;&amp;amp;&#39;&#x24;".
Proof. reflexivity. Qed.

(** The tags of a table depend on the number of its columns and rows only, whatever the records and names hold. *)
Theorem table_markup_fixed columns data t columns' data' t' :
  html_rows columns data = Ok t -> html_rows columns' data' = Ok t' ->
  length columns = length columns' -> length data = length data' ->
  filter markup t = filter markup t'.
Proof. exact (Utils.html_same_markup columns data t columns' data' t'). Qed.
Print Assumptions table_markup_fixed.
(** A table is produced when lists hold texts only. *)
Theorem table_returns_partial columns data :
  (forall r k v, In r data -> In (k, v) r ->
     match v with VList l => Forall (fun i => exists s, i = VStr s) l | _ => True end) ->
  exists t, html_rows columns data = Ok t.
Proof. exact (Utils.html_returns columns data). Qed.
Print Assumptions table_returns_partial.
Example table_example : exists t, html_rows [$"a"] [[($"a", VStr $"<script>")]; [($"a", VList [VStr $"x"])]] = Ok t
  /\ contains $"&lt;script&gt;" t = true /\ contains $"<script>" t = false.
Proof. eexists. vm_compute. repeat split. Qed.
Theorem table_returns_refuted : exists columns data, html_rows columns data = Raise TypeError.
Proof. exists [$"a"], [[($"a", VList [VInt 1])]]. reflexivity. Qed.
Print Assumptions table_returns_refuted.

(** ** C44 *)
(** whatever the 8 random bytes *)
Theorem random_range_exact bs a b : (a <= b)%Z ->
  exists z, random_range bs a b = Ok z /\ (a <= z <= b)%Z.
Proof.
  exact (fun H => match Utils.random_range_returns bs a b H with
                  | ex_intro _ z E => ex_intro _ z (conj E (Utils.random_range_in bs a b z H E)) end).
Qed.
Print Assumptions random_range_exact.
Theorem random_range_reaches_all a b z : (a <= z <= b)%Z -> (b - a < 2 ^ 64)%Z ->
  exists bs, length bs = 8 /\ random_range bs a b = Ok z.
Proof. exact (Utils.random_range_onto a b z). Qed.
Print Assumptions random_range_reaches_all.
Theorem random_choice_member {A} bs (options : list A) : options <> [] ->
  exists x, random_choice bs options = Ok x /\ In x options.
Proof.
  exact (fun H => match Utils.random_choice_returns bs options H with
                  | ex_intro _ x E => ex_intro _ x (conj E (Utils.random_choice_in bs options x E)) end).
Qed.
Print Assumptions random_choice_member.
Theorem random_choice_reaches_all {A} (options : list A) x : In x options -> (Z.of_nat (length options) <= 2 ^ 64)%Z ->
  exists bs, length bs = 8 /\ random_choice bs options = Ok x.
Proof. exact (Utils.random_choice_onto options x). Qed.
Print Assumptions random_choice_reaches_all.
Theorem random_string_exact n bs : length bs = random_string_bytes n ->
  length (random_string n bs) = n /\ Forall base64_char (random_string n bs).
Proof. exact (Utils.random_string_ok n bs). Qed.
Print Assumptions random_string_exact.
Theorem random_string_reaches_all n s : length s = n -> Forall base64_char s ->
  exists bs, length bs = random_string_bytes n /\ random_string n bs = s.
Proof. exact (Utils.random_string_onto n s). Qed.
Print Assumptions random_string_reaches_all.
Example random_string_example : random_string 6 $"Mabel" = $"TWFiZW".
Proof. reflexivity. Qed.
Example random_range_example : random_range $"ABCDEFGH" 3 9 = Ok 5%Z.
Proof. vm_compute. reflexivity. Qed.

(** ** C45 *)
(** Every bin holds the number of values of its interval, and the bins add up to the number of values. *)
Theorem histogram_bins_exact_partial values n mn mx : least values mn -> greatest values mx -> 2 <= n ->
  exists bins, histogram values n = Ok bins /\ length bins = n /\ list_sum bins = length values
    /\ (forall i, i < n -> nth i bins 0 = length (filter (in_bin mn mx n i) values)).
Proof. exact (Utils.histogram_exact values n mn mx). Qed.
Print Assumptions histogram_bins_exact_partial.
(** Every value has exactly one bin (and never the last one), and larger values no lower bins. *)
Theorem histogram_one_bin mn mx n v : (mn <= v <= mx)%Z -> 2 <= n ->
  exists i, i < n - 1 /\ in_bin mn mx n i v = true /\ forall j, in_bin mn mx n j v = true -> j = i.
Proof. exact (Utils.one_bin mn mx n v). Qed.
Print Assumptions histogram_one_bin.
Theorem histogram_monotone mn mx n v w i j : (mn <= v <= w)%Z -> (w <= mx)%Z -> 2 <= n ->
  in_bin mn mx n i v = true -> in_bin mn mx n j w = true -> i <= j.
Proof. exact (Utils.bins_monotone mn mx n v w i j). Qed.
Print Assumptions histogram_monotone.
Example histogram_example : histogram [1; 5; 9; 10; 3]%Z 4 = Ok [2; 1; 2; 0].
Proof. reflexivity. Qed.
(** The last bin is always empty: the values are spread over one bin less than requested. *)
Theorem histogram_last_bin_empty values n bins : 2 <= n -> histogram values n = Ok bins -> nth (n - 1) bins 0 = 0.
Proof. exact (Utils.last_bin_empty values n bins). Qed.
Print Assumptions histogram_last_bin_empty.
Theorem histogram_one_requested_refuted : exists values, values <> [] /\ histogram values 1 = Raise ZeroDivisionError.
Proof. exists [1%Z; 2%Z]. split; [discriminate|reflexivity]. Qed.
Print Assumptions histogram_one_requested_refuted.
