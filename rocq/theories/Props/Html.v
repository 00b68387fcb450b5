(** C91: tables for web pages. *)
From Verif.Base Require Import Py Value.
From Verif.Model Require Import Html.
From Verif.Spec Require Import Html.
From Verif.Proofs Require Html.

(** The texts of a table are escaped: they have no character which could end a text or a quoted attribute, and what they
    stand for is the text of the value and nothing else. *)
Theorem html_texts_are_escaped : forall s,
  stands_for (escaped s) s /\ (forall t, stands_for (escaped s) t -> t = s) /\
  forall c, In c (escaped s) -> ~ In c (list_ascii_of_string "<>'$" ++ [""""%char]).
Proof. exact Html.texts_are_escaped. Qed.
Print Assumptions html_texts_are_escaped.
Example ex_escaped : escaped $"<b>'x' & $1</b>" = $"&lt;b&gt;&#39;x&#39; &amp; &#x24;1&lt;/b&gt;".
Proof. reflexivity. Qed.

(** A page reader finds in a table, whatever the values and the names of the columns are: the tags of a table, the names of
    the columns, for each of the first [limit] records (all of them when [limit] is not positive) a cell for each column
    with its value as text and as title, and the footer.  No value adds a tag or changes one. *)
Theorem html_table_shows_its_records : forall set_order : list str -> list str,
  (forall l, NoDup (set_order l) /\ forall c, In c (set_order l) <-> In c l) ->
  forall o limit rows out, html_table set_order o limit rows = Ok out ->
  exists columns, columns_shown (rows_shown limit rows) columns /\
    page out = table_tokens columns (rows_shown limit rows) ++ footer_tokens o (length (rows_shown limit rows)) (length columns).
Proof. exact Html.table_shows. Qed.
Print Assumptions html_table_shows_its_records.

(** There is a table exactly if lists among the values shown, at any depth, have only texts, lists and dicts. *)
Theorem html_table_returns : forall set_order : list str -> list str,
  (forall l, NoDup (set_order l) /\ forall c, In c (set_order l) <-> In c l) ->
  forall o limit rows,
  (forall r c, In r (rows_shown limit rows) -> showable (cell_value r c)) <-> exists out, html_table set_order o limit rows = Ok out.
Proof. exact Html.table_returns. Qed.
Print Assumptions html_table_returns.

Definition an_order (l : list str) : list str := dedup str_eqb l.
Example ex_order : forall l, NoDup (an_order l) /\ forall c, In c (an_order l) <-> In c l.
Proof. exact Html.dedup_order. Qed.
Example ex_html : exists out,
  html_table an_order Generator 2 [[($"<n>", VInt 1)]; [($"t", VList [VStr $"a'b"; VDict [($"k", VNull)]])]; [($"z", VNull)]] = Ok out /\
  page out =
  [Tag $"table class=""table table-sm"""; Tag $"thead class=""thead-light"""; Tag $"tr";
   Tag $"th"; Text $"&lt;n&gt;"; Tag $"th"; Text line_end; Tag $"th"; Text $"t"; Tag $"th"; Text line_end;
   Tag $"/tr"; Tag $"/thead"; Tag $"tbody"] ++
  [Tag $"tr"; Tag $"td title='1' style='max-width:320px;overflow:hidden;text-overflow:ellipsis;white-space:nowrap;'"; Text $"1"; Tag $"td"; Text line_end;
   Tag $"td title='' style='max-width:320px;overflow:hidden;text-overflow:ellipsis;white-space:nowrap;'"; Tag $"td"; Text line_end; Tag $"/tr"] ++
  [Tag $"tr"; Tag $"td title='' style='max-width:320px;overflow:hidden;text-overflow:ellipsis;white-space:nowrap;'"; Tag $"td"; Text line_end;
   Tag $"td title='[ a&#39;b, { &quot;k&quot;: None } ]' style='max-width:320px;overflow:hidden;text-overflow:ellipsis;white-space:nowrap;'";
   Text $"[ a&#39;b, { &quot;k&quot;: None } ]"; Tag $"td"; Text line_end; Tag $"/tr"; Tag $"/tbody"; Tag $"/table"] ++
  [Text line_end; Tag $"p"; Text $"top 2 rows x 2 columns"; Tag $"/p"; Text (line_end ++ $"NOTE: the displayed records may have been spent")].
Proof. eexists. split; [vm_compute; reflexivity|]. vm_compute. reflexivity. Qed.

(** A record with a list of numbers has no table: joining the numbers raises. *)
Theorem html_table_of_numbers_refuted : exists rows, forall set_order o, (forall l, NoDup (set_order l) /\ forall c, In c (set_order l) <-> In c l) ->
  forall out, html_table set_order o 5 rows <> Ok out.
Proof. exact Html.numbers_refuted. Qed.
Print Assumptions html_table_of_numbers_refuted.
(** A table of the first 0 records has records. *)
Theorem html_limit_of_nothing_refuted : exists rows out, html_table an_order Other 0 rows = Ok out /\ In (Text $"shown") (page out).
Proof. exact Html.limit_refuted. Qed.
Print Assumptions html_limit_of_nothing_refuted.
(** Cells are not closed: a row of one column opens two cells, and closes none. *)
Theorem html_cells_are_closed_refuted : exists rows out, html_table an_order Other 5 rows = Ok out /\
  ~ In (Tag $"/td") (page out) /\ ~ In (Tag $"/th") (page out) /\ In (Tag $"td") (page out) /\ In (Tag $"th") (page out).
Proof. exact Html.cells_refuted. Qed.
Print Assumptions html_cells_are_closed_refuted.
