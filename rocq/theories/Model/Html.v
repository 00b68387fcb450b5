(** mabel/data/internals/display.py [html_table]: tables for web pages. *)
From Verif.Base Require Import Py Value.

(** 31-36: the replacements one after the other *)
Definition escapes : list (str * str) :=
  [($"""", $"&quot;"); ($"'", $"&#39;"); ($"<", $"&lt;"); ($">", $"&gt;"); ($"$", $"&#x24;")].
Definition sanitize_text (s : str) : str :=
  fold_left (fun t se => replace (fst se) (snd se) t) escapes (replace $"&" $"&amp;" s).

(** 23-36 [sanitize].  A value which is neither a list, a dict nor a text is returned as it is; [", ".join] of something
    which is not a text is a TypeError. *)
Fixpoint sanitize (v : value) : result value :=
  match v with
  | VList l =>
      let* items := (fix go l := match l with
                     | [] => Ok []
                     | i :: l' =>
                         let* x := sanitize i in
                         let* rest := go l' in
                         match x with VStr s => Ok (s :: rest) | _ => Raise TypeError end
                     end) l in
      Ok (VStr ($"[ " ++ join $", " items ++ $" ]"))
  | VDict d => Ok (VStr (sanitize_text ($"{ " ++ join $", " (map (fun kv => $"""" ++ fst kv ++ $""": " ++ py_str (snd kv)) d) ++ $" }")))
  | VStr s => Ok (VStr (sanitize_text s))
  | _ => Ok v
  end.

(** 49-50: [record.get(column, "")]; an f-string takes [str] of it *)
Definition html_cell (record : record) (column : str) : result str :=
  let* sanitized := sanitize (match dget str_eqb column record with Some v => v | None => VStr [] end) in
  Ok ($"<td title='" ++ py_str sanitized ++
      $"' style='max-width:320px;overflow:hidden;text-overflow:ellipsis;white-space:nowrap;'>" ++ py_str sanitized ++ $"<td>" ++ ["010"%char]).
(** 47-51 *)
Definition html_row (columns : list str) (record : record) : result str :=
  let* cells := mapM (html_cell record) columns in
  Ok ($"<tr>" ++ concat cells ++ $"</tr>").
(** 42-45 *)
Definition html_head (columns : list str) : str :=
  $"<thead class=""thead-light""><tr>" ++ concat (map (fun c => $"<th>" ++ sanitize_text c ++ $"<th>" ++ ["010"%char]) columns) ++
  $"</tr></thead><tbody>".
(** 38-53 *)
Definition to_html_table (data : list record) (columns : list str) : result str :=
  let* body := mapM (html_row columns) data in
  Ok ($"<table class=""table table-sm"">" ++ match data with [] => [] | _ => html_head columns end ++ concat body ++ $"</tbody></table>").

(** 55-62: a row is taken before it is counted *)
Fixpoint top_rows (i limit : Z) (rows : list record) : list record :=
  match rows with
  | [] => []
  | row :: rest => row :: if (i + 1 =? limit)%Z then [] else top_rows (i + 1) limit rest
  end.

(** what the table is of: a generator, something with a length, or something else (an iterator, as [to_html_table] of a
    set gives it) *)
Inductive origin := Generator | Sized (n : nat) | Other.
(** 6-74.  [set_order] is the order in which the set of the columns (63) is iterated. *)
Definition html_table (set_order : list str -> list str) (o : origin) (limit : Z) (dictset : list record) : result str :=
  let rows := top_rows 0 limit dictset in
  let columns := set_order (flat_map (map fst) rows) in
  let footer :=
    match o with
    | Generator => "010"%char :: $"<p>top " ++ dec (N.of_nat (length rows)) ++ $" rows x " ++ dec (N.of_nat (length columns)) ++ $" columns</p>" ++
                   "010"%char :: $"NOTE: the displayed records may have been spent"
    | Sized n => "010"%char :: $"<p>" ++ dec (N.of_nat n) ++ $" rows x " ++ dec (N.of_nat (length columns)) ++ $" columns</p>"
    | Other => []
    end in
  let* table := to_html_table rows columns in
  Ok (table ++ footer).
