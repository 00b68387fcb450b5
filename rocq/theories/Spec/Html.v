(** What a table for a web page shows. *)
From Verif.Base Require Import Py Value.
From Verif.Model Require Import Html.    (* only [origin] *)

(** ** Pages: tags and the texts between them.  A tag ends with the first > outside quotes. *)
Inductive token := Tag (s : str) | Text (s : str) | Unfinished (s : str).
Inductive mode := InText | InTag | InQuotes (q : ascii).
Definition text (s : str) : list token := match s with [] => [] | _ => [Text s] end.
Fixpoint read_page (m : mode) (before : str) (s : str) : list token :=
  match s with
  | [] => match m with InText => text before | _ => [Unfinished before] end
  | c :: s' =>
      match m with
      | InText => if Ascii.eqb c "<" then text before ++ read_page InTag [] s' else read_page InText (before ++ [c]) s'
      | InTag => if Ascii.eqb c ">" then Tag before :: read_page InText [] s'
                 else read_page (if Ascii.eqb c """" || Ascii.eqb c "'" then InQuotes c else InTag) (before ++ [c]) s'
      | InQuotes q => read_page (if Ascii.eqb c q then InTag else InQuotes q) (before ++ [c]) s'
      end
  end.
Definition page (s : str) : list token := read_page InText [] s.

(** ** Characters which are written as references *)
Definition references : list (ascii * str) :=
  [("&"%char, $"&amp;"); (""""%char, $"&quot;"); ("'"%char, $"&#39;"); ("<"%char, $"&lt;"); (">"%char, $"&gt;"); ("$"%char, $"&#x24;")].
Definition escaped_char (c : ascii) : str := match dget Ascii.eqb c references with Some r => r | None => [c] end.
Definition escaped (s : str) : str := flat_map escaped_char s.
(** what a text of a page stands for *)
Inductive stands_for : str -> str -> Prop :=
| stands_nil : stands_for [] []
| stands_char c s t : c <> "&"%char -> stands_for s t -> stands_for (c :: s) (c :: t)
| stands_ref c r s t : In (c, r) references -> stands_for s t -> stands_for (r ++ s) (c :: t).

(** ** Values *)
Fixpoint shown_value (v : value) : str :=
  match v with
  | VList l => $"[ " ++ join $", " (map shown_value l) ++ $" ]"
  | VDict d => $"{ " ++ join $", " (map (fun kv => $"""" ++ fst kv ++ $""": " ++ py_str (snd kv)) d) ++ $" }"
  | _ => py_str v
  end.
(** lists, at any depth, have texts, lists and dicts only *)
Definition joins (v : value) : Prop := match v with VStr _ | VList _ | VDict _ => True | _ => False end.
Inductive showable : value -> Prop :=
| showable_plain v : (forall l, v <> VList l) -> showable v
| showable_list l : (forall x, In x l -> showable x /\ joins x) -> showable (VList l).
Definition cell_value (r : record) (column : str) : value := match dget str_eqb column r with Some v => v | None => VStr [] end.

(** ** Tables: the first [limit] records *)
Definition rows_shown (limit : Z) (rows : list record) : list record :=
  if (0 <? limit)%Z then firstn (Z.to_nat limit) rows else rows.
Definition columns_shown (rows : list record) (columns : list str) : Prop :=
  NoDup columns /\ forall c, In c columns <-> exists r, In r rows /\ In c (map fst r).

Definition line_end : str := ["010"%char].
Definition head_tokens (columns : list str) : list token :=
  [Tag $"thead class=""thead-light"""; Tag $"tr"] ++
  flat_map (fun c => [Tag $"th"] ++ text (escaped c) ++ [Tag $"th"; Text line_end]) columns ++
  [Tag $"/tr"; Tag $"/thead"; Tag $"tbody"].
Definition cell_tokens (r : record) (column : str) : list token :=
  let e := escaped (shown_value (cell_value r column)) in
  [Tag ($"td title='" ++ e ++ $"' style='max-width:320px;overflow:hidden;text-overflow:ellipsis;white-space:nowrap;'")] ++
  text e ++ [Tag $"td"; Text line_end].
Definition row_tokens (columns : list str) (r : record) : list token :=
  [Tag $"tr"] ++ flat_map (cell_tokens r) columns ++ [Tag $"/tr"].
Definition footer_tokens (o : origin) (rows : nat) (columns : nat) : list token :=
  let counts n := dec (N.of_nat n) ++ $" rows x " ++ dec (N.of_nat columns) ++ $" columns" in
  match o with
  | Generator => [Text line_end; Tag $"p"; Text ($"top " ++ counts rows); Tag $"/p"; Text (line_end ++ $"NOTE: the displayed records may have been spent")]
  | Sized n => [Text line_end; Tag $"p"; Text (counts n); Tag $"/p"]
  | Other => []
  end.
Definition table_tokens (columns : list str) (rows : list record) : list token :=
  [Tag $"table class=""table table-sm"""] ++ match rows with [] => [] | _ => head_tokens columns end ++
  flat_map (row_tokens columns) rows ++ [Tag $"/tbody"; Tag $"/table"].
