(** mabel/data/internals/dictset.py [sample]; mabel/data/internals/display.py [ascii_table]. *)
From Verif.Base Require Import Py Value.
From Verif.Model Require Import DictSet.

(** ** Sampling (dictset.py 131-147)
    [num/den] is the fraction; 1/fraction is taken as exact, Python's is a float.  [draws] are the random values, one
    for each row (os.urandom, two bytes). *)
Fixpoint pick (selector : Z) (draws : list Z) (rows : list record) : result (list record) :=
  match rows, draws with
  | [], _ => Ok []
  | row :: rest, d :: ds =>
      if (selector =? 0)%Z then Raise ZeroDivisionError
      else let* l := pick selector ds rest in Ok (if (d mod selector =? 0)%Z then row :: l else l)
  | _ :: _, [] => Raise OutOfFuel
  end.
Definition sample (num den : Z) (draws : list Z) (rows : list record) : result (list record) :=
  if (num =? 0)%Z then Raise ZeroDivisionError else pick (Z.quot den num) draws rows.

(** ** Tables of characters (display.py 79-138) *)
(** the characters of a table: texts and the lines drawn around them *)
Inductive glyph :=
| Ch (c : ascii) | Horizontal | Vertical
| TopLeft | TopMid | TopRight | MidLeft | Cross | MidRight | BottomLeft | BottomMid | BottomRight.
Definition text_glyphs (s : str) : list glyph := map Ch s.

(** [text.center(width)] *)
Definition center (s : str) (width : nat) : str :=
  if (width <=? length s)%nat then s
  else
    let pad := (width - length s)%nat in
    let left := (pad / 2 + (if Nat.odd pad && Nat.odd width then 1 else 0))%nat in
    repeat " "%char left ++ s ++ repeat " "%char (pad - left).

Fixpoint glue (sep : list glyph) (l : list (list glyph)) : list glyph :=
  match l with
  | [] => []
  | [x] => x
  | x :: l' => x ++ sep ++ glue sep l'
  end.

(** 95-100 *)
Fixpoint format_value (val : value) : str :=
  match val with
  | VList l => $"[ " ++ join $", " (map format_value l) ++ $" ]"
  | VDict d => $"{ " ++ join $", " (map (fun kv => $"""" ++ fst kv ++ $""": " ++ py_str (snd kv)) d) ++ $" }"
  | _ => py_str val
  end.
(** 112-116: the width of the column of one value *)
Definition widen (columns : list (str * nat)) (kv : str * value) : list (str * nat) :=
  let length_ := Nat.max (length (format_value (snd kv))) (length (fst kv)) in
  let known := match dget str_eqb (fst kv) columns with Some w => w | None => 0%nat end in
  if (known <? length_)%nat then dset str_eqb (fst kv) length_ columns else columns.
(** 107-116: the rows shown, and the widths of their columns *)
Fixpoint inspect (count limit : Z) (columns : list (str * nat)) (rows : list record) : list record * list (str * nat) :=
  match rows with
  | [] => ([], columns)
  | row :: rest =>
      if (count =? limit)%Z then ([], columns)
      else let '(cache, columns') := inspect (count + 1) limit (fold_left widen row columns) rest in (row :: cache, columns')
  end.
(** 119-121, 124, 126, 136 *)
Definition bar (left mid right : glyph) (columns : list (str * nat)) : list glyph :=
  [left] ++ glue [mid] (map (fun kw => repeat Horizontal (snd kw + 2)) columns) ++ [right].
(** 125 *)
Definition headers (columns : list (str * nat)) : list glyph :=
  [Vertical] ++ glue [Vertical] (map (fun kw => text_glyphs (center (fst kw) (snd kw + 2))) columns) ++ [Vertical].
(** 129-134: [columns[k]] of a key which got no width is a KeyError *)
Definition table_row (columns : list (str * nat)) (row : record) : result (list glyph) :=
  let* cells := mapM (fun kv => match dget str_eqb (fst kv) columns with
                                | Some w => Ok (text_glyphs (center (format_value (snd kv)) (w + 2)))
                                | None => Raise KeyError
                                end) row in
  Ok ([Vertical] ++ glue [Vertical] cells ++ [Vertical]).
(** 79-138; the lines which 138 joins *)
Definition ascii_table (limit : Z) (rows : list record) : result (list (list glyph)) :=
  let '(cache, columns) := inspect 0 limit [] rows in
  let* values := mapM (table_row columns) cache in
  Ok ([bar TopLeft TopMid TopRight columns; headers columns; bar MidLeft Cross MidRight columns]
      ++ values ++ [bar BottomLeft BottomMid BottomRight columns]).
