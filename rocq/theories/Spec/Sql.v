(** What a SQL statement is and how it is written. *)
From Verif.Base Require Import Py Value.
From Verif.Model Require Import Tokens.              (* ttype *)
From Verif.Spec Require Import Tokens Evaluator.     (* words, word_char; blanks *)

(** ** Comments and quoted texts *)
Inductive piece :=
| PlainText (s : str)
| QuotedText (q : ascii) (s : str)
| BlockComment (s : str)      (* /* s */ *)
| LineComment (s : str).      (* -- s, up to the end of the line *)

Definition piece_text (p : piece) : str :=
  match p with
  | PlainText s => s
  | QuotedText q s => [q] ++ s ++ [q]
  | BlockComment s => $"/*" ++ s ++ $"*/"
  | LineComment s => $"--" ++ s
  end.
Definition is_comment (p : piece) : bool := match p with BlockComment _ | LineComment _ => true | _ => false end.

(** [part] stands nowhere in [s] *)
Definition without (part s : str) : Prop := forall a b, s <> a ++ part ++ b.

Definition good_piece (p : piece) : Prop :=
  match p with
  | PlainText s => (forall c, In c s -> c <> "'"%char /\ c <> """"%char) /\ without $"--" s /\ without $"/*" s
  | QuotedText q s => In q ["'"%char; """"%char] /\ ~ In q s
  | BlockComment s => without $"*/" s
  | LineComment s => forall c, In c s -> c <> "010"%char /\ c <> "013"%char
  end.
(** a line comment ends with the text or before a line feed; plain texts are as long as possible *)
Definition may_come_before (p : piece) (rest : list piece) : Prop :=
  match p, rest with
  | _, [] => True
  | LineComment _, PlainText (c :: _) :: _ => c = "010"%char
  | LineComment _, _ => False
  | PlainText _, PlainText _ :: _ => False
  | PlainText s, LineComment _ :: _ => forall s', s <> s' ++ $"-"
  | _, _ => True
  end.
Inductive good_pieces : list piece -> Prop :=
| good_none : good_pieces []
| good_more p ps : good_piece p -> may_come_before p ps -> good_pieces ps -> good_pieces (p :: ps).

Definition text_of (ps : list piece) : str := concat (map piece_text ps).
Definition without_comments (ps : list piece) : list piece := filter (fun p => negb (is_comment p)) ps.

(** ** White space *)
(** [spread ws s]: s is the words ws (which have no white space in them) with white space between them, and maybe
    around them *)
Inductive spread : list str -> str -> Prop :=
| spread_none a : blanks a -> spread [] a
| spread_one w a b : w <> [] -> (forall c, In c w -> is_space c = false) -> blanks a -> blanks b -> spread [w] (a ++ w ++ b)
| spread_more w a b ws s : w <> [] -> (forall c, In c w -> is_space c = false) -> blanks a -> blanks b -> b <> [] ->
    ws <> [] -> spread ws s -> spread (w :: ws) (a ++ w ++ b ++ s).

(** ** The parts of a statement *)
Inductive part :=
| Select (distinct : bool) (list : str)
| From (dataset : str)
| FromQuery (query : str)
| Where (condition : str)
| GroupBy (columns : str)
| Having (condition : str)
| OrderBy (column : str) (descending : option bool)
| Limit (n : Z).

Definition sql_words : list str :=
  [$"SELECT"; $"DISTINCT"; $"FROM"; $"WHERE"; $"GROUP"; $"HAVING"; $"ORDER"; $"ASC"; $"DESC"; $"LIMIT"].

Definition starts_apart (s : str) : Prop := forall c s', s = c :: s' -> ~ word_char c.
Definition ends_apart (s : str) : Prop := forall c s', s = s' ++ [c] -> ~ word_char c.
(** what may stand after a word of SQL: a text which starts apart from it, and has no word of SQL in it *)
Definition body (b : str) : Prop := starts_apart b /\ forall w, In w (words b) -> ~ In (upper w) sql_words.

(** a text whose parentheses match *)
Inductive balanced : str -> Prop :=
| balanced_none : balanced []
| balanced_char c s : ~ In c $"()[]" -> balanced s -> balanced (c :: s)
| balanced_pair a b : balanced a -> balanced b -> balanced ($"(" ++ a ++ $")" ++ b).

(** the words of SQL are written in any case *)
Inductive written_part : part -> str -> Prop :=
| written_select k b : upper k = $"SELECT" -> body b -> strip b <> [] -> written_part (Select false (strip b)) (k ++ b)
| written_distinct k a d b : upper k = $"SELECT" -> blanks a -> a <> [] -> upper d = $"DISTINCT" -> body b ->
    written_part (Select true (strip b)) (k ++ a ++ d ++ b)
| written_from k b : upper k = $"FROM" -> body b -> strip b <> [] -> (forall c s, strip b = c :: s -> ~ In c $"([") ->
    written_part (From (strip b)) (k ++ b)
| written_query k a q b : upper k = $"FROM" -> blanks a -> balanced q -> blanks b ->
    written_part (FromQuery q) (k ++ a ++ $"(" ++ q ++ $")" ++ b)
| written_where k b : upper k = $"WHERE" -> body b -> written_part (Where (strip b)) (k ++ b)
| written_group k b : upper k = $"GROUP BY" -> body b -> written_part (GroupBy (strip b)) (k ++ b)
| written_having k b : upper k = $"HAVING" -> body b -> written_part (Having (strip b)) (k ++ b)
| written_order k b : upper k = $"ORDER BY" -> body b -> written_part (OrderBy (strip b) None) (k ++ b)
| written_ordered k b d b' : upper k = $"ORDER BY" -> body b -> ends_apart b -> b <> [] -> In (upper d) [$"ASC"; $"DESC"] -> blanks b' ->
    written_part (OrderBy (strip b) (Some (str_eqb (upper d) $"DESC"))) (k ++ b ++ d ++ b')
| written_limit k b n : upper k = $"LIMIT" -> body b -> strip b = decZ n -> written_part (Limit n) (k ++ b).

(** parts one after the other.  An ORDER BY without ASC and DESC can only be the last one *)
Inductive written_parts : list part -> str -> Prop :=
| parts_last p s : written_part p s -> written_parts [p] s
| parts_more p s ps s' : written_part p s -> ends_apart s -> (forall c, p <> OrderBy c None) -> written_parts ps s' ->
    written_parts (p :: ps) (s ++ s').

(** the last part of a kind *)
Fixpoint last_of {A} (f : part -> option A) (ps : list part) : option A :=
  match ps with
  | [] => None
  | p :: ps' => match last_of f ps' with Some x => Some x | None => f p end
  end.
Definition select_of (p : part) : option str := match p with Select _ e => Some e | _ => None end.
Definition from_of (p : part) : option (str + str) :=
  match p with From d => Some (inl d) | FromQuery q => Some (inr q) | _ => None end.
Definition where_of (p : part) : option str := match p with Where e => Some e | _ => None end.
Definition group_of (p : part) : option str := match p with GroupBy e => Some e | _ => None end.
Definition having_of (p : part) : option str := match p with Having e => Some e | _ => None end.
Definition order_of (p : part) : option str := match p with OrderBy e _ => Some e | _ => None end.
Definition descending_of (p : part) : option bool := match p with OrderBy _ d => d | _ => None end.
Definition limit_of (p : part) : option Z := match p with Limit n => Some n | _ => None end.
Definition asks_distinct (p : part) : bool := match p with Select d _ => d | _ => false end.

(** a dot in the name of a dataset stands for a slash *)
Definition dots_to_slashes (s : str) : str := map (fun c => if Ascii.eqb c "." then "/"%char else c) s.

(** names which reach no other place: *)
Definition safe_name (d : str) : Prop :=
  (exists c d', d = c :: d' /\ is_alpha c = true) /\
  (forall c, In c d -> is_alpha c = true \/ is_digit c = true \/ In c $"./-_") /\
  without $".." d /\ without $"//" d /\ without $"--" d.

(** parts with others after them *)
Inductive parts_before : list part -> str -> Prop :=
| before_none : parts_before [] []
| before_more p s ps s' : written_part p s -> ends_apart s -> (forall c, p <> OrderBy c None) -> parts_before ps s' ->
    parts_before (p :: ps) (s ++ s').

(** what a statement has to start with *)
Definition clause_words : list str :=
  [$"SELECT"; $"FROM"; $"WHERE"; $"GROUP BY"; $"HAVING"; $"ORDER BY"; $"LIMIT"].

(** the first records *)
Definition limited (n : option Z) (rows : list record) : list record :=
  match n with Some n => firstn (Z.to_nat n) rows | None => rows end.
Definition is_where (p : part) : bool := match p with Where _ => true | _ => false end.
