(** The tokens of a text: what a lexeme is, and how lexemes are written one after another. *)
From Verif.Base Require Import Py Value.
From Verif.Model Require Import Tokens.   (* ttype *)

(** what is assumed of Python's [float]: the texts it reads begin with a digit, a sign, a point, or the first letter
    of nan, inf or infinity; and they have a digit or one of these words *)
Definition reads_floats (float_of : str -> option value) : Prop :=
  forall s v, float_of s = Some v ->
    (exists c r, strip s = c :: r /\ In c $"+-.0123456789nNiI") /\
    ((exists c, In c s /\ is_digit c = true) \/ exists w, In w [$"nan"; $"inf"] /\ contains w (lower s) = true).

Definition word_char (c : ascii) : Prop := is_alpha c = true \/ is_digit c = true \/ c = "_"%char.

(** the names of functions, aggregations and operators and the words of SQL: these can't be columns without back
    quotes *)
Definition reserved : list str :=
  [$"YEAR"; $"MONTH"; $"DAY"; $"DATE"; $"QUARTER"; $"WEEK"; $"HOUR"; $"MINUTE"; $"SECOND"; $"TIME"; $"NOW";
   $"ADDDAYS"; $"DAYSDIFF"; $"UCASE"; $"UPPER"; $"LCASE"; $"LOWER"; $"TRIM"; $"LEN"; $"STRING"; $"LEFT"; $"RIGHT";
   $"MID"; $"CONCAT"; $"ROUND"; $"TRUNC"; $"INTEGER"; $"DOUBLE"; $"BOOLEAN"; $"ISNONE"; $"HASH"; $"MD5"; $"RANDOM";
   $"BETWEEN"; $"SORT"; $"SUM"; $"MAX"; $"MIN"; $"COUNT"; $"AVG"; $"IS"; $"LIKE"; $"MATCHES"; $"IN"; $"CONTAINS";
   $"AND"; $"OR"; $"NOT"; $"SELECT"; $"FROM"; $"WHERE"; $"LIMIT"; $"GROUP"; $"ORDER"; $"DISTINCT"; $"ASC"; $"DESC"].

(** the words that separate: of two words, "GROUP BY" and "ORDER BY" are left out *)
Definition separating_words : list str :=
  filter (fun w => negb (str_mem w [$"GROUP"; $"ORDER"])) reserved ++ [$"IS NOT"; $"NOT LIKE"].
Definition brackets : list str := [$"("; $")"; $"["; $"]"; $","; $"*"].
Definition comparison_signs : list str := [$"<>"; $">="; $"<="; $">"; $"<"; $"=="; $"!="; $"="].

(** the words in a text: its longest runs of word characters *)
Fixpoint words_from (cur : str) (s : str) : list str :=
  match s with
  | [] => [rev cur]
  | c :: s' => if is_alpha c || is_digit c || Ascii.eqb c "_" then words_from (c :: cur) s' else rev cur :: words_from [] s'
  end.
Definition words (s : str) : list str := words_from [] s.

Definition sign_char (c : ascii) : Prop := In c $"<>=!()[],*".

(** a text the tokenizer does not cut *)
Definition quiet (s : str) : Prop := (forall c, In c s -> ~ sign_char c) /\ (forall w, In w (words s) -> ~ In (upper w) reserved).

(** white space: single spaces only *)
Fixpoint single_spaced (after : bool) (s : str) : Prop :=
  match s with
  | [] => True
  | c :: s' => if is_space c then c = " "%char /\ after = false /\ single_spaced true s' else single_spaced false s'
  end.

(** everything that cuts a text *)
Definition separators : list str := separating_words ++ [$"GROUP BY"; $"ORDER BY"] ++ brackets ++ comparison_signs.

(** [w] separates what is before it from what is after it, when it is not a part of a longer word *)
Definition stands_between (before w after : str) : Prop :=
  In (upper w) separators /\
  (forall p c d r, before = p ++ [c] -> w = d :: r -> ~ (word_char c /\ word_char d)) /\
  (forall p d c r, w = p ++ [d] -> after = c :: r -> ~ (word_char d /\ word_char c)).

Definition quotes : list ascii := [""""%char; "'"%char; "`"%char].

(** a text that is kept as it is when it stands in quotes [q]: no space between two separators, and no other quote
    right after a separator *)
Definition kept_in_quotes (q : ascii) (body : str) : Prop :=
  ~ In q body /\ single_spaced false body /\
  (forall a v w b, body = a ++ v ++ $" " ++ w ++ b ->
     stands_between a v ($" " ++ w ++ b) -> ~ stands_between (a ++ v ++ $" ") w b) /\
  (forall a v sp c b, body = a ++ v ++ sp ++ c :: b ->
     stands_between a v (sp ++ c :: b) -> In sp [[]; $" "] -> ~ In c quotes).

Inductive lexeme :=
| Word (w : str)                     (* a separating word, in any case *)
| Bracket (w : str)
| Sign (w : str)                     (* a sign of comparison *)
| Plain (w : str)                    (* a name, a number, ... *)
| Quoted (q : ascii) (body : str).

Definition text (l : lexeme) : str :=
  match l with Word w | Bracket w | Sign w | Plain w => w | Quoted q body => q :: body ++ [q] end.

Definition good_lexeme (l : lexeme) : Prop :=
  match l with
  | Word w => In (upper w) separating_words
  | Bracket w => In w brackets
  | Sign w => In w comparison_signs
  | Plain w => w <> [] /\ quiet w /\ (forall c, In c w -> word_char c \/ c = "."%char \/ c = "-"%char)
  | Quoted q body => In q quotes /\ kept_in_quotes q body
  end.

(** two lexemes one after the other, with ([true]) or without a space between them *)
Definition may_follow (space : bool) (a b : lexeme) : Prop :=
  match a, b with
  | (Plain _ | Quoted _ _), (Plain _ | Quoted _ _) => False      (* would be one token *)
  | Word v, Word w => space = true /\ ~ In (upper v, upper w) [($"IS", $"NOT"); ($"IS", $"NOT LIKE"); ($"NOT", $"LIKE")]
  | Word _, Plain _ | Plain _, Word _ => space = true
  | Sign _, Sign _ => space = true
  | _, _ => True
  end.

(** the text of lexemes; the space before each one but the first is optional *)
Fixpoint rest_text (l : list (bool * lexeme)) : str :=
  match l with
  | [] => []
  | (space, x) :: l' => (if space then $" " else []) ++ text x ++ rest_text l'
  end.
Definition whole_text (first : lexeme) (l : list (bool * lexeme)) : str := text first ++ rest_text l.

Fixpoint rest_well_written (prev : lexeme) (l : list (bool * lexeme)) : Prop :=
  match l with
  | [] => True
  | (space, x) :: l' => good_lexeme x /\ may_follow space prev x /\ rest_well_written x l'
  end.
Definition well_written (first : lexeme) (l : list (bool * lexeme)) : Prop := good_lexeme first /\ rest_well_written first l.

(** ** The label of a token *)
Definition functions : list str :=
  [$"YEAR"; $"MONTH"; $"DAY"; $"DATE"; $"QUARTER"; $"WEEK"; $"HOUR"; $"MINUTE"; $"SECOND"; $"TIME"; $"NOW";
   $"ADDDAYS"; $"DAYSDIFF"; $"UCASE"; $"UPPER"; $"LCASE"; $"LOWER"; $"TRIM"; $"LEN"; $"STRING"; $"LEFT"; $"RIGHT";
   $"MID"; $"CONCAT"; $"ROUND"; $"TRUNC"; $"INTEGER"; $"DOUBLE"; $"BOOLEAN"; $"ISNONE"; $"HASH"; $"MD5"; $"RANDOM";
   $"BETWEEN"; $"SORT"].
Definition aggregations : list str := [$"SUM"; $"MAX"; $"MIN"; $"COUNT"; $"AVG"].
Definition operators : list str :=
  comparison_signs ++ [$"IS NOT"; $"IS"; $"NOT LIKE"; $"LIKE"; $"MATCHES"; $"IN"; $"CONTAINS"].
Definition constants : list str := [$"TRUE"; $"FALSE"; $"NULL"; $"NONE"; $"AS"].

(** a name: it begins with a letter or an underscore *)
Definition name (s : str) : Prop :=
  exists c r, s = c :: r /\ (is_alpha c = true \/ c = "_"%char) /\
              forall d, In d r -> word_char d \/ d = "."%char \/ d = "-"%char.

Inductive labelled (float_of date_of : str -> option value) : str -> ttype -> Prop :=
| lab_function s : In (upper s) functions -> labelled float_of date_of s FUNCTION
| lab_aggregation s : In (upper s) aggregations -> labelled float_of date_of s AGGREGATOR
| lab_operator s : In (upper s) operators -> labelled float_of date_of s OPERATOR
| lab_open s : In s [$"("; $"["] -> labelled float_of date_of s LEFTPAREN
| lab_close s : In s [$")"; $"]"] -> labelled float_of date_of s RIGHTPAREN
| lab_comma : labelled float_of date_of $"," COMMA
| lab_everything : labelled float_of date_of $"*" EVERYTHING
| lab_and s : upper s = $"AND" -> labelled float_of date_of s AND
| lab_or s : upper s = $"OR" -> labelled float_of date_of s OR
| lab_not s : upper s = $"NOT" -> labelled float_of date_of s NOT
| lab_as s : upper s = $"AS" -> labelled float_of date_of s AS
| lab_boolean s : In (upper s) [$"TRUE"; $"FALSE"] -> labelled float_of date_of s BOOLEAN
| lab_null s : In (upper s) [$"NULL"; $"NONE"] -> labelled float_of date_of s NULL
| lab_integer n : labelled float_of date_of (decZ n) INTEGER
| lab_column s : name s -> ~ In (upper s) (functions ++ aggregations ++ operators ++ constants ++ [$"AND"; $"OR"; $"NOT"]) ->
    float_of s = None -> labelled float_of date_of s VARIABLE
| lab_back_quoted s : labelled float_of date_of ("`"%char :: s ++ [ "`"%char ]) VARIABLE
| lab_text q s : In q [""""%char; "'"%char] -> date_of s = None -> labelled float_of date_of (q :: s ++ [q]) LITERAL
| lab_date q s d : In q [""""%char; "'"%char] -> date_of s = Some d -> labelled float_of date_of (q :: s ++ [q]) DATE.

(** the token of a lexeme: names and quoted texts as they are, anything else in upper case *)
Inductive token_for (float_of date_of : str -> option value) : lexeme -> str -> Prop :=
| token_kept x ty : labelled float_of date_of (text x) ty -> ty = LITERAL \/ ty = VARIABLE ->
    token_for float_of date_of x (text x)
| token_raised x ty : labelled float_of date_of (text x) ty -> ty <> LITERAL -> ty <> VARIABLE ->
    token_for float_of date_of x (upper (text x)).
