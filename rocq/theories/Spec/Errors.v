(** What the rendering of an error shows, and what colours do to a text. *)
From Verif.Base Require Import Py.
From Verif.Model Require Import Errors.

(** ** colours *)
Definition tag (name : str) : str := $"{" ++ name ++ $"}".
(** a text read from left to right: where the name of a colour stands in braces its code stands in its place,
    everything else is kept *)
Inductive painted (code : str -> option str) : str -> str -> Prop :=
| painted_end : painted code [] []
| painted_tag name c s t : code name = Some c -> painted code s t -> painted code (tag name ++ s) (c ++ t)
| painted_char x s t : (forall name c rest, code name = Some c -> x :: s <> tag name ++ rest) ->
    painted code s t -> painted code (x :: s) (x :: t).
(** the codes of ANSI terminals, after the escape: OFF is 0, the eight colours are 30 to 37, a style is a number before them *)
Definition colour_codes : list (str * str) :=
  ($"OFF", $"[0m") ::
  flat_map (fun style => map (fun colour => (fst style ++ fst colour, $"[" ++ snd style ++ $";3" ++ snd colour ++ $"m"))
      [($"BLACK", $"0"); ($"RED", $"1"); ($"GREEN", $"2"); ($"YELLOW", $"3");
       ($"BLUE", $"4"); ($"PURPLE", $"5"); ($"CYAN", $"6"); ($"WHITE", $"7")])
    [([], $"0"); ($"BOLD_", $"1"); ($"UNDERLINE_", $"4")].
(** the code of a colour *)
Definition colour_code (name : str) : option str :=
  match dget str_eqb name colour_codes with Some c => Some ("027"%char :: c) | None => None end.

(** a text of plain parts and names in braces *)
Inductive part := Plain (s : str) | Tag (name : str).
Definition part_text (p : part) : str := match p with Plain s => s | Tag n => tag n end.
Definition parts_text (ps : list part) : str := concat (map part_text ps).
(** no brace opens except for a name *)
Definition parts_ok (ps : list part) : Prop :=
  (forall s, In (Plain s) ps -> ~ In "{"%char s) /\
  (forall n, In (Tag n) ps -> ~ In "{"%char n /\ ~ In "}"%char n).
Definition is_colour (name : str) : bool := dhas str_eqb name colour_codes.
(** the text without the colours *)
Definition uncoloured (ps : list part) : str :=
  concat (map (fun p => match p with Tag n => if is_colour n then [] else tag n | Plain s => s end) ps).

(** ** the lines of a program *)
Definition newline : ascii := "010".
(** the lines of a program, as the interpreter counts them: what is between the line feeds; nothing after the
    last one is no line *)
Definition code_lines (code : str) : list str :=
  let pieces := split newline code in
  if str_eqb (last pieces []) [] then removelast pieces else pieces.
(** line [n] of a program, from 1 *)
Definition line_of (code : str) (n : Z) : option str :=
  if (1 <=? n)%Z then nth_error (code_lines code) (Z.to_nat (n - 1)) else None.
(** the text has no other ends of lines than line feeds *)
Definition only_newlines (code : str) : Prop := forall c, In c code -> line_end c = true -> c = newline.

(** a line as shown: a mark on the line that failed, the number in four places, the text *)
Definition shown_line (failed n : Z) (text : str) : str :=
  (if Z.eqb n failed then $">" else $" ") ++ pad_left " "%char 4 (decZ n) ++ $" | " ++ text.
(** the line which failed and the three before it and after it, as far as there are such lines *)
Definition shown_around (code : str) (failed : Z) : list str :=
  flat_map (fun n => match line_of code n with Some text => [shown_line failed n text] | None => [] end)
           [failed - 3; failed - 2; failed - 1; failed; failed + 1; failed + 2; failed + 3]%Z.

(** ** chains of exceptions *)
(** what an exception leads to: its cause if that was raised, or else the exception that was being handled when it was
    raised, if that is not suppressed *)
Inductive leads_to : raised -> raised -> bool -> Prop :=
| leads_cause k s t c x p : trace_of c <> [] -> leads_to (Raised k s t (Some c) x p) c true
| leads_context k s t oc x : (forall c, oc = Some c -> trace_of c = []) -> trace_of x <> [] ->
    leads_to (Raised k s t oc (Some x) false) x false.
(** the exceptions of a chain from the newest *)
Inductive chain : raised -> list raised -> Prop :=
| chain_last e : (forall e' b, ~ leads_to e e' b) -> chain e [e]
| chain_more e e' b es : leads_to e e' b -> chain e' es -> chain e (e :: es).

(** ** what is shown of a frame *)
Definition heading (f : frame) : str :=
  filename f ++ $":" ++ decZ (lineno f) ++ $" in " ++ fname f ++ $"()".
(** a variable and its value; the values of all variables begin at the same place *)
Definition variable_shown (width : nat) (kv : str * str) (line : str) : Prop :=
  exists gap, line = $"  " ++ fst kv ++ repeat " "%char gap ++ $" : " ++ snd kv /\ (length (fst kv) + gap = width)%nat.
(** the block of a frame: where it is, its variables, the code around the line, a line across *)
Definition frame_block (code : frame -> list str) (f : frame) (block : list str) : Prop :=
  exists variables,
    block = heading f :: variables ++ code f ++ [repeat "-"%char 120; []] /\
    (locals f = [] -> variables = []) /\
    (locals f <> [] -> exists title width shown, variables = title :: shown /\
       Forall2 (variable_shown width) (locals f) shown).
(** a label in the middle of a line across *)
Definition labelled (label bar : str) : Prop :=
  exists left right, bar = repeat "="%char left ++ $"  " ++ label ++ $"  " ++ repeat "="%char right /\
    (left = right \/ left = S right \/ right = S left).
