(** mabel/errors/render_error_stack.py, the rendering of the error being handled, and mabel/utils/colors.py. *)
From Verif.Base Require Import Py.
From Verif.Model Require Import Reader Views.

(** ** colors.py *)
Definition ESC : ascii := "027".
(** colors.py 1-30: the names between the braces, and the codes after the escape *)
Definition COLORS : list (str * str) :=
  [($"OFF", $"[0m");
   ($"BLACK", $"[0;30m"); ($"RED", $"[0;31m"); ($"GREEN", $"[0;32m"); ($"YELLOW", $"[0;33m");
   ($"BLUE", $"[0;34m"); ($"PURPLE", $"[0;35m"); ($"CYAN", $"[0;36m"); ($"WHITE", $"[0;37m");
   ($"BOLD_BLACK", $"[1;30m"); ($"BOLD_RED", $"[1;31m"); ($"BOLD_GREEN", $"[1;32m");
   ($"BOLD_YELLOW", $"[1;33m"); ($"BOLD_BLUE", $"[1;34m"); ($"BOLD_PURPLE", $"[1;35m");
   ($"BOLD_CYAN", $"[1;36m"); ($"BOLD_WHITE", $"[1;37m");
   ($"UNDERLINE_BLACK", $"[4;30m"); ($"UNDERLINE_RED", $"[4;31m"); ($"UNDERLINE_GREEN", $"[4;32m");
   ($"UNDERLINE_YELLOW", $"[4;33m"); ($"UNDERLINE_BLUE", $"[4;34m"); ($"UNDERLINE_PURPLE", $"[4;35m");
   ($"UNDERLINE_CYAN", $"[4;36m"); ($"UNDERLINE_WHITE", $"[4;37m")].
(** colors.py 33-40 *)
Definition colorize (record : str) (can_colorize : bool) : str :=
  fold_left (fun record kv => replace ($"{" ++ fst kv ++ $"}") (if can_colorize then ESC :: snd kv else []) record)
            COLORS record.

(** ** render_error_stack.py *)
(** render_error_stack.py 24-25 *)
Definition LINE_LENGTH : nat := 120.

(** render_error_stack.py 28-34; [locals] holds the texts of the values *)
Record frame := { filename : str; lineno : Z; fname : str; locals : list (str * str) }.
(** render_error_stack.py 37-42 *)
Record stack := { exc_type : str; exc_value : str; is_cause : bool; frames : list frame }.

(** an exception with the frames of its traceback, its [__cause__], its [__context__] and its
    [__suppress_context__].  An exception without a traceback has no frames.  The chain ends: chains made
    into a circle by hand are not modelled. *)
Inductive raised :=
| Raised (kind text : str) (trace : list frame) (cause context : option raised) (suppress : bool).
Definition trace_of (e : raised) : list frame := match e with Raised _ _ t _ _ _ => t end.
Definition has_traceback (e : raised) : bool := match trace_of e with [] => false | _ => true end.

(** render_error_stack.py 55-60 *)
Definition bar_label (label : str) : str :=
  match label with
  | [] => repeat "-"%char LINE_LENGTH
  | _ => replace $"*" $" " (replace $" " $"=" (center ($"**" ++ label ++ $"**") LINE_LENGTH))
  end.

(** the longest name: [max] *)
Definition longest (names : list str) : nat := fold_right Nat.max 0%nat (map (@length ascii) names).
(** [f"{key:<{width}}"] *)
Definition ljust (s : str) (width : nat) : str := s ++ repeat " "%char (width - length s).
(** render_error_stack.py 112-117 *)
Definition render_locals (locals : list (str * str)) : list str :=
  match locals with
  | [] => []
  | _ => bar_label $"locals" ::
         map (fun kv => $"  " ++ ljust (fst kv) (longest (map fst locals)) ++ $" : " ++ snd kv) locals
  end.

(** [str.splitlines()], which ends lines at more characters than a line feed *)
Definition line_end (c : ascii) : bool :=
  existsb (Ascii.eqb c) [LF; CR; "011"%char; "012"%char; "028"%char; "029"%char; "030"%char].
Fixpoint str_splitlines_from (line : str) (text : str) : list str :=
  match text with
  | [] => match line with [] => [] | _ => [line] end
  | c :: rest =>
      if line_end c then
        line :: match rest with
                | d :: rest' => if Ascii.eqb c CR && Ascii.eqb d LF then str_splitlines_from [] rest'
                                else str_splitlines_from [] rest
                | [] => str_splitlines_from [] rest
                end
      else str_splitlines_from (line ++ [c]) rest
  end.
Definition str_splitlines (text : str) : list str := str_splitlines_from [] text.

(** [path.stem + path.suffix]: what comes after the last slash *)
Definition path_name (path : str) : str := last (split "/"%char path) [].

Section Render.
  (** the text of a file, as [open(filename, "rt")] reads it with its line ends made line feeds;
      os.path.abspath; textwrap.fill for the line length *)
  Context (read_file : str -> result str) (abspath fill : str -> str).

  (** render_error_stack.py 132-135: the loop, which an error ends; [count] numbers are left *)
  Fixpoint code_from (lines : list str) (line number : Z) (count : nat) : list str :=
    match count with
    | O => []
    | S count =>
        match py_index lines (number - 1)%Z with
        | Raise _ => []
        | Ok text =>
            ((if (number =? line)%Z then $">" else $" ") ++ pad_left " "%char 4 (decZ number) ++ $" | " ++ text)
            :: code_from lines line (number + 1)%Z count
        end
    end.
  (** render_error_stack.py 120-137 *)
  Definition read_from_code (filename : str) (line extend_by : Z) : list str :=
    match read_file filename with
    | Raise _ => []
    | Ok code =>
        let lines := str_splitlines code in
        let start_line := Z.max (line - extend_by) 0%Z in
        let end_line := (Z.min (line + extend_by + 1) (Z.of_nat (length lines) + 1))%Z in
        bar_label (path_name filename) :: code_from lines line start_line (Z.to_nat (end_line - start_line)%Z)
    end.

  (** render_error_stack.py 79-88: the frames of a traceback *)
  Definition build_frame (f : frame) : frame :=
    {| filename := match filename f with [] => $"?" | name => abspath name end;
       lineno := lineno f; fname := fname f; locals := locals f |}.
  (** render_error_stack.py 63-109: the loop; the first exception is the one being handled *)
  Fixpoint build_from (is_cause : bool) (e : raised) : list stack :=
    match e with
    | Raised kind text trace cause context suppress =>
        {| exc_type := kind; exc_value := text; is_cause := is_cause; frames := map build_frame trace |} ::
        match cause with
        | Some c => if has_traceback c then build_from true c
                    else match context with
                         | Some x => if has_traceback x && negb suppress then build_from false x else []
                         | None => []
                         end
        | None => match context with
                  | Some x => if has_traceback x && negb suppress then build_from false x else []
                  | None => []
                  end
        end
    end.
  Definition build_error_stack (handled : option raised) : list stack :=
    match handled with None => [] | Some e => build_from false e end.

  (** render_error_stack.py 143-151: one frame *)
  Definition render_frame (f : frame) : list str :=
    (filename f ++ $":" ++ decZ (lineno f) ++ $" in " ++ fname f ++ $"()") ::
    if startswith $"<" (filename f) then []
    else render_locals (locals f) ++ read_from_code (filename f) (lineno f) 3 ++ [bar_label []; []].
  Definition render_stacks (handled : option raised) : list str :=
    flat_map (fun item => flat_map render_frame (frames item)) (build_error_stack handled).

  (** render_error_stack.py 45-52 *)
  Definition wrap_text (text : str) : str := join $"
" (map fill (str_splitlines text)).
  (** render_error_stack.py 154-156 *)
  Definition render_error_stack (handled : option raised) : str :=
    join $"
" (map wrap_text (render_stacks handled)).
End Render.
