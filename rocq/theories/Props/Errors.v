(** C86: what the rendering of an error shows; C87: colours in texts. *)
From Verif.Base Require Import Py.
From Verif.Model Require Import Errors.
From Verif.Spec Require Import Errors.
From Verif.Proofs Require Errors.

(** C86: the rendering goes through the chain of exceptions from the newest, and through the frames of each of them in
    order; each frame is shown with its place, its variables and the code around it. *)
Theorem every_frame_is_shown :
  forall (read_file : str -> result str) (abspath : str -> str) (handled : raised) (es : list raised),
    (forall name, startswith $"/" (abspath name) = true) ->
    chain handled es ->
    exists blocks, render_stacks read_file abspath (Some handled) = concat blocks /\
      Forall2 (frame_block (fun f => read_from_code read_file (filename f) (lineno f) 3))
        (map (build_frame abspath) (flat_map trace_of es)) blocks.
Proof. intros; now apply Errors.rendered. Qed.
Print Assumptions every_frame_is_shown.
(** There is always exactly one chain. *)
Theorem every_error_has_one_chain :
  forall (e : raised), exists es, chain e es /\ forall es', chain e es' -> es' = es.
Proof. exact Errors.one_chain. Qed.
Print Assumptions every_error_has_one_chain.
(** Nothing is shown when no error is being handled. *)
Theorem no_error_shows_nothing :
  forall (read_file : str -> result str) (abspath fill : str -> str),
    render_error_stack read_file abspath fill None = [].
Proof. reflexivity. Qed.
Print Assumptions no_error_shows_nothing.

(** The code shown is the line that failed, marked, and the three lines before and after it.  Partial: not for the first
    three lines of a file, see below, and only for files whose lines end in line feeds alone. *)
Theorem failing_line_is_shown_partial :
  forall (read_file : str -> result str) (file code : str) (failed : Z) (text : str),
    read_file file = Ok code -> only_newlines code -> line_of code failed = Some text -> (3 < failed)%Z ->
    read_from_code read_file file failed 3 = bar_label (path_name file) :: shown_around code failed.
Proof. exact Errors.failing_shown. Qed.
Print Assumptions failing_line_is_shown_partial.
(** In the first three lines the last line of the file is shown too, as line 0. *)
Theorem first_lines_show_the_last_line :
  forall (read_file : str -> result str) (file code : str) (failed : Z) (text : str),
    read_file file = Ok code -> only_newlines code -> line_of code failed = Some text -> (failed <= 3)%Z ->
    read_from_code read_file file failed 3 =
    bar_label (path_name file) :: shown_line failed 0 (last (code_lines code) []) :: shown_around code failed.
Proof. exact Errors.first_shown. Qed.
Print Assumptions first_lines_show_the_last_line.
(** The line that failed is among them. *)
Theorem failing_line_is_marked :
  forall (code : str) (failed : Z) (text : str), line_of code failed = Some text ->
    In ($">" ++ pad_left " "%char 4 (decZ failed) ++ $" | " ++ text) (shown_around code failed).
Proof. exact Errors.failing_marked. Qed.
Print Assumptions failing_line_is_marked.

Definition LFs : str := [newline].
Definition program : str :=
  $"import x" ++ LFs ++ $"x.go()" ++ LFs ++ $"a = 1" ++ LFs ++ $"b = 2" ++ LFs ++ $"c = 3" ++ LFs ++ $"d = a / 0" ++ LFs.
Example ex_program : read_from_code (fun _ => Ok program) $"/src/job.py" 6 3 =
  bar_label $"job.py" ::
  [$"    3 | a = 1"; $"    4 | b = 2"; $"    5 | c = 3"; $">   6 | d = a / 0"].
Proof. vm_compute. reflexivity. Qed.
Theorem failing_line_is_shown_refuted :
  exists (code : str) (failed : Z) (text : str), only_newlines code /\ line_of code failed = Some text /\
    read_from_code (fun _ => Ok code) $"/src/job.py" failed 3 =
    bar_label $"job.py" ::
    [$"    0 | d = a / 0"; $"    1 | import x"; $">   2 | x.go()"; $"    3 | a = 1"; $"    4 | b = 2"; $"    5 | c = 3"].
Proof.
  exists program, 2%Z, $"x.go()". split; [|split; vm_compute; reflexivity].
  apply Errors.only_newlines_check. vm_compute. reflexivity.
Qed.
Print Assumptions failing_line_is_shown_refuted.
(** A form feed, which ends no line of a program, moves the lines: another line than the one that failed is marked. *)
Theorem other_line_marked_refuted :
  exists (code : str) (text : str), line_of code 5 = Some text /\ text = $"f()" /\
    In $">   5 | d = 4" (read_from_code (fun _ => Ok code) $"/src/job.py" 5 3).
Proof.
  exists ($"a = 1" ++ LFs ++ $"b = 2" ++ "012"%char :: LFs ++ $"c = 3" ++ LFs ++ $"d = 4" ++ LFs ++ $"f()" ++ LFs), $"f()".
  split; [vm_compute; reflexivity|]. split; [reflexivity|]. vm_compute. tauto.
Qed.
Print Assumptions other_line_marked_refuted.

(** Labels stand in the middle of lines 120 characters long.  Partial: not labels with spaces, in whose place there is
    an equals sign, or asterisks; longer labels make longer lines. *)
Theorem labels_are_centred_partial :
  forall (label : str), label <> [] -> ~ In " "%char label -> ~ In "*"%char label -> length label <= 116 ->
    labelled label (bar_label label) /\ length (bar_label label) = 120.
Proof. exact Errors.label_shown. Qed.
Print Assumptions labels_are_centred_partial.
Theorem labels_are_centred_refuted :
  exists (label : str), label = $"my job.py" /\ bar_label label = bar_label $"my=job.py".
Proof. exists $"my job.py". split; vm_compute; reflexivity. Qed.
Print Assumptions labels_are_centred_refuted.

(** an error with its cause, and the error that was being handled *)
Definition at_line (n : Z) (f : str) : frame :=
  {| filename := $"job.py"; lineno := n; fname := f; locals := [($"x", $"1"); ($"total", $"0")] |}.
Definition first_error : raised := Raised $"KeyError" $"'a'" [at_line 6 $"load"] None None false.
Definition second_error : raised := Raised $"ValueError" $"bad" [at_line 5 $"run"; at_line 6 $"load"] None (Some first_error) false.
Definition third_error : raised := Raised $"RuntimeError" $"failed" [at_line 4 $"main"] (Some second_error) (Some first_error) true.
Example ex_chain : chain third_error [third_error; second_error; first_error] /\
  map exc_type (build_error_stack (fun n => $"/src/" ++ n) (Some third_error)) = [$"RuntimeError"; $"ValueError"; $"KeyError"] /\
  filter (Py.contains $" in ") (render_stacks (fun _ => Ok program) (fun n => $"/src/" ++ n) (Some third_error)) =
  [$"/src/job.py:4 in main()"; $"/src/job.py:5 in run()"; $"/src/job.py:6 in load()"; $"/src/job.py:6 in load()"].
Proof.
  split; [|split; vm_compute; reflexivity].
  apply chain_more with second_error true; [now constructor|].
  apply chain_more with first_error false; [constructor; [discriminate|discriminate]|].
  constructor. intros e b H. inversion H.
Qed.

(** C87: with colours every colour named in braces is replaced by its code, and nothing else of the text changes: *)
Theorem colours_become_their_codes :
  forall (text result : str), painted colour_code text result <-> result = colorize text true.
Proof. exact Errors.colours. Qed.
Print Assumptions colours_become_their_codes.
Example ex_colours : colorize $"{RED}stop{OFF} {PINK} {R{RED}ED}" true =
  ESC :: $"[0;31mstop" ++ ESC :: $"[0m {PINK} {R" ++ ESC :: $"[0;31mED}".
Proof. vm_compute. reflexivity. Qed.
(** Without colours the colours named in braces are taken out and the rest is kept.  Partial: for texts in which a brace
    opens only a name; otherwise a name may come together from the two sides of one taken out. *)
Theorem colours_are_taken_out_partial :
  forall (ps : list part), parts_ok ps -> colorize (parts_text ps) false = uncoloured ps.
Proof. exact Errors.without_colours. Qed.
Print Assumptions colours_are_taken_out_partial.
Theorem colours_are_taken_out_refuted :
  exists (text : str), text = $"{R{RED}ED}stop" /\ colorize text false = $"{RED}stop".
Proof. exists $"{R{RED}ED}stop". split; vm_compute; reflexivity. Qed.
Print Assumptions colours_are_taken_out_refuted.
Example ex_uncoloured :
  parts_ok [Tag $"BOLD_RED"; Plain $"stop"; Tag $"OFF"; Plain $" } "; Tag $"PINK"] /\
  colorize $"{BOLD_RED}stop{OFF} } {PINK}" false = $"stop } {PINK}".
Proof.
  split; [|vm_compute; reflexivity].
  split; intros x H; cbn in H; intuition (try discriminate);
    match goal with E : _ = _ |- _ => injection E as <- end;
    repeat match goal with h : In _ _ |- _ => cbn in h; intuition discriminate end.
Qed.
