(** Concrete cases for the theorems on reading. *)
From Coq Require Import Sorted.
From Verif.Base Require Import Py Value.
From Verif.Model Require Import Paths Dates Frames ReadRange Cursor Storage Writers Reader Json.
From Verif.Spec Require Import Paths Frames Cursor Json Writers Reader.

(** a dataset with data three days ago only *)
Definition three_days_ago (k : nat) : result (list str) :=
  match k with 3 => Ok [$"b/set/x.jsonl"] | _ => Ok [] end.

(** a writer of JSON lines, blobs larger than 20 characters are stored; the second attempt to store fails *)
Definition folder : str := $"data/set/day_29".
Definition frame : str := $"as_at_1".
Definition second_fails (n : nat) : option (option nat) := match n with 1 => Some None | _ => None end%nat.
Definition lines_set (f : format) (ext : str) : setting value :=
  mkSetting value f 20 (folder ++ $"/" ++ frame ++ $"/{stem}" ++ ext) $"1f" false
    (fun r => Ok tt)
    (fun r => Ok (dumps r ++ ["010"%char])) (fun s => "Z"%char :: s)
    (fun g => 0%Z) (fun g => Ok [])
    (fun n => 2 ^ 60 + N.of_nat n)%N second_fails.
Definition unz (s : str) : result str := match s with _ :: t => Ok t | [] => Raise ValueError end.
Definition no_other (ext data : str) : generator value := ([], None).
Definition a_record (n : Z) : value := VDict [($"a", VInt n); ($"t", VStr ["010"%char; "x"%char])].
Definition some_calls : list (call (R:=value)) :=
  map Append [a_record 1; a_record 2; a_record 3; a_record 4; a_record 5].
Definition read_from (log : list (str * str)) (name : str) : result str :=
  match content_of log name with Some d => Ok d | None => Raise StorageError end.

Definition run_of (f : format) (ext : str) := run (lines_set f ext) (new_writer nothing) (some_calls ++ [Finalize false]).
(** the fifth append raised: its record is not among the accepted ones *)
Definition outcome_of (f : format) (ext : str) : list outcome := fst (run_of f ext).
Definition log_of (f : format) (ext : str) : list (str * str) := puts (st_world (snd (run_of f ext))).

Lemma lines_set_ok f ext : (f = Jsonl /\ ext = $".jsonl") \/ (f = Zstd /\ ext = $".jsonl.zstd") ->
  writes_in (lines_set f ext) (folder ++ $"/" ++ frame) ext /\ clean_failures (lines_set f ext) /\
  json_lines_writer dumps unz (lines_set f ext) ext /\ relative_folder (folder ++ $"/" ++ frame) /\
  good_clock (lines_set f ext) (attempts (st_world (snd (run_of f ext)))).
Proof.
  intros H. split; [|split; [|split; [|split]]].
  - split; [reflexivity|]. destruct H as [(-> & ->)|(-> & ->)].
    + repeat (split; [cbv; intuition discriminate|]).
      split; [exists $"data/set/day_29/as_at_", "1"%char; split; [reflexivity|discriminate]|].
      split; cbv; intuition discriminate.
    + repeat (split; [cbv; intuition discriminate|]).
      split; [exists $"data/set/day_29/as_at_", "1"%char; split; [reflexivity|discriminate]|].
      split; cbv; intuition discriminate.
  - intros n k. cbn. destruct n as [|[|n]]; discriminate.
  - split; [intros r t [= <-]; reflexivity|]. split; [reflexivity|].
    destruct H as [(-> & ->)|(-> & ->)]; [left; auto|right; split; [auto|exists $".jsonl"; auto]].
  - split; [intros r; discriminate|]. exists "d"%char. split; [left; auto|]. split; discriminate.
  - assert (A: attempts (st_world (snd (run_of f ext))) = 4%nat).
    { destruct H as [(-> & ->)|(-> & ->)]; vm_compute; reflexivity. }
    rewrite A. split.
    + intros n Hn. cbn [s_clock lines_set]. change (2 ^ 64)%N with (2 ^ 60 * 16)%N. lia.
    + intros n m Hn Hm. cbn [s_clock lines_set]. lia.
Qed.
