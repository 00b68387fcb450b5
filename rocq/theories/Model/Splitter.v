(** Python's [re.split] for the regular expressions with which mabel cuts SQL statements and select lists: a choice
    of fixed texts, in any case, some of them between two [\b].
    mabel/data/readers/internals/sql_reader.py 77-85, inline_evaluator.py 232. *)
From Verif.Base Require Import Py.
From Verif.Model Require Import Tokens.   (* is_word, keyword_matches *)

(** the first part of the expression that matches: its length *)
Definition part_at (parts : list (str * bool)) (prev : option ascii) (s : str) : option nat :=
  option_map (fun k => length (fst k)) (find (keyword_matches prev s) parts).

(** [reg.split(s)], the expression being in a group: the texts between the matches and the matches themselves.
    [skip] counts the characters of a match already given, [cur] is the text since the last match (reversed) *)
Fixpoint cut (parts : list (str * bool)) (skip : nat) (prev : option ascii) (cur : str) (s : str) : list str :=
  match s with
  | [] => [rev cur]
  | c :: s' =>
      match skip with
      | S k => cut parts k (Some c) cur s'
      | O =>
          match part_at parts prev s with
          | Some n => rev cur :: firstn n s :: cut parts (Nat.pred n) (Some c) [] s'
          | None => cut parts 0 (Some c) (c :: cur) s'
          end
      end
  end.
