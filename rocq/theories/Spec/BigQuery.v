(** What is in the tables of BigQuery. *)
From Verif.Base Require Import Py.
From Verif.Model Require Import BigQuery.

(** every row of every table, with the table it is in *)
Definition all_rows (ts : tables) : list ((str * str) * str) := flat_map (fun x => map (pair (fst x)) (t_rows (snd x))) ts.
Definition is_there (name : str * str) (ts : tables) : Prop := exists t, In (name, t) ts.
