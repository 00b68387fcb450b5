(** A concrete file system for the theorems on contexts. *)
From Verif.Base Require Import Py.
Definition some_glob (p : str) : list str := if str_eqb p $"**/job.json" then [$"a/job.json"; $"b/job.json"] else [].
Definition some_file (f : str) : result str :=
  if str_eqb f $"b/job.json" then Ok $"{'retries': 3, 'name': 'x'}" else Raise StorageError.
Definition quoted (s : str) : str := map (fun c => if Ascii.eqb c "'"%char then """"%char else c) s.
