(** What storage holds, by the names readers use. *)
From Verif.Base Require Import Py.
From Verif.Model Require Import Paths Writers Adapters.
From Verif.Spec Require Import Paths.

(** the blob called [name] holds [data]: on disk the file of that path, elsewhere the object whose
    bucket is the first component of the name and whose key is the rest *)
Definition holds (k : kind) (s : stored) (name data : str) : Prop :=
  match k with
  | Disk => In ([], name, data) s
  | _ => exists bucket key, component bucket /\ name = bucket ++ $"/" ++ key /\ In (bucket, key, data) s
  end.
(** what storage can look like: one content for a place, and on disk every file by its path as
    pathlib writes it *)
Definition proper (k : kind) (s : stored) : Prop :=
  NoDup (map fst s) /\
  match k with
  | Disk => forall p v, In (p, v) s -> p = file_of (snd p)
  | _ => forall p v, In (p, v) s -> component (fst p)
  end.

(** a folder with its bucket: at least two components, no placeholders, the last without a dot *)
Definition folder (cs : list str) : Prop :=
  (2 <= length cs)%nat /\ (forall c, In c cs -> component c /\ no_braces c) /\ no_extension (last cs []).
(** a file name with an extension: something, a dot and something without a dot *)
Definition with_extension (file : str) : Prop :=
  exists a e, file = a ++ $"." ++ e /\ a <> [] /\ e <> [] /\ ~ In "."%char e.

(** the file name of a blob committed at [time_ns] *)
Definition blob_file (f : format) (ext node : str) (time_ns : N) : str :=
  hex time_ns ++ $"-" ++ node ++ extension f ext.
(** an inner writer's arguments: the texts of the host and of the extension do not break a name *)
Definition fit_names (f : format) (ext node : str) : Prop :=
  ~ In "/"%char node /\ ~ In "/"%char ext /\ no_braces ext /\
  exists a e, extension f ext = a ++ $"." ++ e /\ e <> [] /\ ~ In "."%char e.

(** a client committing some blobs, each at its time, with one inner writer *)
Fixpoint commit_all (k : kind) (i : inner) (node : str) (blobs : list (N * str)) (s : stored)
  : result (inner * stored) :=
  match blobs with
  | [] => Ok (i, s)
  | (t, data) :: rest =>
      let* (_, i, s) := commit k i None node t data s in
      commit_all k i node rest s
  end.
