(** Model of mabel/adapters/google/bigquery_writer.py: the inner writer for BigQuery. *)
From Verif.Base Require Import Py.
From Verif.Model Require Import Paths Storage.

(** bigquery_writer.py:23 *)
Definition MILLISECONDS_PER_DAY : Z := 86400000.

(** A table of BigQuery: its columns with their types and modes, after how many milliseconds its partitions expire, its rows.
    Not in the code: what google-cloud-bigquery keeps. *)
Record table := mkTable { t_columns : list (str * str * str); t_expiry : option Z; t_rows : list str }.
Definition tables := list ((str * str) * table).
Definition same_table (a b : str * str) : bool := str_eqb (fst a) (fst b) && str_eqb (snd a) (snd b).
Fixpoint find_table (name : str * str) (ts : tables) : option table :=
  match ts with
  | [] => None
  | (n, t) :: ts' => if same_table n name then Some t else find_table name ts'
  end.
(** google-cloud-bigquery's create_table, given a reference: a table without columns, partitions and rows *)
Definition create_table (name : str * str) (ts : tables) : table * tables :=
  let t := mkTable [] None [] in (t, ts ++ [(name, t)]).

(** bigquery_writer.py:50-85.  The table built on lines 61-75 with columns and partitions is not the one that is created
    (line 77 creates table_ref).  Logging is left out.  [reach]: whether the calls of the client get through. *)
Definition built_table (name : str * str) (partition_expiration : option Z) : table :=
  mkTable [($"_system_date", $"TIMESTAMP", $"REQUIRED"); ($"name", $"STRING", $"REQUIRED"); ($"age", $"INTEGER", $"REQUIRED")]
    (match partition_expiration with Some d => if Z.eqb d 0 then None else Some (d * MILLISECONDS_PER_DAY)%Z | None => None end) [].
Definition get_table (reach : result unit) (dataset name : str) (partition_expiration : option Z) (ts : tables) : result (table * tables) :=
  match reach with
  | Raise e => Raise e
  | Ok _ =>
      match find_table (dataset, name) ts with
      | Some t => Ok (t, ts)
      | None => let table := built_table (dataset, name) partition_expiration in
                Ok (create_table (dataset, name) ts)
      end
  end.
(** bigquery_writer.py:87-108.  [filename]: filename_without_bucket, [id]: the id _build_path puts into it.  The name of the
    blob and its bytes are not used after line 95. *)
Definition bq_commit (reach : result unit) (filename id byte_data : str) (override_blob_name : option str) (ts : tables) : result str * tables :=
  let blob_name := match override_blob_name with
                   | Some (c :: r) => c :: r
                   | _ => replace $"{stem}" id filename
                   end in
  match get_table reach $"users" $"justin" (Some 90%Z) ts with
  | Raise e => (Raise e, ts)
  | Ok (_, ts') => (Ok [], ts')
  end.
(** commits one after the other *)
Fixpoint bq_commits (filename : str) (cs : list (result unit * str * str * option str)) (ts : tables) : list (result str) * tables :=
  match cs with
  | [] => ([], ts)
  | (reach, id, data, override) :: cs' =>
      let '(o, ts1) := bq_commit reach filename id data override ts in
      let '(os, ts2) := bq_commits filename cs' ts1 in (o :: os, ts2)
  end.
