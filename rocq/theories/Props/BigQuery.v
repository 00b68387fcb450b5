(** * C106: commits to BigQuery *)
From Verif.Base Require Import Py.
From Verif.Model Require Import BigQuery.
From Verif.Spec Require Import BigQuery.
From Verif.Proofs Require BigQuery.

(** Commits change no table that was there, and a commit that raises changes nothing. *)
Theorem bigquery_tables_stay_partial :
  forall (filename : str) (cs : list (result unit * str * str * option str)) (ts : tables),
    (exists more, snd (bq_commits filename cs ts) = ts ++ more) /\
    forall e id data override, bq_commit (Raise e) filename id data override ts = (Raise e, ts).
Proof.
  exact (fun filename cs ts => conj (match BigQuery.tables_stay filename cs ts with ex_intro _ more (conj E _) => ex_intro _ more E end)
                                    (fun e id data override => BigQuery.failing_commit e filename id data override ts)).
Qed.
Print Assumptions bigquery_tables_stay_partial.

(** However many blobs are committed, whatever is in them: the rows of all tables are those before. *)
Theorem bigquery_commits_store_nothing :
  forall (filename : str) (cs : list (result unit * str * str * option str)) (ts : tables),
    all_rows (snd (bq_commits filename cs ts)) = all_rows ts.
Proof. exact BigQuery.rows_unchanged. Qed.
Print Assumptions bigquery_commits_store_nothing.

(** A table that is created is users.justin whatever the dataset, without columns and without expiry. *)
Theorem bigquery_creates_one_empty_table :
  forall (filename : str) (cs : list (result unit * str * str * option str)) (ts : tables),
    exists more, snd (bq_commits filename cs ts) = ts ++ more /\
      forall name t, In (name, t) more -> name = ($"users", $"justin") /\ t_columns t = [] /\ t_expiry t = None /\ t_rows t = [].
Proof. exact BigQuery.tables_stay. Qed.
Print Assumptions bigquery_creates_one_empty_table.

(** So a commit which returned did not store its rows. *)
Theorem bigquery_stores_what_is_committed_refuted :
  exists filename id data ts, data <> [] /\
    fst (bq_commit (Ok tt) filename id data None ts) = Ok [] /\
    all_rows (snd (bq_commit (Ok tt) filename id data None ts)) = [] /\
    is_there ($"users", $"justin") (snd (bq_commit (Ok tt) filename id data None ts)).
Proof.
  exists $"sales/{stem}.jsonl", $"1f", $"{}", []. split; [discriminate|]. split; [reflexivity|]. split; [reflexivity|].
  eexists. left. reflexivity.
Qed.
Print Assumptions bigquery_stores_what_is_committed_refuted.

(** Two commits, one of which fails, beside a table with a row. *)
Example ex_commits :
  bq_commits $"sales/{stem}.jsonl" [(Ok tt, $"1", $"{}", None); (Raise StorageError, $"2", $"{}", Some $"x")] [(($"a", $"b"), mkTable [] None [$"row"])]
  = ([Ok []; Raise StorageError], [(($"a", $"b"), mkTable [] None [$"row"]); (($"users", $"justin"), mkTable [] None [])]) /\
  t_expiry (built_table ($"users", $"justin") (Some 90%Z)) = Some 7776000000%Z.
Proof. split; vm_compute; reflexivity. Qed.
