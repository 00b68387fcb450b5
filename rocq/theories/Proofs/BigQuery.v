(** Proofs about the inner writer for BigQuery. *)
From Verif.Base Require Import Py PyFacts.
From Verif.Model Require Import BigQuery.
From Verif.Spec Require Import BigQuery.

Lemma commit_cases reach filename id data override ts :
  snd (bq_commit reach filename id data override ts) = ts \/
  (find_table ($"users", $"justin") ts = None /\
   snd (bq_commit reach filename id data override ts) = ts ++ [(($"users", $"justin"), mkTable [] None [])]).
Proof.
  unfold bq_commit, get_table. destruct reach as [[]|e]; [|left; reflexivity].
  destruct (find_table ($"users", $"justin") ts) as [t|]; [left; reflexivity|right; split; reflexivity].
Qed.
Lemma same_table_refl n : same_table n n = true.
Proof. destruct n. unfold same_table. cbn [fst snd]. now rewrite !str_eqb_refl. Qed.
Lemma found_is_there name ts : find_table name ts <> None <-> is_there name ts.
Proof.
  induction ts as [|[n t] ts IH]; cbn [find_table].
  - split; [congruence|]. intros (t & []).
  - destruct (same_table n name) eqn:E.
    + split; [intros _|discriminate]. unfold same_table in E. apply andb_prop in E as [E1 E2]. apply str_eqb_eq in E1, E2.
      exists t. left. destruct n, name. cbn in *. now subst.
    + rewrite IH. split; intros (t' & H); exists t'.
      * right. exact H.
      * destruct H as [[= -> ->]|H]; [rewrite same_table_refl in E; discriminate|exact H].
Qed.
Lemma found_app name ts more : find_table name ts <> None -> find_table name (ts ++ more) = find_table name ts.
Proof.
  induction ts as [|[n t] ts IH]; cbn [app find_table]; [congruence|]. destruct (same_table n name); [reflexivity|exact IH].
Qed.
(** tables are only added, and only one, without columns and rows *)
Lemma commits_cases filename cs : forall ts,
  snd (bq_commits filename cs ts) = ts \/
  (~ is_there ($"users", $"justin") ts /\ snd (bq_commits filename cs ts) = ts ++ [(($"users", $"justin"), mkTable [] None [])]).
Proof.
  induction cs as [|[[[reach id] data] override] cs IH]; intros ts; [left; reflexivity|]. cbn [bq_commits].
  pose proof (commit_cases reach filename id data override ts) as C.
  destruct (bq_commit reach filename id data override ts) as [o ts1]. specialize (IH ts1).
  destruct (bq_commits filename cs ts1) as [os ts2]. cbn [snd] in *.
  destruct C as [->|[N ->]]; [exact IH|]. right. split.
  - intros H. apply found_is_there in H. contradiction.
  - destruct IH as [->|[N' _]]; [reflexivity|]. exfalso. apply N'. exists (mkTable [] None []). apply in_app_iff. right. left. reflexivity.
Qed.
Lemma rows_unchanged filename cs ts : all_rows (snd (bq_commits filename cs ts)) = all_rows ts.
Proof.
  destruct (commits_cases filename cs ts) as [->|[_ ->]]; [reflexivity|]. unfold all_rows. rewrite flat_map_app. cbn. now rewrite app_nil_r.
Qed.
Lemma tables_stay filename cs ts : exists more, snd (bq_commits filename cs ts) = ts ++ more /\
  forall name t, In (name, t) more -> name = ($"users", $"justin") /\ t_columns t = [] /\ t_expiry t = None /\ t_rows t = [].
Proof.
  destruct (commits_cases filename cs ts) as [->|[_ ->]]; [exists []; now rewrite app_nil_r|].
  eexists. split; [reflexivity|]. intros name t [[= <- <-]|[]]. auto.
Qed.
Lemma failing_commit e filename id data override ts : bq_commit (Raise e) filename id data override ts = (Raise e, ts).
Proof. reflexivity. Qed.
