(** Concrete cases for queries over what failing writers left. *)
From Verif.Base Require Import Py Value.
From Verif.Model Require Import Paths Dates Frames ReadRange Cursor Storage Writers Stream Adapters Reader Json Sql Query Collector.
From Verif.Spec Require Import Paths Dates Json Writers Stream Reader StreamRead StreamField Collector FailingSessions.
From Verif.Spec Require Import System StreamStore.
From Verif.Proofs Require Import ReaderCases StreamReadCases StreamStoreCases StreamFieldCases FailingReadCases FailingSessionsCases FailingFieldCases.
From Verif.Proofs Require Import ExpressionCases SqlAnswerCases QueryCases.

(** the blobs of a log stored at the moments [times] *)
Definition qf_after (k : kind) (times : list nat) (log : list (str * str)) : result stored :=
  fold_left (ss_commit k []) (combine times log) (Ok (ss_before k)).
Definition qf_open (k : kind) (_ : str) (columns : value -> result value) (filters : value -> result bool) (n : nat) : result (list value) :=
  let* s := qf_after k [0; 3; 4; 7; 8; 9; 10]%nat (puts fx_world) in
  records_read (read_selected loads unz no_other columns filters (fun _ => 0%Z) (fun _ => Raise ValueError) k 0%Z [] st_template
                 (of_fields 2024 2 28 0 0 0) (of_fields 2024 3 1 12 0 0) n s).
Definition qf_field_open (k : kind) (v _ : str) (columns : value -> result value) (filters : value -> result bool) (n : nat) : result (list value) :=
  let* s := qf_after k [1; 2; 5; 6; 9; 10; 11; 12]%nat (puts ff_world) in
  records_read (read_asked loads unz no_other columns filters (fun _ => 0%Z) (fun _ => Raise ValueError) k 0%Z [] st_template
                 (Some ($"user", $"=", v)) (of_fields 2024 2 28 0 0 0) (of_fields 2024 3 1 12 0 0) n s).

Lemma qf_answer k quotient hash xxh :
  sql_reader none_of none_of (query_reader none_of none_of same no_matches some_functions (qf_open k) 10) rows_where quotient hash xxh 200 false
    $"SELECT a AS number FROM data.set WHERE a < 5 AND a <> 2" = Ok (map (fun n => [($"number", VInt n)]) [1; 1; 3; 4]%Z).
Proof. destruct k; vm_compute; reflexivity. Qed.
Lemma qf_field_answer k quotient hash xxh :
  sql_reader none_of none_of (query_reader none_of none_of same no_matches some_functions (qf_field_open k $"bob b") 10) rows_where quotient hash xxh 200 false
    $"SELECT a AS number FROM data.set WHERE a >= 2" = Ok (map (fun n => [($"number", VInt n)]) [2; 5]%Z).
Proof. destruct k; vm_compute; reflexivity. Qed.

Lemma st_keys r at_ : In (SAppend r at_) st_events -> distinct_keys r.
Proof. intros H. vm_compute in H. repeat (destruct H as [H|H]; [first [discriminate H | (injection H as <- <-; vm_compute; repeat constructor; cbn; intuition discriminate)]|]). destruct H. Qed.
Lemma qf_asked (r : value) at_ x : In x fx_spells -> In (Event (SAppend r at_)) (history_of x) -> In (SAppend r at_) st_events.
Proof.
  intros [<-|[<-|[]]] H; cbn [history_of] in H.
  - apply in_map_iff in H as (e & [= ->] & H). exact H.
  - apply in_app_iff in H as [H|[H|H]]; [apply in_map_iff in H as (e & [= ->] & H); exact H|discriminate H|].
    apply in_map_iff in H as (n & H & _). discriminate H.
Qed.
Lemma qf_appends x r at_ : In x fx_spells -> In (Event (SAppend r at_)) (history_of x) -> clock_time at_ /\ distinct_keys r.
Proof. intros Hx H. split; [exact (fx_clock_times x r at_ Hx H)|exact (st_keys r at_ (qf_asked r at_ x Hx H))]. Qed.
Lemma ff_keys r at_ : In (SAppend r at_) ff_events -> distinct_keys r.
Proof. intros H. vm_compute in H. repeat (destruct H as [H|H]; [first [discriminate H | (injection H as <- <-; vm_compute; repeat constructor; cbn; intuition discriminate)]|]). destruct H. Qed.
Lemma qf_field_appends x r at_ : In x ff_spells -> In (Event (SAppend r at_)) (history_of x) ->
  clock_time at_ /\ texts_differ ff_M $"user" r /\ distinct_keys r.
Proof.
  intros Hx H. destruct (ff_appends x r at_ Hx H) as [A B]. split; [exact A|]. split; [exact B|]. exact (ff_keys r at_ (ff_asked r at_ x Hx H)).
Qed.
