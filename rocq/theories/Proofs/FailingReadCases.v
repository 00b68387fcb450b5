(** Concrete cases for the theorems on reading what a stream writer stored although its storage failed. *)
From Coq Require Import Sorted.
From Verif.Base Require Import Py PyFacts Value.
From Verif.Model Require Import Paths Dates Frames ReadRange Storage Writers Stream Reader Json Collector.
From Verif.Spec Require Import Paths Dates Frames Json Writers Stream Reader StreamRead Collector.
From Verif.Proofs Require Import Paths Dates ReaderCases StreamReadCases CollectorCases.
From Verif.Proofs Require RoundTrip.

(** the stream of [StreamReadCases], with storage that fails at the attempts of a list *)
Definition fr_base (bad : list nat) : setting value :=
  mkSetting value Zstd 20 [] $"1f" false (fun r => Ok tt)
    (fun r => Ok (dumps r ++ ["010"%char])) (fun s => "Z"%char :: s)
    (fun g => 0%Z) (fun g => Ok []) (fun n => 2 ^ 60 + N.of_nat n)%N (nth_fails bad).
Definition fr_writer (bad : list nat) (t : list seg) : streaming value str :=
  mkStreaming _ _ (template_text t) (fun r => match r with VDict (_ :: _) => true | _ => false end)
    (fun r _ => []) (fun v => v) (dedup str_eqb) (dedup (list_eqb str_eqb)) 2 60 (fun n => Z.of_nat n) (fr_base bad) $".jsonl".
Definition fr_history (ns : list nat) : list (cevent (R:=value)) := map Event st_events ++ Event SFinalize :: map Collect ns.
Definition fr_run (bad : list nat) (t : list seg) (ns : list nat) := crun (fr_writer bad t) new_collected (fr_history ns).
Definition fr_log bad t ns := puts (world_of (c_stream (snd (fr_run bad t ns)))).
Definition fr_store bad t ns (p : str) : list str := filter (startswith (p ++ $"/")) (map fst (fr_log bad t ns)).

Lemma fr_settings other bad t : failing_settings loads unz other distinct_keys (fun r => r) (fr_writer bad t).
Proof.
  split; [|split; [|split; [|split]]].
  - apply (RoundTrip.json_writer_read dumps); [exact RoundTrip.json_one_line|].
    split; [intros r x [= <-]; reflexivity|]. split; [reflexivity|]. right. split; [reflexivity|].
    exists $".jsonl". reflexivity.
  - intros c H; cbn in H; repeat (destruct H as [<-|H]; [reflexivity|]); destruct H.
  - intros c H; cbn in H; repeat (destruct H as [<-|H]; [reflexivity|]); destruct H.
  - split.
    + intros l. split; [apply dedup_NoDup, str_eqb_eq|]. intros; apply dedup_In, str_eqb_eq.
    + intros l. pose proof (list_eqb_spec str_eqb str_eqb_eq) as H.
      split; [apply dedup_NoDup, H|]. intros; apply dedup_In, H.
  - intros n k. cbn. unfold nth_fails. destruct (existsb _ _); discriminate.
Qed.
Lemma fr_clock_times ns r at_ : In (Event (SAppend r at_)) (fr_history ns) -> clock_time at_.
Proof.
  intros H. unfold fr_history in H. apply in_app_iff in H as [H|[H|H]].
  - apply in_map_iff in H as (e & [= ->] & H). exact (st_clock_times r at_ H).
  - discriminate H.
  - apply in_map_iff in H as (e & H & _). discriminate H.
Qed.
Lemma fr_ran bad t ns k : attempts (world_of (c_stream (snd (fr_run bad t ns)))) = k -> (k < 100)%nat ->
  failing_ran (read_from (fr_log bad t ns)) (fr_writer bad t) (fr_history ns) (fst (fr_run bad t ns)) (snd (fr_run bad t ns)).
Proof.
  intros Ek Hk. split; [apply surjective_pairing|]. split; [apply fr_clock_times|]. split.
  - rewrite Ek. split; [intros n Hn|intros n m Hn Hm]; cbn [s_clock fr_writer m_base fr_base]; [|lia].
    change (2 ^ 64)%N with (2 ^ 60 * 16)%N. lia.
  - intros name data H. unfold read_from, fr_log. now rewrite H.
Qed.
(** failures of the attendant's attempts (2, 3) and of one of an append (1) *)
Definition fr_bad : list nat := [1; 2; 3]%nat.
Definition fr_ns : list nat := [0; 0; 0]%nat.
Lemma fr_attempts : attempts (world_of (c_stream (snd (fr_run fr_bad st_template fr_ns)))) = 8%nat /\
  attempts (world_of (c_stream (snd (fr_run fr_bad (st_template ++ hour_folders) fr_ns)))) = 9%nat.
Proof. split; vm_compute; reflexivity. Qed.
Lemma fr_folders bad t ns : NoDup (map fst (fr_log bad t ns)) -> forall date, within (2024, 2, 28)%Z (2024, 3, 1)%Z date ->
  clean_folder (day_folder st_template date) /\ lists_folder (fr_store bad t ns) (fr_log bad t ns) (day_folder st_template date).
Proof.
  intros N date W. split.
  - apply st_days in W as [->|[->| ->]]; intros c H; vm_compute in H;
      repeat (destruct H as [<-|H]; [vm_compute; intuition discriminate|]); destruct H.
  - split; [apply NoDup_filter, N|]. intros m. unfold fr_store. apply filter_In.
Qed.
Lemma fr_distinct : NoDup (map fst (fr_log fr_bad st_template fr_ns)) /\ NoDup (map fst (fr_log fr_bad (st_template ++ hour_folders) fr_ns)).
Proof.
  split; vm_compute;
  repeat (constructor; [cbv; intuition discriminate|]); constructor.
Qed.
