(** Concrete cases for the theorems on writers one after the other whose storage fails. *)
From Verif.Base Require Import Py PyFacts Value.
From Verif.Model Require Import Paths Dates Frames ReadRange Cursor Storage Writers Stream Adapters Reader Json Collector.
From Verif.Spec Require Import Paths Dates Writers Stream Reader StreamRead Collector FailingSessions.
From Verif.Spec Require Adapters.
From Verif.Spec Require Import System StreamStore FailingStore.
From Verif.Proofs Require Import ReaderCases StreamReadCases StreamStoreCases CollectorCases FailingReadCases.

(** the stream of [FailingReadCases]: a writer killed after its first blob was stored, without a finalize, then one which
    could not store twice and did so in the end *)
Definition fx_bad : list nat := [1; 2; 5; 6]%nat.
Definition fx_M := fr_writer fx_bad st_template.
Definition fx_first := crun fx_M (mkC (mkSState [] (mkWorld 0 []) 0) []) (map Event st_events).
Definition fx_left : world :=
  mkWorld (attempts (world_of (c_stream (snd fx_first)))) (firstn 1 (puts (world_of (c_stream (snd fx_first))))).
Definition fx_ns : list nat := [0; 0; 0]%nat.
Definition fx_second := crun fx_M (mkC (mkSState [] fx_left 7) []) (fr_history fx_ns).
Definition fx_world : world := world_of (c_stream (snd fx_second)).
Definition fx_spells : list spell := [Broken (map Event st_events) (fst fx_first); Complete (map Event st_events) fx_ns (fst fx_second)].

Lemma fx_answers : In (Raise StorageError) (fst fx_first) /\ In (Raise StorageError) (fst fx_second) /\ attempts fx_world = 11%nat.
Proof. split; [|split]; [vm_compute; tauto|vm_compute; tauto|vm_compute; reflexivity]. Qed.
Lemma fx_dropped : c_dropped (snd fx_second) = [].
Proof. vm_compute. reflexivity. Qed.
Lemma fx_succeed : destructors_succeed (fr_history fx_ns) (fst fx_second).
Proof. intros n e H. vm_compute in H. repeat (destruct H as [H|H]; [discriminate H|]). destruct H. Qed.
Lemma fx_ran : spells_ran fx_M (mkWorld 0 []) fx_spells fx_world.
Proof.
  unfold fx_spells.
  refine (broken_spell fx_M (mkWorld 0 []) 0 (map Event st_events) (fst fx_first) (snd fx_first) 1%nat _ fx_world (surjective_pairing fx_first) (Nat.le_0_l _) _).
  refine (complete_spell fx_M fx_left 7 (map Event st_events) fx_ns (fst fx_second) (snd fx_second) [] fx_world (surjective_pairing fx_second) fx_dropped fx_succeed (no_spell fx_M fx_world)).
Qed.
Lemma fx_clock_times x r at_ : In x fx_spells -> In (Event (SAppend r at_)) (history_of x) -> clock_time at_.
Proof.
  intros [<-|[<-|[]]] H.
  - cbn [history_of] in H. apply in_map_iff in H as (e & [= ->] & H). exact (st_clock_times r at_ H).
  - exact (fr_clock_times fx_ns r at_ H).
Qed.
Lemma fx_clock : good_clock (m_base fx_M) (attempts fx_world).
Proof.
  rewrite (proj2 (proj2 fx_answers)). split; [intros n Hn|intros n m Hn Hm]; cbn [s_clock fx_M fr_writer m_base fr_base]; [|lia].
  change (2 ^ 64)%N with (2 ^ 60 * 16)%N. lia.
Qed.
(** a store which lists the blobs of a folder *)
Definition store_of (log : list (str * str)) (p : str) : list str := filter (startswith (p ++ $"/")) (map fst log).
Lemma store_lists log p : NoDup (map fst log) -> lists_folder (store_of log) log p.
Proof. intros N. split; [apply NoDup_filter, N|]. intros m. unfold store_of. apply filter_In. Qed.
Lemma store_reads log : reads_log (read_from log) log.
Proof. intros name data H. unfold read_from. now rewrite H. Qed.
Definition fx_store : str -> list str := store_of (puts fx_world).
Lemma fx_distinct : NoDup (map fst (puts fx_world)).
Proof. vm_compute. repeat (constructor; [cbv; intuition discriminate|]). constructor. Qed.
Lemma fx_folders date : within (2024, 2, 28)%Z (2024, 3, 1)%Z date ->
  clean_folder (day_folder st_template date) /\ lists_folder fx_store (puts fx_world) (day_folder st_template date).
Proof.
  intros W. split.
  - apply st_days in W as [->|[->| ->]]; intros c H; vm_compute in H;
      repeat (destruct H as [<-|H]; [vm_compute; intuition discriminate|]); destruct H.
  - exact (store_lists (puts fx_world) _ fx_distinct).
Qed.
Lemma fx_reads : reads_log (read_from (puts fx_world)) (puts fx_world).
Proof. exact (store_reads (puts fx_world)). Qed.
Definition fx_read : list value :=
  match read_records (fun _ => 0%Z) (fun _ => Raise ValueError)
      (fun _ => list_range None fx_store 0%Z [] (template_text st_template ++ $"/") (of_fields 2024 2 28 0 0 0) (of_fields 2024 3 1 12 0 0))
      0 (blob_records Json.loads unz no_other (read_from (puts fx_world)) pass_thru pass_thru_filter None) NoCursor 20
  with Ok (rs, _) => rs | Raise _ => [] end.
Lemma fx_records : fx_read = map a_record [1; 1; 2; 3; 4; 5]%Z.
Proof. vm_compute. reflexivity. Qed.
Lemma fx_returned : returned_on fx_M (within_days (2024, 2, 28) (2024, 3, 1))%Z (fr_history fx_ns) (fst fx_second) = map a_record [1; 2; 3; 4; 5]%Z.
Proof. vm_compute. reflexivity. Qed.
