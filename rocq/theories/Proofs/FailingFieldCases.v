(** Concrete cases for the theorems on streams partitioned by a field whose storage fails. *)
From Verif.Base Require Import Py PyFacts Value.
From Verif.Model Require Import Paths Dates Frames ReadRange Cursor Storage Writers Stream Adapters Reader Json Collector.
From Verif.Spec Require Import Paths Dates Json Writers Stream Reader StreamRead StreamField Collector FailingSessions FailingLevels.
From Verif.Spec Require Adapters.
From Verif.Spec Require Import System StreamStore FailingStore.
From Verif.Proofs Require Import ReaderCases StreamReadCases StreamStoreCases StreamFieldCases CollectorCases FailingReadCases FailingSessionsCases FailingLevelsCases.

(** the stream of [StreamFieldCases] with storage which fails now and then: a writer killed after two blobs, then one which ended well *)
Definition ff_bad : list nat := [0; 4; 7; 8]%nat.
Definition ff_M : streaming value str :=
  mkStreaming _ _ (stream_template (field_template st_template $"user")) (fun r => match r with VDict (_ :: _) => true | _ => false end)
    get_texts (fun v => v) (dedup str_eqb) (dedup (list_eqb str_eqb)) 2 60 (fun n => Z.of_nat n) (fr_base ff_bad) $".jsonl".
Definition ff_events := f_events $"user" $"ann" $"bob b".
Definition ff_first := crun ff_M (mkC (mkSState [] (mkWorld 0 []) 0) []) (map Event ff_events).
Definition ff_left : world :=
  mkWorld (attempts (world_of (c_stream (snd ff_first)))) (firstn 2 (puts (world_of (c_stream (snd ff_first))))).
Definition ff_ns : list nat := [0; 0; 0; 0; 0]%nat.
Definition ff_history : list (cevent (R:=value)) := map Event ff_events ++ Event SFinalize :: map Collect ff_ns.
Definition ff_second := crun ff_M (mkC (mkSState [] ff_left 7) []) ff_history.
Definition ff_world : world := world_of (c_stream (snd ff_second)).
Definition ff_spells : list spell := [Broken (map Event ff_events) (fst ff_first); Complete (map Event ff_events) ff_ns (fst ff_second)].
Definition ff_store : str -> list str := store_of (puts ff_world).
Definition ff_read (op v : str) : list value :=
  match read_records (fun _ => 0%Z) (fun _ => Raise ValueError)
      (fun _ => list_range (Some ($"user", op, v)) ff_store 0%Z [] (template_text st_template ++ $"/") (of_fields 2024 2 28 0 0 0) (of_fields 2024 3 1 12 0 0))
      0 (blob_records Json.loads unz no_other (read_from (puts ff_world)) pass_thru pass_thru_filter None) NoCursor 20
  with Ok (rs, _) => rs | Raise _ => [] end.

Lemma ff_settings other : failing_settings loads unz other distinct_keys (fun r => r) ff_M.
Proof. exact (fr_settings other ff_bad st_template). Qed.
Lemma ff_answers : In (Raise StorageError) (fst ff_first) /\ In (Raise StorageError) (fst ff_second).
Proof. split; vm_compute; tauto. Qed.
Lemma ff_attempts : attempts ff_world = 13%nat /\ length (puts ff_world) = 8%nat.
Proof. split; vm_compute; reflexivity. Qed.
Lemma ff_dropped : c_dropped (snd ff_second) = [].
Proof. vm_compute. reflexivity. Qed.
Lemma ff_succeed : destructors_succeed ff_history (fst ff_second).
Proof. intros n e H. vm_compute in H. repeat (destruct H as [H|H]; [discriminate H|]). destruct H. Qed.
Lemma ff_ran : spells_ran ff_M (mkWorld 0 []) ff_spells ff_world.
Proof. exact (broken_then_complete ff_M (map Event ff_events) ff_ns 2 7 ff_first ff_second eq_refl eq_refl ff_dropped ff_succeed). Qed.
Lemma ff_asked (r : value) at_ x : In x ff_spells -> In (Event (SAppend r at_)) (history_of x) -> In (SAppend r at_) ff_events.
Proof.
  intros [<-|[<-|[]]] H; cbn [history_of] in H.
  - apply in_map_iff in H as (e & [= ->] & H). exact H.
  - apply in_app_iff in H as [H|[H|H]]; [apply in_map_iff in H as (e & [= ->] & H); exact H|discriminate H|].
    apply in_map_iff in H as (n & H & _). discriminate H.
Qed.
Lemma ff_appends x r at_ : In x ff_spells -> In (Event (SAppend r at_)) (history_of x) -> clock_time at_ /\ texts_differ ff_M $"user" r.
Proof. intros Hx H. apply (ff_asked r at_ x Hx) in H. split; [exact (f_clock_times _ _ _ r at_ H)|exact (f_differ r at_ H)]. Qed.
Lemma ff_clock : good_clock (m_base ff_M) (attempts ff_world).
Proof.
  rewrite (proj1 ff_attempts). split; [intros n Hn|intros n m Hn Hm]; cbn [s_clock ff_M m_base fr_base]; [|lia].
  change (2 ^ 64)%N with (2 ^ 60 * 16)%N. lia.
Qed.
Lemma ff_distinct : NoDup (map fst (puts ff_world)).
Proof. vm_compute. repeat (constructor; [cbv; intuition discriminate|]). constructor. Qed.
Lemma ff_folders date : within (2024, 2, 28)%Z (2024, 3, 1)%Z date ->
  clean_folder (day_folder st_template date) /\ lists_folder ff_store (puts ff_world) (day_folder st_template date).
Proof. intros W. split; [exact (proj1 (f_folders date W))|exact (store_lists (puts ff_world) _ ff_distinct)]. Qed.
Lemma ff_nothing k date : within (2024, 2, 28)%Z (2024, 3, 1)%Z date ->
  clean_folder (day_folder st_template date) /\
  listing k [] (range_hours 0%Z (of_fields 2024 2 28 0 0 0) (of_fields 2024 3 1 12 0 0)) (day_folder st_template date) (ss_before k) = [].
Proof.
  intros W. split; [exact (proj1 (f_folders date W))|]. apply st_days in W as [->|[->| ->]]; destruct k; vm_compute; reflexivity.
Qed.
Lemma ff_reads : reads_log (read_from (puts ff_world)) (puts ff_world).
Proof. exact (store_reads (puts ff_world)). Qed.
(** the record of both users was refused, and is kept for the first of them; the one after it is lost *)
Lemma ff_ann : ff_read $"=" $"ann" = [one $"user" 1 $"ann"; one $"user" 1 $"ann"; both $"user" 3 [$"ann"; $"bob b"]].
Proof. vm_compute. reflexivity. Qed.
Lemma ff_bob : ff_read $"==" $"bob b" = [one $"user" 2 $"bob b"; one $"user" 5 $"bob b"].
Proof. vm_compute. reflexivity. Qed.
