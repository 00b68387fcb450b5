(** Concrete cases for the theorems on streams with fields in the names of folders whose storage fails. *)
From Verif.Base Require Import Py PyFacts Value.
From Verif.Model Require Import Paths Dates Frames ReadRange Cursor Storage Writers Stream Adapters Reader Json Collector.
From Verif.Spec Require Import Paths Dates Json Writers Stream Reader StreamRead StreamField StreamLevels Collector FailingSessions FailingLevels.
From Verif.Spec Require Adapters.
From Verif.Spec Require Import System StreamStore FailingStore.
From Verif.Proofs Require Import ReaderCases StreamReadCases StreamStoreCases StreamFieldCases LevelsCases CollectorCases FailingReadCases FailingSessionsCases.

(** the stream of [LevelsCases] with storage which fails now and then: a writer killed after one blob, then one which ended well *)
Definition fl_bad : list nat := [1; 3; 9; 11]%nat.
Definition fl_M : streaming value str :=
  mkStreaming _ _ (stream_template (levels_template lv_levels)) (fun r => match r with VDict (_ :: _) => true | _ => false end)
    get_texts (fun v => v) (dedup str_eqb) (dedup (list_eqb str_eqb)) 2 60 (fun n => Z.of_nat n) (fr_base fl_bad) $".jsonl".
Definition fl_first := crun fl_M (mkC (mkSState [] (mkWorld 0 []) 0) []) (map Event lv_events).
Definition fl_left : world :=
  mkWorld (attempts (world_of (c_stream (snd fl_first)))) (firstn 1 (puts (world_of (c_stream (snd fl_first))))).
Definition fl_ns : list nat := [0; 0; 0; 0; 0]%nat.
Definition fl_history : list (cevent (R:=value)) := map Event lv_events ++ Event SFinalize :: map Collect fl_ns.
Definition fl_second := crun fl_M (mkC (mkSState [] fl_left 7) []) fl_history.
Definition fl_world : world := world_of (c_stream (snd fl_second)).
Definition fl_spells : list spell := [Broken (map Event lv_events) (fst fl_first); Complete (map Event lv_events) fl_ns (fst fl_second)].

Lemma fl_settings other : failing_settings loads unz other distinct_keys (fun r => r) fl_M.
Proof. exact (fr_settings other fl_bad st_template). Qed.
Lemma fl_answers : In (Raise StorageError) (fst fl_first) /\ In (Raise StorageError) (fst fl_second).
Proof. split; vm_compute; tauto. Qed.
Lemma fl_attempts : attempts fl_world = 15%nat /\ length (puts fl_world) = 10%nat.
Proof. split; vm_compute; reflexivity. Qed.
Lemma fl_dropped : c_dropped (snd fl_second) = [].
Proof. vm_compute. reflexivity. Qed.
Lemma fl_succeed : destructors_succeed fl_history (fst fl_second).
Proof. intros n e H. vm_compute in H. repeat (destruct H as [H|H]; [discriminate H|]). destruct H. Qed.
Lemma broken_then_complete {V} (M : streaming value V) es ns n k first second :
  crun M (mkC (mkSState [] (mkWorld 0 []) 0) []) es = first ->
  let left := mkWorld (attempts (world_of (c_stream (snd first)))) (firstn n (puts (world_of (c_stream (snd first))))) in
  crun M (mkC (mkSState [] left k) []) (es ++ Event SFinalize :: map Collect ns) = second ->
  c_dropped (snd second) = [] -> destructors_succeed (es ++ Event SFinalize :: map Collect ns) (fst second) ->
  spells_ran M (mkWorld 0 []) [Broken es (fst first); Complete es ns (fst second)] (world_of (c_stream (snd second))).
Proof.
  intros E1 left E2 D N. destruct first as [o1 c1], second as [o2 c2]. cbn [fst snd] in *.
  refine (broken_spell M _ 0 es o1 c1 n _ _ E1 (Nat.le_0_l _) _).
  exact (complete_spell M _ k es ns o2 c2 [] _ E2 D N (no_spell M _)).
Qed.
Lemma fl_ran : spells_ran fl_M (mkWorld 0 []) fl_spells fl_world.
Proof. exact (broken_then_complete fl_M (map Event lv_events) fl_ns 1 7 fl_first fl_second eq_refl eq_refl fl_dropped fl_succeed). Qed.
Lemma fl_asked (r : value) at_ x : In x fl_spells -> In (Event (SAppend r at_)) (history_of x) -> In (SAppend r at_) lv_events.
Proof.
  intros [<-|[<-|[]]] H; cbn [history_of] in H.
  - apply in_map_iff in H as (e & [= ->] & H). exact H.
  - apply in_app_iff in H as [H|[H|H]]; [apply in_map_iff in H as (e & [= ->] & H); exact H|discriminate H|].
    apply in_map_iff in H as (n & H & _). discriminate H.
Qed.
Lemma fl_appends x r at_ : In x fl_spells -> In (Event (SAppend r at_)) (history_of x) -> clock_time at_ /\ names_folders fl_M lv_levels r.
Proof. intros Hx H. apply (fl_asked r at_ x Hx) in H. split; [exact (lv_clock_times r at_ H)|exact (lv_names r at_ H)]. Qed.
Lemma fl_clock : good_clock (m_base fl_M) (attempts fl_world).
Proof.
  rewrite (proj1 fl_attempts). split; [intros n Hn|intros n m Hn Hm]; cbn [s_clock fl_M m_base fr_base]; [|lia].
  change (2 ^ 64)%N with (2 ^ 60 * 16)%N. lia.
Qed.

(** a store which lists the blobs of a folder, and what is read of it *)
Definition fl_store : str -> list str := store_of (puts fl_world).
Lemma fl_distinct : NoDup (map fst (puts fl_world)).
Proof. vm_compute. repeat (constructor; [cbv; intuition discriminate|]). constructor. Qed.
Lemma fl_folders date : within (2024, 2, 28)%Z (2024, 3, 1)%Z date ->
  clean_folder (day_folder lv_read_template date) /\ lists_folder fl_store (puts fl_world) (day_folder lv_read_template date).
Proof. intros W. split; [exact (proj1 (lv_nothing Disk date W))|exact (store_lists (puts fl_world) _ fl_distinct)]. Qed.
Lemma fl_reads : reads_log (read_from (puts fl_world)) (puts fl_world).
Proof. exact (store_reads (puts fl_world)). Qed.
Definition fl_read (key v : str) : list value :=
  match read_records (fun _ => 0%Z) (fun _ => Raise ValueError)
      (fun _ => list_range None fl_store 0%Z [] (template_text (levels_of (lv_values key v) lv_levels) ++ $"/") (of_fields 2024 2 28 0 0 0) (of_fields 2024 3 1 12 0 0))
      0 (blob_records Json.loads unz no_other (read_from (puts fl_world)) pass_thru pass_thru_filter None) NoCursor 20
  with Ok (rs, _) => rs | Raise _ => [] end.
Lemma fl_ann_x : fl_read $"ann" $"x"
  = [pair_of 1 $"ann" [$"x"]; pair_of 1 $"ann" [$"x"]; pair_of 3 $"ann" [$"x"; $"y"]; pair_of 5 $"an-n" [$"y"; $"x"]].
Proof. vm_compute. reflexivity. Qed.
