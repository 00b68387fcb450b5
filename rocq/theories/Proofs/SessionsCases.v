(** Concrete cases for the theorems on stream writers one after the other. *)
From Coq Require Import Sorted.
From Verif.Base Require Import Py PyFacts Value.
From Verif.Model Require Import Paths Dates Frames ReadRange Storage Writers Stream Reader Json.
From Verif.Spec Require Import Paths Dates Frames Json Writers Stream Reader StreamRead.
From Verif.Proofs Require Import Paths Dates ReaderCases StreamReadCases.

(** a writer killed in the second day, after two of its blobs; then one which runs to its end, with the records again *)
Definition se_first := srun (st_writer st_template) (mkSState [] (mkWorld 0 []) 0) (st_events ++ [SFinalize]).
Definition se_left : world := mkWorld 2 (firstn 2 (puts (world_of (snd se_first)))).
Definition se_second := srun (st_writer st_template) (mkSState [] se_left 40) (st_events ++ [SFinalize]).
Definition se_world : world := world_of (snd se_second).
Definition se_sessions : list session := [Killed st_events (fst se_first); Finished st_events (fst se_second)].
Definition se_store (p : str) : list str := filter (startswith (p ++ $"/")) (map fst (puts se_world)).

Lemma se_blobs : length (puts (world_of (snd se_first))) = 6%nat.
Proof. vm_compute. reflexivity. Qed.
Lemma pairs {A B} (x y : A * B) : x = y -> x = (fst y, snd y).
Proof. intros ->. apply surjective_pairing. Qed.
Lemma se_ran : sessions_ran (st_writer st_template) (mkWorld 0 []) se_sessions se_world.
Proof.
  refine (killed _ _ 0 _ _ (snd se_first) 2 _ _ (pairs _ se_first eq_refl) _ _).
  - rewrite se_blobs. cbn [puts length]. lia.
  - change (sessions_ran (st_writer st_template) se_left [Finished st_events (fst se_second)] se_world).
    exact (finished _ _ 40 _ _ (snd se_second) _ _ (pairs _ se_second eq_refl) (no_session _ _)).
Qed.
Lemma se_clock_times x r at_ : In x se_sessions -> In (SAppend r at_) (asked_of x) -> clock_time at_.
Proof. intros [<-|[<-|[]]]; apply st_clock_times. Qed.
Lemma se_good_clock : good_clock (m_base (st_writer st_template)) (attempts se_world).
Proof.
  assert (E : attempts se_world = 8%nat) by (vm_compute; reflexivity). rewrite E.
  split; [intros n Hn|intros n m Hn Hm]; cbn [s_clock st_writer m_base st_base]; [|lia].
  change (2 ^ 64)%N with (2 ^ 60 * 16)%N. lia.
Qed.
Lemma se_reads : reads_log (read_from (puts se_world)) (puts se_world).
Proof. intros name data H. unfold read_from. now rewrite H. Qed.
Lemma se_distinct : NoDup (map fst (puts se_world)).
Proof. vm_compute. repeat (constructor; [cbv; intuition discriminate|]). constructor. Qed.
Lemma se_folders date : within (2024, 2, 28)%Z (2024, 3, 1)%Z date ->
  clean_folder (day_folder st_template date) /\ lists_folder se_store (puts se_world) (day_folder st_template date).
Proof.
  intros W. split.
  - apply st_days in W as [->|[->| ->]]; intros c H; vm_compute in H;
      repeat (destruct H as [<-|H]; [vm_compute; intuition discriminate|]); destruct H.
  - unfold lists_folder, se_store. generalize (day_folder st_template date). generalize se_distinct.
    generalize (puts se_world). intros l N p. split; [apply NoDup_filter, N|]. intros m. apply filter_In.
Qed.
