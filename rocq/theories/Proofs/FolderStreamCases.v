(** Concrete cases for the theorem on streams of datasets without partitions. *)
From Coq Require Import Lia.
From Verif.Base Require Import Py PyFacts Value.
From Verif.Model Require Import Paths Dates Frames ReadRange Storage Writers Stream Reader Json.
From Verif.Spec Require Import Paths Dates Frames Json Writers Stream Reader StreamRead.
From Verif.Spec Require Adapters.
From Verif.Proofs Require Import Paths Dates ReaderCases StreamReadCases.

(** the stream of Proofs/StreamReadCases.v, without partitions *)
Definition fs_names : list str := [$"data"; $"set"].
Definition fs_template : list seg := [Lit $"data/set"].

Lemma fs_folder : Adapters.folder fs_names.
Proof.
  split; [cbn; lia|]. split.
  - intros c [<-|[<-|[]]]; repeat split; try discriminate; cbv; intuition discriminate.
  - cbv; intuition discriminate.
Qed.
Lemma fs_proper : proper_template [Date (Lit (join $"/" fs_names))].
Proof.
  change (join $"/" fs_names) with $"data/set".
  split; [split|split].
  - intros s [H|[]]. injection H as <-. split; simpl; intuition discriminate.
  - intros s [H|[]]. discriminate.
  - intros s [H|[]]. injection H as <-. simpl; intuition discriminate.
  - intros at_. change (partition_of [Date (Lit $"data/set")] at_ (fun _ => [])) with $"data/set". split.
    + intros w Hw. vm_compute in Hw. repeat (destruct Hw as [<-|Hw]; [eexists; split; [left; reflexivity|discriminate]|]). destruct Hw.
    + vm_compute. lia.
Qed.
Lemma fs_distinct : NoDup (map fst (st_log fs_template)).
Proof. vm_compute. repeat (constructor; [cbv; intuition discriminate|]). constructor. Qed.
Lemma fs_hypotheses :
  (forall other, stream_settings Json.loads unz other distinct_keys (fun r => r) (st_writer fs_template)) /\ Adapters.folder fs_names /\
  proper_template [Date (Lit (join $"/" fs_names))] /\ m_template (st_writer fs_template) = join $"/" fs_names /\ clean_folder (join $"/" fs_names) /\
  stream_ran (read_from (st_log fs_template)) (st_writer fs_template) st_events (fst (st_run fs_template)) (snd (st_run fs_template)) /\
  lists_folder (st_store fs_template) (st_log fs_template) (join $"/" fs_names).
Proof.
  split; [intros other; apply st_settings|]. split; [exact fs_folder|]. split; [exact fs_proper|]. split; [reflexivity|]. split.
  - intros c H. vm_compute in H. repeat (destruct H as [<-|H]; [vm_compute; intuition discriminate|]). destruct H.
  - split.
    + eapply st_ran; [vm_compute; reflexivity|repeat constructor].
    + split; [apply NoDup_filter, fs_distinct|]. intros m. unfold st_store. apply filter_In.
Qed.
