(** Concrete cases for the theorems on reading what a stream writer stored. *)
From Coq Require Import Sorted.
From Verif.Base Require Import Py PyFacts Value.
From Verif.Model Require Import Paths Dates Frames ReadRange Storage Writers Stream Reader Json.
From Verif.Spec Require Import Paths Dates Frames Json Writers Stream Reader StreamRead.
From Verif.Proofs Require Import Paths Dates ReaderCases.
From Verif.Proofs Require RoundTrip.

(** records as in a log, three days around the end of February, in the folders of days or of hours;
    a record without "a" is invalid *)
Definition st_template : list seg := Lit ($"data/set" ++ $"/") :: default_partitions.
Definition st_base : setting value :=
  mkSetting value Zstd 20 [] $"1f" false (fun r => Ok tt)
    (fun r => Ok (dumps r ++ ["010"%char])) (fun s => "Z"%char :: s)
    (fun g => 0%Z) (fun g => Ok []) (fun n => 2 ^ 60 + N.of_nat n)%N (fun _ => None).
Definition st_writer (t : list seg) : streaming value str :=
  mkStreaming _ _ (template_text t) (fun r => match r with VDict (_ :: _) => true | _ => false end)
    (fun r _ => []) (fun v => v) (dedup str_eqb) (dedup (list_eqb str_eqb)) 2 60 (fun n => Z.of_nat n) st_base $".jsonl".
Definition st_events : list (event (R:=value)) :=
  [SAppend (a_record 1) (mkMoment 2024 2 28 23 59 59); SAppend (VDict []) (mkMoment 2024 2 29 0 0 0); Attend;
   SAppend (a_record 2) (mkMoment 2024 2 29 0 0 1); SAppend (a_record 3) (mkMoment 2024 2 29 13 0 0);
   Attend; SAppend (a_record 4) (mkMoment 2024 2 29 13 30 0); SAppend (a_record 5) (mkMoment 2024 3 1 7 0 0);
   SAppend (a_record 6) (mkMoment 2024 3 2 7 0 0)].
Definition st_run (t : list seg) := srun (st_writer t) new_stream (st_events ++ [SFinalize]).
Definition st_log (t : list seg) := puts (world_of (snd (st_run t))).
Definition st_store (t : list seg) (p : str) : list str := filter (startswith (p ++ $"/")) (map fst (st_log t)).

Lemma st_daily : daily_template st_template.
Proof.
  split; [split|]; [|cbn; intuition (discriminate || auto 10)|cbn; intuition (discriminate || auto)].
  intros x Hx. cbn in Hx. repeat (destruct Hx as [Hx|Hx]; [try discriminate Hx|]); try contradiction;
    injection Hx as <-; split; simpl; intuition discriminate.
Qed.
Lemma st_chronological : chronological st_template.
Proof.
  exists [Lit ($"data/set" ++ $"/"); Lit $"year_"], [Lit $"/month_"], [Lit $"/day_"], []. split; [reflexivity|].
  repeat split; cbn; intuition (subst; discriminate).
Qed.
Lemma st_proper : proper_template (map Date st_template).
Proof.
  split; [split|split].
  - intros s H; cbn in H; repeat (destruct H as [H|H]; [try discriminate H|]); try contradiction;
      injection H as <-; split; simpl; intuition discriminate.
  - intros s H; cbn in H; repeat (destruct H as [H|H]; [discriminate H|]); contradiction.
  - intros s H; cbn in H; repeat (destruct H as [H|H]; [try discriminate H|]); try contradiction;
      injection H as <-; simpl; intuition discriminate.
  - intros at_.
    assert (E: split "/"%char (partition_of (map Date st_template) at_ (fun _ => []))
      = [$"data"; $"set"; $"year_" ++ seg_value at_ Year; $"month_" ++ seg_value at_ Month; $"day_" ++ seg_value at_ Day]).
    { unfold partition_of, st_template, default_partitions. cbn [map concat piece_value].
      change (seg_value at_ (Lit ($"data/set" ++ $"/")) ++ seg_value at_ (Lit $"year_") ++ seg_value at_ Year ++ seg_value at_ (Lit $"/month_") ++
        seg_value at_ Month ++ seg_value at_ (Lit $"/day_") ++ seg_value at_ Day ++ [])
      with ($"data" ++ "/"%char :: ($"set" ++ "/"%char :: (($"year_" ++ seg_value at_ Year) ++ "/"%char :: (($"month_" ++ seg_value at_ Month) ++ "/"%char ::
        ($"day_" ++ seg_value at_ Day ++ []))))).
      rewrite app_nil_r.
      assert (NY : ~ In "/"%char (seg_value at_ Year)) by (intros H; apply dec_digits in H; discriminate).
      assert (NM : ~ In "/"%char (seg_value at_ Month)) by (intros H; apply dec_pad_digits in H; discriminate).
      assert (ND : ~ In "/"%char (seg_value at_ Day)) by (intros H; apply dec_pad_digits in H; discriminate).
      rewrite !split_app_no_sep; [rewrite split_single; [reflexivity|]| | | |].
      - intros H. apply in_app_iff in H as [H|H]; [simpl in H; intuition discriminate|auto].
      - intros H. apply in_app_iff in H as [H|H]; [simpl in H; intuition discriminate|auto].
      - intros H. apply in_app_iff in H as [H|H]; [simpl in H; intuition discriminate|auto].
      - simpl. intuition discriminate.
      - simpl. intuition discriminate. }
    split.
    + intros w Hw. rewrite E in Hw.
      repeat (destruct Hw as [<-|Hw]; [eexists; split; [left; reflexivity|discriminate]|]). destruct Hw.
    + unfold components_of. rewrite E. cbn. lia.
Qed.

Lemma st_settings other t : stream_settings loads unz other distinct_keys (fun r => r) (st_writer t).
Proof.
  split; [|split; [|split; [|split]]].
  - apply (RoundTrip.json_writer_read dumps); [exact RoundTrip.json_one_line|].
    split; [intros r x [= <-]; reflexivity|]. split; [reflexivity|]. right. split; [reflexivity|].
    exists $".jsonl". reflexivity.
  - intros c H; cbn in H; repeat (destruct H as [<-|H]; [reflexivity|]); destruct H.
  - intros c H; cbn in H; repeat (destruct H as [<-|H]; [reflexivity|]); destruct H.
  - split.
    + intros l. split; [apply dedup_NoDup, str_eqb_eq|]. intros; apply dedup_In, str_eqb_eq.
    + intros l. pose proof (list_eqb_spec str_eqb str_eqb_eq) as H.
      split; [apply dedup_NoDup, H|]. intros; apply dedup_In, H.
  - split; [auto|]. intros g. cbn. eauto.
Qed.

Lemma st_clock_times r at_ : In (SAppend r at_) st_events -> clock_time at_.
Proof.
  intros H.
  assert (B : In at_ (moments st_events)).
  { revert H. generalize st_events. induction l as [|e l IH]; [intros []|]. intros [->|H]; [left; reflexivity|].
    apply IH in H. destruct e; [right|..]; assumption. }
  clear H. cbn [moments st_events] in B.
  repeat (destruct B as [<-|B]; [split; [apply valid_date_spec; vm_compute; intuition discriminate|vm_compute; intuition discriminate]|]).
  destruct B.
Qed.
Lemma st_ran t k : attempts (world_of (snd (st_run t))) = k -> (k < 100)%nat ->
  stream_ran (read_from (st_log t)) (st_writer t) st_events (fst (st_run t)) (snd (st_run t)).
Proof.
  intros Ek Hk. split; [apply surjective_pairing|]. split; [apply st_clock_times|]. split.
  - rewrite Ek. split; [intros n Hn|intros n m Hn Hm]; cbn [s_clock st_writer m_base st_base]; [|lia].
    change (2 ^ 64)%N with (2 ^ 60 * 16)%N. lia.
  - intros name data H. unfold read_from, st_log. now rewrite H.
Qed.
Lemma st_attempts : attempts (world_of (snd (st_run st_template))) = 6%nat /\
  attempts (world_of (snd (st_run (st_template ++ hour_folders)))) = 6%nat.
Proof. split; vm_compute; reflexivity. Qed.

(** three days *)
Lemma st_days date : within (2024, 2, 28)%Z (2024, 3, 1)%Z date ->
  date = (2024, 2, 28)%Z \/ date = (2024, 2, 29)%Z \/ date = (2024, 3, 1)%Z.
Proof.
  destruct date as [[y m] d]. intros (V & A & B). apply valid_date_spec in V. destruct V as (V1 & V2 & V3).
  unfold date_leb in A, B. rewrite orb_true_iff, !andb_true_iff, orb_true_iff, andb_true_iff, !Z.ltb_lt, !Z.eqb_eq, Z.leb_le in A, B.
  assert (y = 2024)%Z by lia. subst y. assert (Em : (m = 2 \/ m = 3)%Z) by lia. destruct Em as [-> | ->].
  - assert (d = 28 \/ d = 29)%Z as [-> | ->]; auto. change (days_in_month 2024 2) with 29%Z in V3. lia.
  - assert (d = 1)%Z as -> by lia. auto.
Qed.
Lemma st_folders t : NoDup (map fst (st_log t)) -> forall date, within (2024, 2, 28)%Z (2024, 3, 1)%Z date ->
  clean_folder (day_folder st_template date) /\ lists_folder (st_store t) (st_log t) (day_folder st_template date).
Proof.
  intros N date W. split.
  - apply st_days in W as [->|[->| ->]]; intros c H; vm_compute in H;
      repeat (destruct H as [<-|H]; [vm_compute; intuition discriminate|]); destruct H.
  - split; [apply NoDup_filter, N|]. intros m. unfold st_store. apply filter_In.
Qed.
Lemma st_distinct : NoDup (map fst (st_log st_template)) /\ NoDup (map fst (st_log (st_template ++ hour_folders))).
Proof.
  split; vm_compute;
  repeat (constructor; [cbv; intuition discriminate|]); constructor.
Qed.
