(** Concrete cases for the theorems on streams with fields in the names of folders. *)
From Verif.Base Require Import Py PyFacts Value.
From Verif.Model Require Import Paths Dates Frames ReadRange Cursor Storage Writers Stream Adapters Reader Json.
From Verif.Spec Require Import Paths Dates Frames Json Writers Stream Reader StreamRead StreamField StreamLevels.
From Verif.Spec Require Adapters.
From Verif.Spec Require Import System StreamStore.
From Verif.Proofs Require Import Paths Dates ReaderCases StreamReadCases StreamStoreCases StreamFieldCases.

(** data/{key}/v {value}/year_{yyyy}/month_{mm}/day_{dd} *)
Definition lv_levels : list level :=
  [Dated [Lit $"data"]; Valued [] $"key" []; Valued $"v " $"value" [];
   Dated [Lit $"year_"; Year]; Dated [Lit $"month_"; Month]; Dated [Lit $"day_"; Day]].
Definition pair_of (n : Z) (key : str) (values : list str) : value :=
  VDict [($"a", VInt n); ($"key", VStr key); ($"value", match values with [v] => VStr v | _ => VList (map VStr values) end)].
Definition lw (ls : list level) : streaming value str :=
  mkStreaming _ _ (stream_template (levels_template ls)) (fun r => match r with VDict (_ :: _) => true | _ => false end)
    get_texts (fun v => v) (dedup str_eqb) (dedup (list_eqb str_eqb)) 2 60 (fun n => Z.of_nat n) st_base $".jsonl".
Definition lv_events : list (event (R:=value)) :=
  [SAppend (pair_of 1 $"ann" [$"x"]) (mkMoment 2024 2 28 23 59 59); SAppend (VDict []) (mkMoment 2024 2 29 0 0 0); Attend;
   SAppend (pair_of 2 $"bob" [$"x"]) (mkMoment 2024 2 29 0 0 1); SAppend (pair_of 3 $"ann" [$"x"; $"y"]) (mkMoment 2024 2 29 13 0 0);
   Attend; SAppend (pair_of 4 $"ann" [$"y"]) (mkMoment 2024 2 29 13 30 0); SAppend (pair_of 5 $"an-n" [$"y"; $"x"]) (mkMoment 2024 3 1 7 0 0);
   SAppend (pair_of 6 $"ann" [$"x"]) (mkMoment 2024 3 2 7 0 0)].
Definition lv_values (key v : str) (F : str) : str := if str_eqb F $"key" then key else v.
Definition lv_run := srun (lw lv_levels) new_stream (lv_events ++ [SFinalize]).
Definition lv_log := puts (world_of (snd lv_run)).

Lemma lv_settings other : stream_settings loads unz other distinct_keys (fun r => r) (lw lv_levels).
Proof. exact (st_settings other st_template). Qed.
Lemma lv_ok : levels_ok lv_levels.
Proof.
  split; [|cbn; lia].
  assert (FT : forall s, In s [$"data"; []; $"v "; $"year_"; $"month_"; $"day_"] -> folder_text s).
  { intros s H. cbn [In] in H. repeat (destruct H as [<-|H]; [repeat split; simpl; intuition discriminate|]). destruct H. }
  assert (DL : forall t, (forall s, In (Lit s) t -> In s [$"data"; []; $"v "; $"year_"; $"month_"; $"day_"]) -> (exists g, In g t /\ g <> Lit []) -> level_ok (Dated t)).
  { intros t H E. split; [|exact E]. intros s Hs. apply FT. now apply H. }
  assert (VL : forall b F, In b [[]; $"v "] -> In F [$"key"; $"value"] -> level_ok (Valued b F [])).
  { intros b F Hb HF. split; [apply FT; cbn in Hb |- *; tauto|]. split; [apply FT; cbn; tauto|].
    destruct HF as [<-|[<-|[]]]; repeat split; simpl; intuition discriminate. }
  assert (AD : forall t, In t [[Lit $"data"]; [Lit $"year_"; Year]; [Lit $"month_"; Month]; [Lit $"day_"; Day]] -> level_ok (Dated t)).
  { intros t Ht. cbn [In] in Ht. repeat (destruct Ht as [<-|Ht]; [apply DL;
      [intros s H; cbn [In] in H; repeat (destruct H as [H|H]; [try discriminate H; injection H as <-; cbn; tauto|]); destruct H
      |eexists; split; [left; reflexivity|discriminate]]|]). destruct Ht. }
  unfold lv_levels.
  repeat (apply Forall_cons; [first [apply AD; cbn; tauto|apply VL; cbn; tauto]|]). constructor.
Qed.
Lemma lv_names r at_ : In (SAppend r at_) lv_events -> names_folders (lw lv_levels) lv_levels r.
Proof.
  intros H F HF. unfold texts_differ. cbn [m_show lw m_get].
  assert (G : forall l, In l [[$"ann"]; [$"bob"]; [$"an-n"]; [$"x"]; [$"y"]; [$"None"]; [$"x"; $"y"]; [$"y"; $"x"]] ->
    (forall v w, In v l -> In w l -> kept_text v = kept_text w -> v = w) /\ forall v, In v l -> kept_text v <> []).
  { intros l Hl. split.
    - intros v w Hv Hw E. cbn [In] in Hl. repeat (destruct Hl as [<-|Hl]; [cbn [In] in Hv, Hw;
        repeat (destruct Hv as [<-|Hv]; [repeat (destruct Hw as [<-|Hw]; [try reflexivity; vm_compute in E; discriminate E|]); destruct Hw|]); destruct Hv|]).
      destruct Hl.
    - intros v Hv. cbn [In] in Hl. repeat (destruct Hl as [<-|Hl]; [cbn [In] in Hv; repeat (destruct Hv as [<-|Hv]; [discriminate|]); destruct Hv|]).
      destruct Hl. }
  apply G. clear G. cbn [lv_events In] in H. cbn [level_fields lv_levels flat_map app In] in HF.
  repeat (destruct H as [H|H]; [try discriminate H; injection H as <- _; destruct HF as [<-|[<-|[]]]; vm_compute; tauto|]). destruct H.
Qed.
Lemma lv_clock_times r at_ : In (SAppend r at_) lv_events -> clock_time at_.
Proof.
  intros H.
  assert (B : In at_ (moments st_events)).
  { assert (B : In at_ (moments lv_events)).
    { revert H. generalize lv_events. induction l as [|e l IH]; [intros []|]. intros [->|H]; [left; reflexivity|].
      apply IH in H. destruct e; [right|..]; assumption. }
    exact B. }
  clear H. cbn [moments st_events] in B.
  repeat (destruct B as [<-|B]; [split; [apply valid_date_spec; vm_compute; intuition discriminate|vm_compute; intuition discriminate]|]).
  destruct B.
Qed.
Lemma lv_attempts : attempts (world_of (snd lv_run)) = 9%nat.
Proof. vm_compute. reflexivity. Qed.
Lemma lv_good : good_clock (m_base (lw lv_levels)) (attempts (world_of (snd lv_run))).
Proof.
  rewrite lv_attempts. split; [intros n Hn|intros n m Hn Hm]; cbn [s_clock lw m_base st_base]; [|lia].
  change (2 ^ 64)%N with (2 ^ 60 * 16)%N. lia.
Qed.
Lemma lv_values_ok : values_ok lv_levels (lv_values $"ann" $"x").
Proof. intros F [<-|[<-|[]]]; (split; [reflexivity|discriminate]). Qed.
Notation lv_read_template := (levels_of (lv_values $"ann" $"x") lv_levels).
Lemma lv_daily : daily_template lv_read_template.
Proof.
  split; [split|]; [|cbn; intuition (discriminate || auto 20)|cbn; intuition (discriminate || auto)].
  intros x Hx. cbn in Hx. repeat (destruct Hx as [Hx|Hx]; [try discriminate Hx|]); try contradiction;
    injection Hx as <-; split; simpl; intuition discriminate.
Qed.
Lemma lv_chronological : chronological lv_read_template.
Proof.
  exists [Lit $"data"; Lit $"/"; Lit []; Lit $"ann"; Lit []; Lit $"/"; Lit $"v "; Lit $"x"; Lit []; Lit $"/"; Lit $"year_"], [Lit $"/"; Lit $"month_"], [Lit $"/"; Lit $"day_"], [].
  split; [reflexivity|]. repeat split; cbn; intuition (subst; discriminate).
Qed.
Lemma lv_nothing k date : within (2024, 2, 28)%Z (2024, 3, 1)%Z date ->
  clean_folder (day_folder lv_read_template date) /\
  listing k [] (range_hours 0%Z (of_fields 2024 2 28 0 0 0) (of_fields 2024 3 1 12 0 0)) (day_folder lv_read_template date) (ss_before k) = [].
Proof.
  intros W. apply st_days in W as [->|[->| ->]]; (split;
    [intros c H; vm_compute in H; repeat (destruct H as [<-|H]; [vm_compute; intuition discriminate|]); destruct H
    |destruct k; vm_compute; reflexivity]).
Qed.

(** the blobs of the stream, stored by the inner writers of their folders, and read *)
Definition lv_after (k : kind) : result stored :=
  fold_left (ss_commit k st_template) (combine (seq 0 (length lv_log)) lv_log) (Ok (ss_before k)).
Definition lv_read (k : kind) (key v : str) : result (list value) :=
  let* s := lv_after k in
  records_read (read_asked loads unz no_other pass_thru pass_thru_filter (fun _ => 0%Z) (fun _ => Raise ValueError) k 0%Z []
                 (levels_of (lv_values key v) lv_levels) None (of_fields 2024 2 28 0 0 0) (of_fields 2024 3 1 12 0 0) 10 s).
Lemma lv_ann_x k : lv_read k $"ann" $"x" = Ok [pair_of 1 $"ann" [$"x"]; pair_of 3 $"ann" [$"x"; $"y"]; pair_of 5 $"an-n" [$"y"; $"x"]].
Proof. destruct k; vm_compute; reflexivity. Qed.
Lemma lv_ann_y k : lv_read k $"ann" $"y" = Ok [pair_of 3 $"ann" [$"x"; $"y"]; pair_of 4 $"ann" [$"y"]; pair_of 5 $"an-n" [$"y"; $"x"]].
Proof. destruct k; vm_compute; reflexivity. Qed.
Lemma lv_bob_y k : lv_read k $"bob" $"y" = Raise DataNotFoundError.
Proof. destruct k; vm_compute; reflexivity. Qed.

(** a writer killed after five of its blobs; then one which runs to its end, with the records again *)
Definition ls_left : world := mkWorld 5 (firstn 5 lv_log).
Definition ls_second := srun (lw lv_levels) (mkSState [] ls_left 40) (lv_events ++ [SFinalize]).
Definition ls_world : world := world_of (snd ls_second).
Definition ls_sessions : list session := [Killed lv_events (fst lv_run); Finished lv_events (fst ls_second)].
Lemma ls_blobs : length lv_log = 9%nat.
Proof. vm_compute. reflexivity. Qed.
Lemma ls_pairs {A B} (x y : A * B) : x = y -> x = (fst y, snd y).
Proof. intros ->. apply surjective_pairing. Qed.
Lemma killed_then_finished {V} (M : streaming value V) es n k :
  let first := srun M new_stream (es ++ [SFinalize]) in
  let second := srun M (mkSState [] (mkWorld n (firstn n (puts (world_of (snd first))))) k) (es ++ [SFinalize]) in
  (n <= length (puts (world_of (snd first))))%nat ->
  sessions_ran M (mkWorld 0 []) [Killed es (fst first); Finished es (fst second)] (world_of (snd second)).
Proof.
  intros first second L. refine (killed _ _ 0 _ _ (snd first) n _ _ (ls_pairs _ first eq_refl) _ _).
  - cbn [puts length]. lia.
  - exact (finished _ _ k _ _ (snd second) _ _ (ls_pairs _ second eq_refl) (no_session _ _)).
Qed.
Lemma ls_ran : sessions_ran (lw lv_levels) (mkWorld 0 []) ls_sessions ls_world.
Proof.
  assert (L : (5 <= length lv_log)%nat) by (rewrite ls_blobs; repeat constructor).
  exact (killed_then_finished (lw lv_levels) lv_events 5 40 L).
Qed.
Lemma ls_asked (r : value) at_ : In (SAppend r at_) (flat_map asked_of ls_sessions) -> In (SAppend r at_) lv_events.
Proof. intros H. apply in_flat_map in H as (x & [<-|[<-|[]]] & H); exact H. Qed.
Lemma ls_good_clock : good_clock (m_base (lw lv_levels)) (attempts ls_world).
Proof.
  assert (E : attempts ls_world = 14%nat) by (vm_compute; reflexivity). rewrite E.
  split; [intros n Hn|intros n m Hn Hm]; cbn [s_clock lw m_base st_base]; [|lia].
  change (2 ^ 64)%N with (2 ^ 60 * 16)%N. lia.
Qed.
Definition ls_after (k : kind) : result stored :=
  fold_left (ss_commit k st_template) (combine (seq 0 (length (puts ls_world))) (puts ls_world)) (Ok (ss_before k)).
Definition ls_read (k : kind) (key v : str) : result (list value) :=
  let* s := ls_after k in
  records_read (read_asked loads unz no_other pass_thru pass_thru_filter (fun _ => 0%Z) (fun _ => Raise ValueError) k 0%Z []
                 (levels_of (lv_values key v) lv_levels) None (of_fields 2024 2 28 0 0 0) (of_fields 2024 3 1 12 0 0) 10 s).
Lemma ls_ann_x k : ls_read k $"ann" $"x" = Ok [pair_of 1 $"ann" [$"x"]; pair_of 1 $"ann" [$"x"]; pair_of 3 $"ann" [$"x"; $"y"]; pair_of 3 $"ann" [$"x"; $"y"]; pair_of 5 $"an-n" [$"y"; $"x"]].
Proof. destruct k; vm_compute; reflexivity. Qed.
