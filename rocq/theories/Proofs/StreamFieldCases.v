(** Concrete cases for the theorems on streams partitioned by a field. *)
From Coq Require Import Sorted.
From Verif.Base Require Import Py PyFacts Value.
From Verif.Model Require Import Paths Dates Frames ReadRange Cursor Storage Writers Stream Reader Json.
From Verif.Spec Require Import Paths Dates Frames Json Writers Stream Reader StreamRead StreamField.
From Verif.Proofs Require Import Paths Dates ReaderCases StreamReadCases.
From Verif.Proofs Require RoundTrip.

(** records of users; a record of several users has a list of them *)
Definition one (F : str) (n : Z) (user : str) : value := VDict [($"a", VInt n); (F, VStr user)].
Definition both (F : str) (n : Z) (users : list str) : value := VDict [($"a", VInt n); (F, VList (map VStr users))].
Definition texts_of (v : value) : list str :=
  match v with VStr s => [s] | VList l => flat_map (fun x => match x with VStr s => [s] | _ => [] end) l | _ => [$"None"] end.
Definition get_texts (r : value) (n : str) : list str :=
  match r with
  | VDict kvs => match find (fun kv => str_eqb (fst kv) n) kvs with Some (_, v) => texts_of v | None => [$"None"] end
  | _ => [$"None"]
  end.
Definition fw (F : str) : streaming value str :=
  mkStreaming _ _ (stream_template (field_template st_template F)) (fun r => match r with VDict (_ :: _) => true | _ => false end)
    get_texts (fun v => v) (dedup str_eqb) (dedup (list_eqb str_eqb)) 2 60 (fun n => Z.of_nat n) st_base $".jsonl".
Definition f_events (F : str) (x y : str) : list (event (R:=value)) :=
  [SAppend (one F 1 x) (mkMoment 2024 2 28 23 59 59); SAppend (VDict []) (mkMoment 2024 2 29 0 0 0); Attend;
   SAppend (one F 2 y) (mkMoment 2024 2 29 0 0 1); SAppend (both F 3 [x; y]) (mkMoment 2024 2 29 13 0 0);
   Attend; SAppend (one F 4 x) (mkMoment 2024 2 29 13 30 0); SAppend (one F 5 y) (mkMoment 2024 3 1 7 0 0);
   SAppend (one F 6 x) (mkMoment 2024 3 2 7 0 0)].
Definition f_run F x y := srun (fw F) new_stream (f_events F x y ++ [SFinalize]).
Definition f_log F x y := puts (world_of (snd (f_run F x y))).
Definition f_store F x y (p : str) : list str := filter (startswith (p ++ $"/")) (map fst (f_log F x y)).
Definition f_read F x y (pf : option (str * str * str)) (fin : datetime) : option (list value) :=
  match read_records (fun _ => 0%Z) (fun _ => Raise ValueError)
    (fun _ => list_range pf (f_store F x y) 0%Z [] (template_text st_template ++ $"/") (of_fields 2024 2 28 0 0 0) fin)
    0 (blob_records loads unz no_other (read_from (f_log F x y)) pass_thru pass_thru_filter None) NoCursor 10
  with Ok (rs, _) => Some rs | Raise _ => None end.

Lemma f_settings other F : stream_settings loads unz other distinct_keys (fun r => r) (fw F).
Proof. exact (st_settings other st_template). Qed.
Lemma f_name : field_name $"user".
Proof.
  split; [reflexivity|]. split; [simpl; intuition discriminate|]. split; [simpl; intuition discriminate|reflexivity].
Qed.
Lemma f_differ r at_ : In (SAppend r at_) (f_events $"user" $"ann" $"bob b") -> texts_differ (fw $"user") $"user" r.
Proof.
  intros H. unfold texts_differ. cbn [m_show fw].
  assert (G : forall l, In l [[$"ann"]; [$"bob b"]; [$"None"]; [$"ann"; $"bob b"]] ->
    forall v w, In v l -> In w l -> kept_text v = kept_text w -> v = w).
  { intros l Hl v w Hv Hw E. cbn [In] in Hl. destruct Hl as [<-|[<-|[<-|[<-|[]]]]]; cbn [In] in Hv, Hw.
    1-3: destruct Hv as [<-|[]], Hw as [<-|[]]; reflexivity.
    destruct Hv as [<-|[<-|[]]], Hw as [<-|[<-|[]]]; try reflexivity; vm_compute in E; discriminate E. }
  apply G. clear G. cbn [f_events In] in H.
  repeat (destruct H as [H|H]; [try discriminate H; injection H as <- _; vm_compute; tauto|]). destruct H.
Qed.
Lemma f_clock_times F x y r at_ : In (SAppend r at_) (f_events F x y) -> clock_time at_.
Proof.
  intros H.
  assert (B : In at_ (moments st_events)).
  { assert (B : In at_ (moments (f_events F x y))).
    { revert H. generalize (f_events F x y). induction l as [|e l IH]; [intros []|]. intros [->|H]; [left; reflexivity|].
      apply IH in H. destruct e; [right|..]; assumption. }
    exact B. }
  clear H. cbn [moments st_events] in B.
  repeat (destruct B as [<-|B]; [split; [apply valid_date_spec; vm_compute; intuition discriminate|vm_compute; intuition discriminate]|]).
  destruct B.
Qed.
Lemma f_ran_of F x y k : attempts (world_of (snd (f_run F x y))) = k -> (k < 100)%nat ->
  stream_ran (read_from (f_log F x y)) (fw F) (f_events F x y) (fst (f_run F x y)) (snd (f_run F x y)).
Proof.
  intros Ek Hk. unfold stream_ran. 
  assert (E : f_run F x y = (fst (f_run F x y), snd (f_run F x y))) by apply surjective_pairing.
  assert (E' : f_run F x y = srun (fw F) new_stream (f_events F x y ++ [SFinalize])) by reflexivity.
  rewrite <- E'.
  split; [exact E|]. clear E E'. split; [intros r at_; apply f_clock_times|]. split.
  - rewrite Ek. split; [intros n Hn|intros n m Hn Hm]; cbn [s_clock fw m_base st_base]; [|lia].
    change (2 ^ 64)%N with (2 ^ 60 * 16)%N. lia.
  - intros name data H. unfold read_from, f_log. now rewrite H.
Qed.
Lemma f_ran : stream_ran (read_from (f_log $"user" $"ann" $"bob b")) (fw $"user") (f_events $"user" $"ann" $"bob b")
  (fst (f_run $"user" $"ann" $"bob b")) (snd (f_run $"user" $"ann" $"bob b")).
Proof.
  assert (A : attempts (world_of (snd (f_run $"user" $"ann" $"bob b"))) = 8%nat) by (vm_compute; reflexivity).
  exact (f_ran_of _ _ _ _ A ltac:(repeat constructor)).
Qed.
Lemma f_folders date : within (2024, 2, 28)%Z (2024, 3, 1)%Z date ->
  clean_folder (day_folder st_template date) /\ lists_folder (f_store $"user" $"ann" $"bob b") (f_log $"user" $"ann" $"bob b") (day_folder st_template date).
Proof.
  intros W. split.
  - apply st_days in W as [->|[->| ->]]; intros c H; vm_compute in H;
      repeat (destruct H as [<-|H]; [vm_compute; intuition discriminate|]); destruct H.
  - split; [apply NoDup_filter; vm_compute; repeat (constructor; [cbv; intuition discriminate|]); constructor|].
    intros m. unfold f_store. apply filter_In.
Qed.
Lemma f_texts date r x : within (2024, 2, 28)%Z (2024, 3, 1)%Z date ->
  In r (accepted_on (fw $"user") (on_day date) (f_events $"user" $"ann" $"bob b") (fst (f_run $"user" $"ann" $"bob b"))) ->
  has_text (fw $"user") $"user" x r = true -> contains $"BACKOUT" x = false -> In x [$"ann"; $"bob b"].
Proof.
  intros W H T _. unfold has_text in T. apply existsb_exists in T as (v & Hv & E). apply str_eqb_eq in E. subst x.
  apply st_days in W as [->|[->| ->]]; vm_compute in H;
    repeat (destruct H as [<-|H]; [vm_compute in Hv; repeat (destruct Hv as [<-|Hv]; [vm_compute; tauto|]); destruct Hv|]); destruct H.
Qed.
Lemma f_valid x : In x [$"ann"; $"bob b"] -> (forall a, In a x -> is_alpha a || is_digit a || is_space a = true) /\ contains $"BACKOUT" x = false.
Proof.
  intros Hx. cbn [In] in Hx. destruct Hx as [<-|[<-|[]]];
    (split; [|reflexivity]; intros a Ha; cbn in Ha; repeat (destruct Ha as [<-|Ha]; [reflexivity|]); destruct Ha).
Qed.

(** ** What goes wrong *)
Definition f_reading F x y pf fin :=
  read_records (fun _ => 0%Z) (fun _ => Raise ValueError)
    (fun _ => list_range pf (f_store F x y) 0%Z [] (template_text st_template ++ $"/") (of_fields 2024 2 28 0 0 0) fin)
    0 (blob_records loads unz no_other (read_from (f_log F x y)) pass_thru pass_thru_filter None) NoCursor 10.
Lemma backout_value : exists (M : streaming value str) es os s v r,
    (forall other, stream_settings loads unz other distinct_keys (fun r => r) M) /\ stream_ran (read_from (puts (world_of s))) M es os s /\
    m_template M = stream_template (field_template st_template $"user") /\
    In r (accepted_on M (on_day (2024, 2, 28)%Z) es os) /\ has_text M $"user" (kept_text v) r = true /\
    read_records (fun _ => 0%Z) (fun _ => Raise ValueError)
      (fun _ => list_range (Some ($"user", $"=", v)) (fun q => filter (startswith (q ++ $"/")) (map fst (puts (world_of s)))) 0%Z []
         (template_text st_template ++ $"/") (of_fields 2024 2 28 0 0 0) (of_fields 2024 2 28 23 0 0))
      0 (blob_records loads unz no_other (read_from (puts (world_of s))) pass_thru pass_thru_filter None) NoCursor 10
    = Raise DataNotFoundError.
Proof.
  exists (fw $"user"), (f_events $"user" $"BACKOUT" $"bob"), (fst (f_run $"user" $"BACKOUT" $"bob")), (snd (f_run $"user" $"BACKOUT" $"bob")), $"BACKOUT", (one $"user" 1 $"BACKOUT").
  split; [intros other; apply f_settings|]. split.
  { assert (A : attempts (world_of (snd (f_run $"user" $"BACKOUT" $"bob"))) = 8%nat) by (vm_compute; reflexivity).
    exact (f_ran_of _ _ _ _ A ltac:(repeat constructor)). }
  split; [reflexivity|]. split; [vm_compute; tauto|]. split; [reflexivity|]. vm_compute. reflexivity.
Qed.
Lemma underscore_field : exists (M : streaming value str) es os s r rs cursor,
    (forall other, stream_settings loads unz other distinct_keys (fun r => r) M) /\ stream_ran (read_from (puts (world_of s))) M es os s /\
    m_template M = stream_template (field_template st_template $"user_id") /\
    m_get M r $"user_id" = [$"bob"] /\ In r rs /\
    read_records (fun _ => 0%Z) (fun _ => Raise ValueError)
      (fun _ => list_range (Some ($"user_id", $"=", $"ann")) (fun q => filter (startswith (q ++ $"/")) (map fst (puts (world_of s)))) 0%Z []
         (template_text st_template ++ $"/") (of_fields 2024 2 28 0 0 0) (of_fields 2024 2 29 23 0 0))
      0 (blob_records loads unz no_other (read_from (puts (world_of s))) pass_thru pass_thru_filter None) NoCursor 10
    = Ok (rs, cursor).
Proof.
  destruct (f_reading $"user_id" $"ann" $"bob" (Some ($"user_id", $"=", $"ann")) (of_fields 2024 2 29 23 0 0)) as [[rs cursor]|] eqn:E;
    [|exfalso; vm_compute in E; discriminate].
  exists (fw $"user_id"), (f_events $"user_id" $"ann" $"bob"), (fst (f_run $"user_id" $"ann" $"bob")), (snd (f_run $"user_id" $"ann" $"bob")), (one $"user_id" 2 $"bob"), rs, cursor.
  split; [intros other; apply f_settings|]. split.
  { assert (A : attempts (world_of (snd (f_run $"user_id" $"ann" $"bob"))) = 8%nat) by (vm_compute; reflexivity).
    exact (f_ran_of _ _ _ _ A ltac:(repeat constructor)). }
  split; [reflexivity|]. split; [reflexivity|]. split; [|exact E].
  vm_compute in E. injection E as <- _. cbn [In]. tauto.
Qed.
Lemma shared_folder : exists (M : streaming value str) es os s r rs cursor,
    (forall other, stream_settings loads unz other distinct_keys (fun r => r) M) /\ stream_ran (read_from (puts (world_of s))) M es os s /\
    m_template M = stream_template (field_template st_template $"user") /\
    m_get M r $"user" = [$"a1"] /\ In r rs /\
    read_records (fun _ => 0%Z) (fun _ => Raise ValueError)
      (fun _ => list_range (Some ($"user", $"=", $"a-1")) (fun q => filter (startswith (q ++ $"/")) (map fst (puts (world_of s)))) 0%Z []
         (template_text st_template ++ $"/") (of_fields 2024 2 28 0 0 0) (of_fields 2024 2 29 23 0 0))
      0 (blob_records loads unz no_other (read_from (puts (world_of s))) pass_thru pass_thru_filter None) NoCursor 10
    = Ok (rs, cursor).
Proof.
  destruct (f_reading $"user" $"a-1" $"a1" (Some ($"user", $"=", $"a-1")) (of_fields 2024 2 29 23 0 0)) as [[rs cursor]|] eqn:E;
    [|exfalso; vm_compute in E; discriminate].
  exists (fw $"user"), (f_events $"user" $"a-1" $"a1"), (fst (f_run $"user" $"a-1" $"a1")), (snd (f_run $"user" $"a-1" $"a1")), (one $"user" 2 $"a1"), rs, cursor.
  split; [intros other; apply f_settings|]. split.
  { assert (A : attempts (world_of (snd (f_run $"user" $"a-1" $"a1"))) = 7%nat) by (vm_compute; reflexivity).
    exact (f_ran_of _ _ _ _ A ltac:(repeat constructor)). }
  split; [reflexivity|]. split; [reflexivity|]. split; [|exact E].
  vm_compute in E. injection E as <- _. cbn [In]. tauto.
Qed.

(** ** Records with several values of one folder *)
Definition f_times (F : str) (x : str) (r : value) : nat :=
  length (dedup str_eqb (filter (fun v => str_eqb (kept_text v) x) (get_texts r F))).
Lemma f_members F x r : members_with (fw F) F x r (f_times F x r).
Proof.
  exists (dedup str_eqb (filter (fun v => str_eqb (kept_text v) x) (get_texts r F))).
  split; [apply (dedup_NoDup str_eqb str_eqb_eq)|]. split; [|reflexivity].
  intros v. rewrite (dedup_In str_eqb str_eqb_eq), filter_In, str_eqb_eq. reflexivity.
Qed.
Lemma f_ran_shared : stream_ran (read_from (f_log $"user" $"a-1" $"a1")) (fw $"user") (f_events $"user" $"a-1" $"a1")
  (fst (f_run $"user" $"a-1" $"a1")) (snd (f_run $"user" $"a-1" $"a1")).
Proof.
  assert (A : attempts (world_of (snd (f_run $"user" $"a-1" $"a1"))) = 7%nat) by (vm_compute; reflexivity).
  exact (f_ran_of _ _ _ _ A ltac:(repeat constructor)).
Qed.
