(** Ranges between bounds of all kinds. *)
From Coq Require Import Sorted.
From Verif.Base Require Import Py PyFacts.
From Verif.Model Require Import Paths Dates ReadRange.
From Verif.Spec Require Import Paths Dates DateRange.
From Verif.Proofs Require Import Dates DateText.
Local Open Scope Z_scope.

Lemma seconds_text sep y m d hh mm ss : valid_date y m d -> y <= 9999 -> valid_time hh mm ss -> In sep $"T " ->
  parse_iso (iso_seconds sep y m d hh mm ss) = Ok (Some (of_fields y m d hh mm ss)).
Proof.
  intros V Y T S. pose proof (iso_seconds_ok y m d hh mm ss sep [] [] V Y T S) as H. rewrite !app_nil_r in H.
  apply H; simpl; auto; try lia. left; auto.
Qed.
Lemma dec_pad_len w n : (n < 10 ^ N.of_nat w)%N -> (w <> 0)%nat -> length (dec_pad w n) = w.
Proof.
  intros H Hw. unfold dec_pad, pad_left. rewrite app_length, repeat_length.
  pose proof (dec_length_bound n w). lia.
Qed.
Lemma valid_small y m d : valid_date y m d -> 1 <= m <= 12 /\ 1 <= d <= 31.
Proof.
  intros (Hy & n & Hm & Hd). unfold month_length in Hm. simpl in Hm. intuition; lia.
Qed.
Lemma iso_date_length y m d : valid_date y m d -> y <= 9999 -> length (iso_date y m d) = 10%nat.
Proof.
  intros V Y. pose proof (valid_small y m d V). destruct V as [Hy _]. unfold iso_date. rewrite !app_length.
  rewrite !dec_pad_len by (try discriminate; cbn; lia). reflexivity.
Qed.
Lemma time_length sep y m d hh mm ss : valid_date y m d -> y <= 9999 -> valid_time hh mm ss ->
  length (iso_seconds sep y m d hh mm ss) = 19%nat.
Proof.
  intros V Y (T1 & T2 & T3). unfold iso_seconds, iso_minutes. rewrite !app_length, iso_date_length by auto.
  rewrite !dec_pad_len by (try discriminate; cbn; lia). reflexivity.
Qed.

Lemma starts_parse now b s : starts now b s -> parse_bound now b = Ok s.
Proof.
  intros []; cbn [parse_bound]; auto.
  - rewrite iso_date_ok by auto. reflexivity.
  - rewrite seconds_text by auto. reflexivity.
Qed.
Lemma hour_23 y m d he : hour_of (of_fields y m d 23 59 59) he -> hour_of (of_fields y m d 23 0 0) he.
Proof.
  unfold hour_of, full_hour, of_fields. generalize (ymd2ord y m d). intros D [H1 H2].
  pose proof (Z.div_mod he 3600). lia.
Qed.
Lemma ends_parse now b e he : ends now b e -> hour_of e he ->
  exists e', parse_bound now (full_day b) = Ok e' /\ hour_of e' he.
Proof.
  intros E0 H. destruct E0 as [y m d V|y m d V Y|sep y m d hh mm ss V Y T S|t|]; cbn [full_day parse_bound].
  - exists (of_fields y m d 23 59 59). auto.
  - rewrite iso_date_length by auto. cbn [Nat.eqb]. cbn [parse_bound]. exists (of_fields y m d 23 0 0). split; [|apply hour_23, H].
    assert (E : iso_date y m d ++ $"T23:00:00" = iso_seconds "T" y m d 23 0 0).
    { unfold iso_seconds, iso_minutes. rewrite <- !app_assoc. reflexivity. }
    rewrite E. rewrite seconds_text; [reflexivity|auto|auto|unfold valid_time; lia|simpl; auto].
  - rewrite time_length by auto. cbn [Nat.eqb parse_bound]. rewrite seconds_text by auto. exists (of_fields y m d hh mm ss). auto.
  - exists t. auto.
  - exists now. auto.
Qed.
Lemma range_between_bounds now b1 b2 s e hs he : starts now b1 s -> ends now b2 e -> hour_of s hs -> hour_of e he ->
  (he < hs -> date_range now b1 b2 = Raise ValueError) /\
  (hs <= he -> exists l, date_range now b1 b2 = Ok l /\ StronglySorted Z.lt l /\
     forall x, In x l <-> full_hour x /\ hs <= x <= he).
Proof.
  intros Hs He H1 H2. apply starts_parse in Hs. destruct (ends_parse now b2 e he He H2) as (e' & E & H').
  eapply date_range_spec; eauto.
Qed.
Lemma reader_dates_ordered today b1 b2 s e : starts today b1 s -> starts today b2 e ->
  reader_dates today b1 b2 = Ok (Z.min s e, Z.max s e).
Proof.
  assert (H : forall b x, starts today b x -> exists o, parse_date_arg b = Ok o /\ match o with Some t => t | None => today end = x).
  { intros b x []; cbn [parse_date_arg].
    - eexists; split; reflexivity.
    - rewrite iso_date_ok by auto. eexists; split; reflexivity.
    - rewrite seconds_text by auto. eexists; split; reflexivity.
    - eexists; split; reflexivity.
    - eexists; split; reflexivity. }
  intros H1 H2. unfold reader_dates. destruct (H _ _ H1) as (o1 & -> & <-). destruct (H _ _ H2) as (o2 & -> & <-). reflexivity.
Qed.
