(** Proofs: what the texts [parse_iso] accepts have in common. *)
From Verif.Base Require Import Py PyFacts.
From Verif.Model Require Import Dates.
From Verif.Spec Require Import Dates.
From Verif.Proofs Require Import Dates DateText.

Lemma bind_Ok {A B} (r : result A) (f : A -> result B) b : bind r f = Ok b -> exists a, r = Ok a /\ f a = Ok b.
Proof. destruct r; cbn; [eauto|discriminate]. Qed.

Lemma char_in_true v i set : char_in v i set = Ok true -> exists c, nth_error v i = Some c /\ In c set.
Proof.
  intros H. destruct (Nat.lt_ge_cases i (length v)) as [L|L].
  - destruct (nth_error v i) as [x|] eqn:E; [|apply nth_error_None in E; lia].
    rewrite (char_in_at _ _ _ _ E) in H. exists x. split; auto. injection H as H.
    apply existsb_exists in H. destruct H as (y & Hy & E'). apply Ascii.eqb_eq in E'. now subst.
  - exfalso. unfold char_in, py_index in H. destruct (Z.ltb_spec (Z.of_nat i) 0); [lia|]. cbv zeta in H.
    rewrite Nat2Z.id in H. rewrite (proj2 (nth_error_None v i)) in H by lia. destruct (Z.ltb _ _); discriminate H.
Qed.

Lemma make_datetime_inv y m d hh mm ss t : make_datetime y m d hh mm ss = Ok t ->
  valid_date y m d /\ (y <= 9999)%Z /\ valid_time hh mm ss /\ t = of_fields y m d hh mm ss.
Proof.
  unfold make_datetime. match goal with |- (if ?b then _ else _) = _ -> _ => destruct b eqn:E; [|discriminate] end.
  intro H. injection H as <-. rewrite !andb_true_iff, !Z.leb_le in E.
  split; [apply valid_date_spec; repeat split; lia|]. split; [lia|]. split; [repeat split; lia|reflexivity].
Qed.

Definition reads (z : Z) (s : str) : Prop := forall n, number n s -> n = z.
Lemma py_int_reads s z : py_int s = Ok z -> reads z s.
Proof. intros H n (k & U & ->). rewrite (py_int_digits s k U) in H. now injection H. Qed.

Lemma body2_accepts v t : body2 v = Ok (Some t) ->
  (length v = 10 \/ 16 <= length v)%nat /\
  (exists c, nth_error v 4 = Some c /\ In c $"-:") /\ (exists c, nth_error v 7 = Some c /\ In c $"-:") /\
  exists y m d hh mm ss, valid_date y m d /\ (y <= 9999)%Z /\ valid_time hh mm ss /\ t = of_fields y m d hh mm ss /\
    reads y (sub v 0 4) /\ reads m (sub v 5 7) /\ reads d (sub v 8 10) /\
    (length v = 10%nat -> hh = 0 /\ mm = 0 /\ ss = 0)%Z /\
    ((16 <= length v)%nat -> reads hh (sub v 11 13) /\ reads mm (sub v 14 16)).
Proof.
  unfold body2. intro H. apply bind_Ok in H. destruct H as (s4 & E4 & H). apply bind_Ok in H. destruct H as (seps & E7 & H).
  destruct seps; [discriminate|]. destruct s4; cbn [negb] in E7; [|discriminate].
  apply bind_Ok in E7. destruct E7 as (s7 & E7 & X). destruct s7; [clear X|discriminate].
  apply char_in_true in E4. apply char_in_true in E7.
  destruct (Nat.eqb_spec (length v) 10) as [L|L].
  - apply bind_Ok in H. destruct H as (y & Ey & H). apply bind_Ok in H. destruct H as (m & Em & H).
    apply bind_Ok in H. destruct H as (d & Ed & H). apply bind_Ok in H. destruct H as (t' & Et & H).
    injection H as ->. apply make_datetime_inv in Et. destruct Et as (A & B & C & D).
    split; [auto|]. split; [auto|]. split; [auto|]. exists y, m, d, 0%Z, 0%Z, 0%Z.
    do 4 (split; [auto|]). do 3 (split; [apply py_int_reads; auto|]). split; [auto|]. lia.
  - destruct (Nat.leb_spec 16 (length v)) as [L'|L']; [|discriminate].
    split; [auto|]. split; [auto|]. split; [auto|].
    apply bind_Ok in H. destruct H as (s10 & E10 & H). apply bind_Ok in H. destruct H as (ok & Eok & H).
    destruct ok; cbn [negb] in H; [|discriminate]. apply bind_Ok in H. destruct H as (secs & Es & H). destruct secs.
    + apply bind_Ok in H. destruct H as (y & Ey & H). apply bind_Ok in H. destruct H as (m & Em & H).
      apply bind_Ok in H. destruct H as (d & Ed & H). apply bind_Ok in H. destruct H as (hh & Eh & H).
      apply bind_Ok in H. destruct H as (mm & Emm & H). apply bind_Ok in H. destruct H as (ss & Ess & H).
      apply bind_Ok in H. destruct H as (t' & Et & H).
      injection H as ->. apply make_datetime_inv in Et. destruct Et as (A & B & C & D).
      exists y, m, d, hh, mm, ss. do 4 (split; [auto|]). do 3 (split; [apply py_int_reads; auto|]). split; [lia|].
      intros _. split; apply py_int_reads; auto.
    + destruct (Nat.eqb_spec (length v) 16); [|discriminate].
      apply bind_Ok in H. destruct H as (y & Ey & H). apply bind_Ok in H. destruct H as (m & Em & H).
      apply bind_Ok in H. destruct H as (d & Ed & H). apply bind_Ok in H. destruct H as (hh & Eh & H).
      apply bind_Ok in H. destruct H as (mm & Emm & H).
      apply bind_Ok in H. destruct H as (t' & Et & H).
      injection H as ->. apply make_datetime_inv in Et. destruct Et as (A & B & C & D).
      exists y, m, d, hh, mm, 0%Z. do 4 (split; [auto|]). do 3 (split; [apply py_int_reads; auto|]). split; [lia|].
      intros _. split; apply py_int_reads; auto.
Qed.

Lemma dropZ_prefix v : exists b, v = dropZ v ++ b.
Proof.
  unfold dropZ. destruct (rev v) as [|c r] eqn:E; [exists []; now rewrite app_nil_r|].
  assert (V : v = rev r ++ [c]) by (rewrite <- (rev_involutive v), E; reflexivity).
  destruct (Ascii.eqb_spec c "Z"%char) as [->|N]; [exists ["Z"%char]; exact V|].
  exists []. rewrite app_nil_r. destruct c as [[] [] [] [] [] [] [] []]; try reflexivity. congruence.
Qed.
Lemma split_prefix c v : exists b, v = hd [] (split c v) ++ b.
Proof.
  induction v as [|x v (b & IH)]; [exists []; reflexivity|]. cbn [split]. destruct (Ascii.eqb c x) eqn:E.
  - exists (x :: v). reflexivity.
  - destruct (split c v) as [|w ws] eqn:S; [exists v; reflexivity|]. exists b. cbn [hd app] in *. now f_equal.
Qed.

Lemma sub_prefix (w b : str) i j : (j <= length w)%nat -> sub (w ++ b) i j = sub w i j.
Proof.
  intro H. unfold sub. rewrite skipn_app, firstn_app, skipn_length.
  replace (j - i - (length w - i))%nat with 0%nat by lia. cbn [firstn]. apply app_nil_r.
Qed.

Theorem iso_accepts v t : parse_iso v = Ok (Some t) ->
  (10 <= length v <= 33)%nat /\
  (exists c, nth_error v 4 = Some c /\ In c $"-:") /\ (exists c, nth_error v 7 = Some c /\ In c $"-:") /\
  exists y m d hh mm ss, valid_date y m d /\ (y <= 9999)%Z /\ valid_time hh mm ss /\ t = of_fields y m d hh mm ss /\
    (forall z, number z (firstn 4 v) -> z = y) /\ (forall z, number z (firstn 2 (skipn 5 v)) -> z = m) /\
    (forall z, number z (firstn 2 (skipn 8 v)) -> z = d) /\
    (length v = 10%nat -> hh = 0 /\ mm = 0 /\ ss = 0)%Z.
Proof.
  intros H. assert (B : parse_iso_body v = Ok (Some t)).
  { unfold parse_iso in H. destruct (parse_iso_body v) as [o|e]; [exact H|]. destruct e; discriminate H. }
  clear H. destruct (Nat.leb_spec 10 (length v)) as [L1|L1]; [destruct (Nat.leb_spec (length v) 33) as [L2|L2]|].
  2: { unfold parse_iso_body in B. rewrite (proj2 (Nat.leb_gt (length v) 33)) in B by auto. rewrite andb_false_r in B. discriminate. }
  2: { unfold parse_iso_body in B. rewrite (proj2 (Nat.leb_gt 10 (length v))) in B by auto. discriminate. }
  split; [auto|]. rewrite body_eq in B by lia. cbv zeta in B.
  destruct (dropZ_prefix v) as (b1 & E1). destruct (split_prefix "+"%char (dropZ v)) as (b2 & E2).
  destruct (_ && _); [discriminate|]. set (w := hd [] (split "+"%char (dropZ v))) in *. clearbody w.
  assert (E : v = w ++ (b2 ++ b1)) by (rewrite app_assoc, <- E2; exact E1). clear E1 E2.
  destruct (body2_accepts w t B) as (L & (c4 & N4 & I4) & (c7 & N7 & I7) & y & m & d & hh & mm & ss & V1 & V2 & V3 & V4 & Ry & Rm & Rd & Z0 & _).
  assert (LW : (10 <= length w)%nat) by lia.
  split; [exists c4; split; auto; rewrite E, nth_error_app1 by lia; auto|].
  split; [exists c7; split; auto; rewrite E, nth_error_app1 by lia; auto|].
  exists y, m, d, hh, mm, ss. do 4 (split; [auto|]). split; [|split; [|split]].
  - intros z Hz. apply Ry. change (firstn 4 v) with (sub v 0 4) in Hz. rewrite E, sub_prefix in Hz by lia. exact Hz.
  - intros z Hz. apply Rm. change (firstn 2 (skipn 5 v)) with (sub v 5 7) in Hz. rewrite E, sub_prefix in Hz by lia. exact Hz.
  - intros z Hz. apply Rd. change (firstn 2 (skipn 8 v)) with (sub v 8 10) in Hz. rewrite E, sub_prefix in Hz by lia. exact Hz.
  - intros L10. apply Z0. apply (f_equal (@length ascii)) in E. rewrite app_length in E. lia.
Qed.
