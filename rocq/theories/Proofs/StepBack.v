(** The folders read after stepping back some days. *)
From Verif.Base Require Import Py PyFacts.
From Verif.Model Require Import Paths Dates Frames ReadRange Reader.
From Verif.Spec Require Import Paths Dates.
From Verif.Proofs Require Import Paths Dates ReadRange.
Local Open Scope Z_scope.

Lemma days_between a k : 0 <= a - Z.of_nat k ->
  days_before k (ord2ymd (a - Z.of_nat k + 1)) (ord2ymd (a + 1)).
Proof.
  intros H. exists (map (fun i => ord2ymd (i + 1)) (days_from (a - Z.of_nat k) (S k))).
  split; [now apply consecutive_days|]. unfold days_from. split; [now rewrite !map_length, seq_length|]. split.
  - cbn [seq map hd_error]. do 2 f_equal. lia.
  - rewrite seq_S, !map_app. cbn [map]. rewrite last_last. f_equal. lia.
Qed.
Lemma days_back pf store now rnd t y m d hh mm ss y' m' d' hh' mm' ss' k :
  daily_template t -> valid_date y m d -> valid_time hh mm ss -> valid_date y' m' d' -> valid_time hh' mm' ss' ->
  of_fields y m d hh mm ss <= of_fields y' m' d' hh' mm' ss' ->
  Z.of_nat k * 24 * 60 * 60 <= of_fields y m d hh mm ss ->
  exists days a b, days_before k a (y, m, d) /\ days_before k b (y', m', d') /\
    consecutive days /\ hd_error days = Some a /\ last days (0, 0, 0) = b /\
    list_days_back pf store now rnd (template_text t ++ $"/") (of_fields y m d hh mm ss) (of_fields y' m' d' hh' mm' ss') k
    = get_list_of_blobs pf store (map (day_folder t) days).
Proof.
  intros Ht V T V' T' H Hk. apply valid_date_spec in V, V'.
  destruct (of_fields_ord y m d hh mm ss T) as [E1 _]. destruct (of_fields_ord y' m' d' hh' mm' ss' T') as [E2 _].
  set (s := of_fields y m d hh mm ss) in *. set (e := of_fields y' m' d' hh' mm' ss') in *.
  unfold list_days_back, SECONDS_PER_DAY.
  assert (Es : (s - 86400 * Z.of_nat k) / 86400 = s / 86400 - Z.of_nat k).
  { replace (s - 86400 * Z.of_nat k) with (s + - Z.of_nat k * 86400) by lia. rewrite Z.div_add by lia. lia. }
  assert (Ee : (e - 86400 * Z.of_nat k) / 86400 = e / 86400 - Z.of_nat k).
  { replace (e - 86400 * Z.of_nat k) with (e + - Z.of_nat k * 86400) by lia. rewrite Z.div_add by lia. lia. }
  assert (Hs0 : 0 <= s / 86400 - Z.of_nat k).
  { rewrite <- Es. apply Z.div_pos; lia. }
  assert (Hse : s / 86400 <= e / 86400) by (apply Z.div_le_mono; lia).
  destruct (list_range_days pf store now rnd t (s - 86400 * Z.of_nat k) (e - 86400 * Z.of_nat k) Ht) as (A & B & C); [lia|lia|].
  rewrite Es, Ee in *.
  exists (map (fun i => ord2ymd (i + 1)) (days_from (s / 86400 - Z.of_nat k)
            (S (Z.to_nat (e / 86400 - Z.of_nat k - (s / 86400 - Z.of_nat k)))))),
    (ord2ymd (s / 86400 - Z.of_nat k + 1)), (ord2ymd (e / 86400 - Z.of_nat k + 1)).
  assert (Ds : (y, m, d) = ord2ymd (s / 86400 + 1)).
  { rewrite E1. replace (ymd2ord y m d - 1 + 1) with (ymd2ord y m d) by lia. now rewrite ord2ymd_ymd2ord. }
  assert (De : (y', m', d') = ord2ymd (e / 86400 + 1)).
  { rewrite E2. replace (ymd2ord y' m' d' - 1 + 1) with (ymd2ord y' m' d') by lia. now rewrite ord2ymd_ymd2ord. }
  split; [rewrite Ds; now apply days_between|]. split; [rewrite De; apply days_between; lia|].
  split; [exact C|]. split; [|split; [|exact A]].
  - unfold days_from. cbn [seq map hd_error]. do 2 f_equal. lia.
  - unfold days_from. rewrite seq_S, !map_app. cbn [map]. rewrite last_last. f_equal. lia.
Qed.
