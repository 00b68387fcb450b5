(** Lemmas about the functions of dates and numbers. *)
From Verif.Base Require Import Py PyFacts.
From Verif.Model Require Import Paths Dates DateFunctions.
From Verif.Spec Require Import Dates DateFunctions.
From Verif.Proofs Require Dates DateText.
Local Open Scope Z_scope.

Definition ord (a : date) : Z := let '(y, m, d) := a in ymd2ord y m d.
Definition vd3 (a : date) : Prop := let '(y, m, d) := a in Dates.vd y m d.

(** ** Reading *)
Lemma reads a t s : written a t s ->
  is_date a /\ is_time t /\ parse_iso s = Ok (Some ((ord a - 1) * 86400 + seconds t)).
Proof.
  destruct 1.
  - split; auto. split; [repeat split; lia|]. destruct H. rewrite DateText.iso_date_ok by auto.
    unfold of_fields, ord, seconds. do 2 f_equal. lia.
  - split; auto. split; auto. destruct H. rewrite DateText.iso_minutes_ok by auto. unfold of_fields, ord, seconds. do 2 f_equal. lia.
  - split; auto. split; auto. destruct H. rewrite DateText.iso_seconds_ok by auto. unfold of_fields, ord, seconds. do 2 f_equal. lia.
Qed.
Lemma is_date_vd a : is_date a -> vd3 a.
Proof. destruct a as [[y m] d]. intros [V _]. now apply Dates.valid_date_spec. Qed.
Lemma seconds_bound t : is_time t -> 0 <= seconds t < 86400.
Proof. destruct t as [[hh mm] ss]. intros (H1 & H2 & H3). unfold seconds. lia. Qed.
Lemma day_part o s : 0 <= s < 86400 -> ((o - 1) * 86400 + s) / 86400 + 1 = o /\ ((o - 1) * 86400 + s) mod 86400 = s.
Proof. intros H. pose proof (Z.div_mod ((o - 1) * 86400 + s) 86400). pose proof (Z.mod_pos_bound ((o - 1) * 86400 + s) 86400). lia. Qed.
Lemma day_of_written o s : 0 <= s < 86400 -> day_of ((o - 1) * 86400 + s) = ord2ymd o.
Proof. intros H. unfold day_of. now rewrite (proj1 (day_part o s H)). Qed.
Lemma ord_back a : vd3 a -> ord2ymd (ord a) = a.
Proof. destruct a as [[y m] d]. apply Dates.ord2ymd_ymd2ord. Qed.
Lemma ord_of n : 1 <= n -> vd3 (ord2ymd n) /\ ord (ord2ymd n) = n.
Proof. intros H. pose proof (Dates.ord2ymd_spec n H). destruct (ord2ymd n) as [[y m] d]. exact H0. Qed.
Lemma ord_pos a : vd3 a -> 1 <= ord a.
Proof.
  destruct a as [[y m] d]. intros V. pose proof (Dates.day_of_year _ _ _ V). destruct V as (Hy & _).
  pose proof (Dates.dby_mono 1 y). unfold ord, ymd2ord. change (days_before_year 1) with 0 in *. lia.
Qed.
Lemma ord_inj a b : vd3 a -> vd3 b -> ord a = ord b -> a = b.
Proof. intros Ha Hb E. rewrite <- (ord_back a Ha), <- (ord_back b Hb). now rewrite E. Qed.

Lemma date_part_written part a t s : written a t s -> date_part part (CText s) = Ok (CInt (part a)).
Proof.
  intros H. destruct (reads _ _ _ H) as (V & T & E). unfold date_part, read_date. rewrite E. cbn [bind].
  rewrite day_of_written by (apply seconds_bound; auto). rewrite ord_back; auto. now apply is_date_vd.
Qed.
Lemma time_part_written part a t s : written a t s -> time_part part (CText s) = Ok (part ((ord a - 1) * 86400 + seconds t)).
Proof. intros H. destruct (reads _ _ _ H) as (V & T & E). unfold time_part, read_date. now rewrite E. Qed.
Lemma hms o hh mm ss : is_time (hh, mm, ss) ->
  let t := (o - 1) * 86400 + seconds (hh, mm, ss) in hour t = hh /\ minute t = mm /\ second t = ss.
Proof.
  intros H. pose proof (seconds_bound _ H) as B. destruct H as (H1 & H2 & H3). cbv zeta.
  unfold hour, minute, second. rewrite (proj2 (day_part o _ B)). unfold seconds in *.
  set (x := (o - 1)). clearbody x. repeat split.
  - symmetry. apply (Z.div_unique _ _ _ (mm * 60 + ss)); lia.
  - replace ((x * 86400 + (hh * 3600 + mm * 60 + ss)) mod 3600) with (mm * 60 + ss);
      [|apply (Z.mod_unique _ _ (x * 24 + hh)); lia]. symmetry. apply (Z.div_unique _ _ _ ss); lia.
  - symmetry. apply (Z.mod_unique _ _ (x * 1440 + hh * 60 + mm)); lia.
Qed.

Lemma parts_written y m d hh mm ss s : written (y, m, d) (hh, mm, ss) s ->
  get_year (CText s) = Ok (CInt y) /\ get_month (CText s) = Ok (CInt m) /\ get_day (CText s) = Ok (CInt d) /\
  get_hour (CText s) = Ok (CInt hh) /\ get_minute (CText s) = Ok (CInt mm) /\ get_second (CText s) = Ok (CInt ss) /\
  get_date (CText s) = Ok (CDate y m d) /\ get_time (CText s) = Ok (CTime hh mm ss).
Proof.
  intros H. destruct (reads _ _ _ H) as (V & T & _).
  destruct (hms (ord (y, m, d)) hh mm ss T) as (E1 & E2 & E3).
  unfold get_year, get_month, get_day, get_hour, get_minute, get_second, get_date, get_time.
  rewrite !(date_part_written _ _ _ _ H), !(time_part_written _ _ _ _ H), E1, E2, E3.
  rewrite day_of_written by (apply seconds_bound; auto). rewrite ord_back by (now apply is_date_vd). repeat split.
Qed.
Lemma quarter_written y m d t s : written (y, m, d) t s -> exists q, get_quarter (CText s) = Ok (CInt q) /\ quarter m q.
Proof.
  intros H. destruct (reads _ _ _ H) as (V & _ & _). apply is_date_vd in V. destruct V as (_ & Hm & _).
  unfold get_quarter. rewrite (date_part_written _ _ _ _ H). eexists. split; [reflexivity|].
  unfold quarter. destruct (Dates.month_cases m Hm) as [->|[->|[->|[->|[->|[->|[->|[->|[->|[->|[->| ->]]]]]]]]]]]; cbn; intuition.
Qed.

(** ** Not a date *)
Lemma parts_other c : (c = CNull \/ (exists z, c = CInt z) \/ (exists s, c = CText s /\ parse_iso s = Ok None)) ->
  (forall part, date_part part c = Ok CNull) /\ (forall part, time_part part c = Ok CNull) /\
  (forall n, add_days c n = Ok CNull).
Proof.
  intros [->|[(z & ->)|(s & -> & E)]]; repeat split; intros;
    unfold date_part, time_part, add_days, read_date; try rewrite E; reflexivity.
Qed.

(** ** Counting days *)
Lemma next_ord a b : vd3 a -> next_day a b -> vd3 b /\ ord b = ord a + 1.
Proof.
  intros V N. pose proof (ord_pos a V) as Hp. destruct N as [y m d Hv|y m d Hm L|y].
  - apply Dates.valid_date_spec in Hv. split; [exact Hv|]. unfold ord, ymd2ord. lia.
  - destruct V as (Hy & Hm' & Hd). apply Dates.month_length_spec in Hm. destruct Hm as [_ Hm]. split.
    + repeat split; try lia. pose proof (Dates.dim_bounds y (m + 1)). lia.
    + unfold ord, ymd2ord. rewrite Dates.dbm_succ by lia. lia.
  - destruct V as (Hy & _). split.
    + repeat split; try lia. pose proof (Dates.dim_bounds (y + 1) 1). lia.
    + unfold ord, ymd2ord. rewrite Dates.dby_succ. pose proof (Dates.dbm_year y) as Y.
      change (days_in_month y 12) with 31 in Y. change (days_before_month (y + 1) 1) with 0. lia.
Qed.
Lemma later_ord n a b : vd3 a -> days_later n a b -> vd3 b /\ ord b = ord a + Z.of_nat n.
Proof.
  intros V H. induction H as [a|n a b c H IH N]; [split; [auto|lia]|].
  destruct (IH V) as [Vb Eb]. destruct (next_ord _ _ Vb N) as [Vc Ec]. split; [auto|lia].
Qed.
Lemma ord_later n : forall a b, vd3 a -> vd3 b -> ord b = ord a + Z.of_nat n -> days_later n a b.
Proof.
  induction n as [|n IH]; intros a b Va Vb E.
  - assert (a = b) as -> by (apply ord_inj; auto; lia). constructor.
  - pose proof (ord_pos a Va). destruct (ord_of (ord b - 1)) as [Vp Ep]; [lia|].
    apply (one_later n a (ord2ymd (ord b - 1))).
    + apply IH; auto. lia.
    + rewrite <- (ord_back b Vb) at 2. replace (ord b) with (ord b - 1 + 1) at 2 by lia.
      destruct (ord2ymd (ord b - 1)) as [[y m] d] eqn:Eo. apply Dates.ord_next; auto. lia.
Qed.
Lemma apart_ord n a b : vd3 a -> vd3 b -> (days_apart n a b <-> ord b = ord a + n).
Proof.
  intros Va Vb. split.
  - intros [[Hn H]|[Hn H]]; apply later_ord in H; auto; destruct H; lia.
  - intros E. destruct (Z.le_gt_cases 0 n); [left|right]; split; auto; apply ord_later; auto; lia.
Qed.

(** ** Adding and subtracting *)
Lemma max_ord y m d : is_date (y, m, d) -> ord (y, m, d) <= max_ordinal.
Proof.
  intros V. pose proof (is_date_vd _ V) as V'. destruct V as [_ Hy].
  pose proof (Dates.day_of_year _ _ _ V') as D. unfold ord, ymd2ord, max_ordinal.
  assert (days_before_year y + 365 + Dates.b2z (is_leap y) <= 3652059).
  { rewrite <- Dates.dby_succ. destruct V' as (H1 & _). pose proof (Dates.dby_mono (y + 1) 10000).
    change (days_before_year 10000) with 3652059 in *. lia. }
  lia.
Qed.
Lemma ord_year a : vd3 a -> ord a <= max_ordinal -> is_date a.
Proof.
  destruct a as [[y m] d]. intros V H. split; [now apply Dates.valid_date_spec|].
  destruct (Z.le_gt_cases y 9999); auto. exfalso. pose proof (Dates.day_of_year _ _ _ V).
  pose proof (Dates.dby_mono 10000 y). change (days_before_year 10000) with 3652059 in *. unfold ord, ymd2ord, max_ordinal in H. lia.
Qed.
Lemma add_days_spec a t s n : written a t s ->
  (forall b, is_date b -> days_apart n a b -> add_days (CText s) (CInt n) = Ok (CMoment ((ord b - 1) * 86400 + seconds t))) /\
  ((~ exists b, is_date b /\ days_apart n a b) -> add_days (CText s) (CInt n) = Raise OverflowError).
Proof.
  intros H. destruct (reads _ _ _ H) as (V & T & E). pose proof (is_date_vd _ V) as Va. pose proof (ord_pos _ Va) as Pa.
  assert (Ma: ord a <= max_ordinal) by (destruct a as [[y m] d]; now apply max_ord).
  destruct (day_part (ord a) _ (seconds_bound _ T)) as [D1 D2].
  unfold add_days, read_date. rewrite E. cbn [bind]. rewrite D1, D2. unfold timedelta_days, plus_days. split.
  - intros b Vb Ha. pose proof (is_date_vd _ Vb) as Vb'. pose proof (ord_pos _ Vb') as Pb.
    assert (Mb: ord b <= max_ordinal) by (destruct b as [[y m] d]; now apply max_ord).
    apply apart_ord in Ha; auto. unfold max_ordinal in *.
    replace ((-999999999 <=? n) && (n <=? 999999999)) with true by (symmetry; apply andb_true_iff; rewrite !Z.leb_le; lia).
    cbn [bind]. replace ((1 <=? ord a + n) && (ord a + n <=? 3652059)) with true by (symmetry; apply andb_true_iff; rewrite !Z.leb_le; lia).
    cbn [bind]. do 2 f_equal. lia.
  - intros N. destruct ((-999999999 <=? n) && (n <=? 999999999)); [|reflexivity]. cbn [bind].
    destruct ((1 <=? ord a + n) && (ord a + n <=? max_ordinal)) eqn:B; [|reflexivity].
    exfalso. apply andb_true_iff in B. rewrite !Z.leb_le in B. destruct (ord_of (ord a + n)) as [Vb Eb]; [lia|].
    apply N. exists (ord2ymd (ord a + n)). split; [apply ord_year; auto; lia|]. apply apart_ord; auto.
Qed.
Lemma diff_days_spec a t s b t' s' n : written a t s -> written b t' s' -> days_apart n a b ->
  diff_days (CText s) (CText s') = Ok (CInt (if seconds t <=? seconds t' then n else n - 1)).
Proof.
  intros H H' A. destruct (reads _ _ _ H) as (V & T & E). destruct (reads _ _ _ H') as (V' & T' & E').
  apply apart_ord in A; auto using is_date_vd.
  pose proof (seconds_bound _ T). pose proof (seconds_bound _ T').
  unfold diff_days, read_date. rewrite E, E'. cbn [bind]. do 2 f_equal.
  replace ((ord b - 1) * 86400 + seconds t' - ((ord a - 1) * 86400 + seconds t)) with (n * 86400 + (seconds t' - seconds t)) by lia.
  destruct (Z.leb_spec (seconds t) (seconds t')); symmetry.
  - apply (Z.div_unique _ _ _ (seconds t' - seconds t)); lia.
  - apply (Z.div_unique _ _ _ (86400 + seconds t' - seconds t)); lia.
Qed.
Lemma diff_of_add a t s n c : written a t s -> add_days (CText s) (CInt n) = Ok c -> diff_days (CText s) c = Ok (CInt n).
Proof.
  intros H. destruct (reads _ _ _ H) as (V & T & E).
  destruct (day_part (ord a) _ (seconds_bound _ T)) as [D1 D2].
  unfold add_days, diff_days, read_date. rewrite E. cbn [bind]. rewrite D1, D2. unfold timedelta_days, plus_days.
  destruct ((-999999999 <=? n) && (n <=? 999999999)); [|discriminate]. cbn [bind].
  destruct ((1 <=? ord a + n) && (ord a + n <=? max_ordinal)); [|discriminate]. cbn [bind].
  intros [= <-]. cbn [bind]. do 2 f_equal. symmetry. apply (Z.div_unique _ _ _ 0); lia.
Qed.

(** ** Weeks *)
Lemma weekday_ord a w : vd3 a -> (weekday a w <-> w = (ord a - 1) mod 7).
Proof.
  intros V. assert (V1: vd3 (1, 1, 1)) by (repeat split; vm_compute; discriminate). split.
  - intros (n & H & ->). apply later_ord in H; auto. destruct H as [_ H]. change (ord (1, 1, 1)) with 1 in H. f_equal. lia.
  - intros ->. pose proof (ord_pos a V). exists (Z.to_nat (ord a - 1)). split.
    + apply ord_later; auto. change (ord (1, 1, 1)) with 1. lia.
    + f_equal. lia.
Qed.
Definition thursday_of (o : Z) : Z := o - (o - 1) mod 7 + 3.
(** the year of a day number *)
Lemma year_of_ord y m d z : vd3 (y, m, d) -> days_before_year z < ord (y, m, d) <= days_before_year (z + 1) -> 1 <= z -> y = z.
Proof.
  intros V H Hz. pose proof (Dates.day_of_year _ _ _ V) as D. destruct V as (Hy & _). unfold ord, ymd2ord in H.
  pose proof (Dates.dby_succ y). destruct (Z.lt_trichotomy y z) as [L|[L|L]]; auto; exfalso.
  - pose proof (Dates.dby_mono (y + 1) z). lia.
  - pose proof (Dates.dby_mono (z + 1) y). lia.
Qed.
Lemma jan1 y : ord (y, 1, 1) = days_before_year y + 1.
Proof. unfold ord, ymd2ord. change (days_before_month y 1) with 0. lia. Qed.
Lemma iso_week_ord a w : vd3 a -> (iso_week a w <->
  exists y m d, ord2ymd (thursday_of (ord a)) = (y, m, d) /\ w = (thursday_of (ord a) - days_before_year y - 1) / 7 + 1).
Proof.
  intros Va. pose proof (ord_pos a Va) as Pa.
  pose proof (Z.mod_pos_bound (ord a - 1) 7 ltac:(lia)) as Bm.
  assert (V1: vd3 (1, 1, 1)) by (repeat split; vm_compute; discriminate).
  assert (VJ: forall y, 1 <= y -> vd3 (y, 1, 1)).
  { intros y Hy. repeat split; try lia. pose proof (Dates.dim_bounds y 1). lia. }
  assert (Pt: 1 <= thursday_of (ord a)). { unfold thursday_of. pose proof (Z.mod_le (ord a - 1) 7). lia. }
  split.
  - intros (th & y & m & d & n & k & -> & W & A & Hn & L & ->).
    assert (Vt: vd3 (y, m, d)) by (destruct W as (j & Hj & _); apply later_ord in Hj; tauto).
    apply weekday_ord in W; auto. apply apart_ord in A; auto.
    assert (Et: ord (y, m, d) = thursday_of (ord a)).
    { unfold thursday_of. rewrite A in W |- *. pose proof (Z.div_mod (ord a - 1) 7). pose proof (Z.div_mod (ord a + n - 1) 7).
      assert (Q: (ord a + n - 1) / 7 = (ord a - 1) / 7) by lia. lia. }
    exists y, m, d. rewrite <- Et. split; [now apply ord_back|].
    apply later_ord in L; [|destruct Vt; auto]. destruct L as [_ L]. rewrite jan1 in L. do 2 f_equal. lia.
  - intros (y & m & d & Et & ->). destruct (ord_of _ Pt) as [Vt Eo]. rewrite Et in Vt, Eo.
    pose proof (Dates.day_of_year _ _ _ Vt) as Dy.
    exists (y, m, d), y, m, d, (thursday_of (ord a) - ord a), (Z.to_nat (thursday_of (ord a) - days_before_year y - 1)).
    split; [reflexivity|]. assert (Hk: 0 <= thursday_of (ord a) - days_before_year y - 1).
    { rewrite <- Eo. unfold ord, ymd2ord. lia. }
    split; [|split; [|split; [|split]]].
    + apply weekday_ord; auto. rewrite Eo. unfold thursday_of.
      apply (Z.mod_unique _ _ ((ord a - 1) / 7)); [lia|]. pose proof (Z.div_mod (ord a - 1) 7). lia.
    + apply apart_ord; auto. lia.
    + unfold thursday_of. lia.
    + apply ord_later; [apply VJ; destruct Vt; auto|auto|]. rewrite jan1. lia.
    + now rewrite Z2Nat.id.
Qed.
Lemma week_days o Y : let k := thursday_of o - Y - 1 in
  iso_week_days (o - Y - 1) (o mod 7) = 7 * (k / 7) + (o - 1) mod 7.
Proof.
  cbv zeta. unfold iso_week_days, thursday_of.
  pose proof (Z.mod_pos_bound (o - 1) 7 ltac:(lia)) as B1. pose proof (Z.div_mod (o - 1) 7 ltac:(lia)) as E1.
  pose proof (Z.mod_pos_bound o 7 ltac:(lia)) as B2. pose proof (Z.div_mod o 7 ltac:(lia)) as E2.
  set (k := o - (o - 1) mod 7 + 3 - Y - 1). pose proof (Z.mod_pos_bound k 7 ltac:(lia)) as B3. pose proof (Z.div_mod k 7 ltac:(lia)) as E3.
  assert (R: (o - Y - 1 - o mod 7 + 4 + 378) mod 7 = k mod 7).
  { assert (exists j, o - Y - 1 - o mod 7 + 4 + 378 = k + j * 7) as [j ->].
    { exists (54 + (o / 7 - (o - 1) / 7)). unfold k. lia. }
    apply Z.mod_add. lia. }
  rewrite R. unfold k in *. lia.
Qed.
Lemma week_days_div o Y : iso_week_days (o - Y - 1) (o mod 7) / 7 = (thursday_of o - Y - 1) / 7 /\
  (iso_week_days (o - Y - 1) (o mod 7) < 0 <-> thursday_of o <= Y).
Proof.
  rewrite week_days. cbv zeta. pose proof (Z.mod_pos_bound (o - 1) 7 ltac:(lia)) as B1.
  set (k := thursday_of o - Y - 1). pose proof (Z.mod_pos_bound k 7 ltac:(lia)) as B3. pose proof (Z.div_mod k 7 ltac:(lia)) as E3.
  split; [symmetry; apply (Z.div_unique _ _ _ ((o - 1) mod 7)); lia|]. unfold k in *. lia.
Qed.
Lemma week_of_spec a : vd3 a -> iso_week a (week_of a).
Proof.
  intros V. apply iso_week_ord; auto. pose proof (ord_pos a V) as Pa.
  assert (Pt: 1 <= thursday_of (ord a)).
  { unfold thursday_of. pose proof (Z.mod_le (ord a - 1) 7). lia. }
  pose proof (Z.mod_pos_bound (ord a - 1) 7 ltac:(lia)) as Bm.
  destruct (ord_of _ Pt) as [Vt Et]. destruct (ord2ymd (thursday_of (ord a))) as [[ty tm] td] eqn:E2.
  exists ty, tm, td. split; [reflexivity|].
  destruct a as [[y m] d]. pose proof (Dates.day_of_year _ _ _ V) as Dy. destruct V as (Hy & _).
  unfold week_of. fold (ord (y, m, d)) in *. change (ymd2ord y m d) with (ord (y, m, d)).
  set (o := ord (y, m, d)) in *. assert (Do: days_before_year y < o <= days_before_year (y + 1)).
  { rewrite Dates.dby_succ. unfold o, ord, ymd2ord. lia. }
  pose proof (Dates.dby_succ y) as S1. pose proof (Dates.dby_succ (y - 1)) as S2. replace (y - 1 + 1) with y in S2 by lia.
  replace (o - days_before_year y - 1 + (365 + (if is_leap (y - 1) then 1 else 0))) with (o - days_before_year (y - 1) - 1)
    by (unfold Dates.b2z in S2; destruct (is_leap (y - 1)); lia).
  replace (o - days_before_year y - 1 - (365 + (if is_leap y then 1 else 0))) with (o - days_before_year (y + 1) - 1)
    by (unfold Dates.b2z in S1; destruct (is_leap y); lia).
  destruct (week_days_div o (days_before_year y)) as [D1 N1].
  destruct (week_days_div o (days_before_year (y - 1))) as [D0 N0].
  destruct (week_days_div o (days_before_year (y + 1))) as [D2 N2].
  assert (Near: o - 3 <= thursday_of o <= o + 3) by (unfold thursday_of; lia).
  destruct (Z.ltb_spec (iso_week_days (o - days_before_year y - 1) (o mod 7)) 0) as [L|L].
  - assert (Hy1: 1 <= y - 1).
    { destruct (Z.eq_dec y 1) as [->|]; [|lia]. change (days_before_year 1) with 0 in *. lia. }
    rewrite D0. f_equal. f_equal. assert (ty = y - 1) as ->; [|lia].
    apply (year_of_ord _ _ _ _ Vt); auto. rewrite Et. replace (y - 1 + 1) with y by lia.
    unfold Dates.b2z in S2. destruct (is_leap (y - 1)); lia.
  - destruct (Z.leb_spec 0 (iso_week_days (o - days_before_year (y + 1) - 1) (o mod 7))) as [G|G].
    + rewrite D2. f_equal. f_equal. assert (ty = y + 1) as ->; [|lia].
      apply (year_of_ord _ _ _ _ Vt); [|lia]. rewrite Et. pose proof (Dates.dby_succ (y + 1)).
      unfold Dates.b2z in *. destruct (is_leap (y + 1)); lia.
    + rewrite D1. f_equal. f_equal. assert (ty = y) as ->; [|lia].
      apply (year_of_ord _ _ _ _ Vt); [|lia]. rewrite Et. lia.
Qed.
Lemma iso_week_unique a w w' : vd3 a -> iso_week a w -> iso_week a w' -> w = w'.
Proof.
  intros V H H'. apply iso_week_ord in H; auto. apply iso_week_ord in H'; auto.
  destruct H as (y & m & d & E & ->). destruct H' as (y' & m' & d' & E' & ->). rewrite E in E'. congruence.
Qed.
Lemma week_written a t s w : written a t s -> (get_week (CText s) = Ok (CInt w) <-> iso_week a w).
Proof.
  intros H. destruct (reads _ _ _ H) as (V & _). apply is_date_vd in V. pose proof (week_of_spec a V) as W.
  unfold get_week. rewrite (date_part_written _ _ _ _ H). split.
  - intros [= <-]. exact W.
  - intros H'. do 2 f_equal. apply (iso_week_unique a); auto.
Qed.

(** ** Numbers *)
Lemma to_float_exact n : Z.abs n <= 2 ^ 53 -> to_float n = Ok n.
Proof.
  intros H. unfold to_float. set (a := Z.abs n) in *.
  destruct (Z.leb_spec (Z.log2 a - 52) 0) as [L|L]; [reflexivity|].
  assert (a = 2 ^ 53) as E.
  { destruct (Z.le_gt_cases (2 ^ 53) a); [lia|]. exfalso. destruct (Z.le_gt_cases a 0) as [N|N].
    - rewrite Z.log2_nonpos in L by auto. lia.
    - apply Z.log2_lt_pow2 in H0; auto. lia. }
  assert (n = 2 ^ 53 \/ n = - 2 ^ 53) as [-> | ->] by (unfold a in E; lia); reflexivity.
Qed.
Lemma to_float_near n f : to_float n = Ok f -> Z.abs (f - n) * 2 ^ 53 <= Z.abs n.
Proof.
  unfold to_float. set (a := Z.abs n). destruct (Z.leb_spec (Z.log2 a - 52) 0) as [L|L].
  { intros [= <-]. rewrite Z.sub_diag. cbn. unfold a. lia. }
  assert (Pa: 0 < a). { destruct (Z.le_gt_cases a 0); auto. rewrite Z.log2_nonpos in L by auto. lia. }
  destruct (Z.log2_spec a Pa) as [L1 _].
  set (e := Z.log2 a - 52) in *. assert (U: 2 ^ Z.log2 a = 2 ^ e * 2 ^ 52) by (rewrite <- Z.pow_add_r by lia; f_equal; lia).
  assert (P: 0 < 2 ^ e) by (apply Z.pow_pos_nonneg; lia).
  cbv zeta. set (u := 2 ^ e) in *. clearbody u.
  pose proof (Z.div_mod a u ltac:(lia)) as D. pose proof (Z.mod_pos_bound a u P) as B.
  set (q := if _ || _ then a / u else a / u + 1).
  assert (Q: 2 * Z.abs (q * u - a) <= u).
  { unfold q. destruct ((2 * (a mod u) <? u) || ((2 * (a mod u) =? u) && Z.even (a / u))) eqn:C.
    - apply orb_true_iff in C. rewrite andb_true_iff, Z.ltb_lt, Z.eqb_eq in C. nia.
    - apply orb_false_iff in C. destruct C as [C _]. apply Z.ltb_ge in C. nia. }
  destruct (2 ^ 1024 <=? q * u); [discriminate|]. intros [= <-].
  assert (Z.abs (Z.sgn n * (q * u) - n) = Z.abs (q * u - a)) as ->.
  { unfold a. destruct (Z.sgn_spec n) as [[H ->]|[[H ->]|[H ->]]]; lia. }
  change (2 ^ 53) with (2 * 2 ^ 52). nia.
Qed.
Lemma round_int_nearest n k : 0 < k -> nearest_multiple (10 ^ k) n (round_int n (- k)).
Proof.
  intros Hk. unfold round_int. destruct (Z.leb_spec 0 (- k)); [lia|]. rewrite Z.opp_involutive.
  assert (P: 0 < 10 ^ k) by (apply Z.pow_pos_nonneg; lia). set (u := 10 ^ k) in *. clearbody u.
  pose proof (Z.div_mod n u ltac:(lia)) as D. pose proof (Z.mod_pos_bound n u P) as B.
  destruct ((2 * (n mod u) <? u) || ((2 * (n mod u) =? u) && Z.even (n / u))) eqn:C.
  - exists (n / u). split; [reflexivity|]. apply orb_true_iff in C. rewrite andb_true_iff, Z.ltb_lt, Z.eqb_eq in C.
    split; [nia|]. intros E. destruct C as [C|[C C']]; auto. exfalso. nia.
  - exists (n / u + 1). split; [reflexivity|]. apply orb_false_iff in C. destruct C as [C C']. apply Z.ltb_ge in C.
    split; [nia|]. intros E. assert (2 * (n mod u) = u) by nia. apply andb_false_iff in C'. rewrite Z.eqb_neq in C'.
    destruct C' as [C'|C']; [lia|]. rewrite Z.even_add, C'. reflexivity.
Qed.

(** ** As stated *)
Lemma add_days_fields a hh mm ss s n : written a (hh, mm, ss) s ->
  (forall y m d, is_date (y, m, d) -> days_apart n a (y, m, d) ->
     add_days (CText s) (CInt n) = Ok (CMoment (of_fields y m d hh mm ss))) /\
  ((~ exists b, is_date b /\ days_apart n a b) -> add_days (CText s) (CInt n) = Raise OverflowError).
Proof.
  intros H. destruct (add_days_spec a _ s n H) as [H1 H2]. split; auto.
  intros y m d V A. rewrite (H1 _ V A). unfold of_fields, ord, seconds. do 2 f_equal. lia.
Qed.
Lemma parts_moment y m d hh mm ss : is_date (y, m, d) -> is_time (hh, mm, ss) ->
  let c := CMoment (of_fields y m d hh mm ss) in
  get_year c = Ok (CInt y) /\ get_month c = Ok (CInt m) /\ get_day c = Ok (CInt d) /\
  get_hour c = Ok (CInt hh) /\ get_minute c = Ok (CInt mm) /\ get_second c = Ok (CInt ss).
Proof.
  intros V T. replace (of_fields y m d hh mm ss) with ((ord (y, m, d) - 1) * 86400 + seconds (hh, mm, ss)) by (unfold of_fields, ord, seconds; lia).
  cbv zeta. destruct (hms (ord (y, m, d)) hh mm ss T) as (E1 & E2 & E3).
  unfold get_year, get_month, get_day, get_hour, get_minute, get_second, date_part, time_part, read_date. cbn [bind].
  rewrite E1, E2, E3, day_of_written by (apply seconds_bound; auto). rewrite ord_back by (now apply is_date_vd). repeat split.
Qed.
Lemma not_a_date_null c : ~ (exists t, c = CMoment t) -> ~ (exists y m d, c = CDate y m d) ->
  (forall s, c = CText s -> parse_iso s = Ok None) ->
  get_year c = Ok CNull /\ get_month c = Ok CNull /\ get_day c = Ok CNull /\ get_quarter c = Ok CNull /\ get_week c = Ok CNull /\
  get_hour c = Ok CNull /\ get_minute c = Ok CNull /\ get_second c = Ok CNull /\ get_date c = Ok CNull /\ get_time c = Ok CNull /\
  (forall n, add_days c n = Ok CNull).
Proof.
  intros N1 N2 N3. assert (R: exists c', read_date c = Ok c' /\ ~ (exists t, c' = CMoment t) /\ ~ (exists y m d, c' = CDate y m d)).
  { destruct c; try (eexists; split; [reflexivity|]; auto).
    exists CNull. cbn [read_date]. rewrite (N3 s eq_refl). split; [reflexivity|]. split; [intros (t & E)|intros (y & m & d & E)]; discriminate. }
  destruct R as (c' & E & R1 & R2).
  assert (DP: forall part, date_part part c = Ok CNull).
  { intros part. unfold date_part. rewrite E. cbn [bind]. destruct c'; auto; exfalso; eauto. }
  assert (TP: forall part, time_part part c = Ok CNull).
  { intros part. unfold time_part. rewrite E. cbn [bind]. destruct c'; auto; exfalso; eauto 6. }
  assert (AD: forall n, add_days c n = Ok CNull).
  { intros n. unfold add_days. rewrite E. cbn [bind]. destruct c'; auto; exfalso; eauto 6. }
  repeat split; auto; first [apply DP|apply TP|apply AD].
Qed.
