(** Lemmas about the calendar, date ranges and the date parsers. *)
From Coq Require Import Sorted.
From Verif.Base Require Import Py PyFacts.
From Verif.Model Require Import Paths Dates.
From Verif.Spec Require Import Paths Dates.
Local Open Scope Z_scope.

Lemma is_leap_spec y : is_leap y = true <-> leap y.
Proof.
  unfold is_leap, leap. rewrite andb_true_iff, orb_true_iff, negb_true_iff, !Z.eqb_eq, Z.eqb_neq.
  rewrite !Z.mod_divide by lia. reflexivity.
Qed.

Lemma month_length_spec y m n : month_length y m n <-> 1 <= m <= 12 /\ n = days_in_month y m.
Proof.
  unfold month_length, days_in_month. pose proof (is_leap_spec y) as L. split.
  - intros [[H ->]|[[H ->]|[-> H]]].
    + cbn [In] in H. intuition subst; try lia; reflexivity.
    + cbn [In] in H. intuition subst; try lia; reflexivity.
    + split; [lia|]. cbn [Z.eqb andb]. destruct (is_leap y); cbn [andb].
      * destruct H as [[_ ->]|[N _]]; [reflexivity|]. exfalso. tauto.
      * destruct H as [[N _]|[_ ->]]; [|reflexivity]. assert (false = true) by tauto. discriminate.
  - intros [Hm ->].
    assert (m = 1 \/ m = 2 \/ m = 3 \/ m = 4 \/ m = 5 \/ m = 6 \/ m = 7 \/ m = 8 \/ m = 9 \/ m = 10 \/ m = 11 \/ m = 12) by lia.
    destruct (is_leap y) eqn:E.
    + repeat (destruct H as [->|H]); try subst m; cbn [In]; cbn; intuition.
    + assert (~ leap y) by (intros X; apply L in X; discriminate).
      repeat (destruct H as [->|H]); try subst m; cbn [In]; cbn; intuition.
Qed.

Definition vd (y m d : Z) : Prop := 1 <= y /\ 1 <= m <= 12 /\ 1 <= d <= days_in_month y m.
Lemma valid_date_spec y m d : valid_date y m d <-> vd y m d.
Proof.
  unfold valid_date, vd. split.
  - intros [H (n & Hn & Hd)]. apply month_length_spec in Hn. destruct Hn as [? ->]. auto.
  - intros (H & Hm & Hd). split; auto. exists (days_in_month y m). split; auto. apply month_length_spec. auto.
Qed.

Definition b2z (b : bool) : Z := if b then 1 else 0.

Lemma dby_succ y : days_before_year (y + 1) = days_before_year y + 365 + b2z (is_leap y).
Proof.
  unfold days_before_year, is_leap, b2z. replace (y + 1 - 1) with y by lia.
  destruct (Z.eqb_spec (y mod 4) 0), (Z.eqb_spec (y mod 100) 0), (Z.eqb_spec (y mod 400) 0); cbn [andb orb negb];
    Z.to_euclidean_division_equations; lia.
Qed.

Lemma dby_mono y z : 1 <= y -> y <= z -> days_before_year y <= days_before_year z.
Proof.
  intros Hy H. replace z with (y + Z.of_nat (Z.to_nat (z - y))) by lia.
  generalize (Z.to_nat (z - y)) as k. induction k as [|k IH]; [rewrite Z.add_0_r; lia|].
  replace (y + Z.of_nat (S k)) with (y + Z.of_nat k + 1) by lia. rewrite dby_succ. unfold b2z. destruct (is_leap _); lia.
Qed.

Lemma month_cases m : 1 <= m <= 12 -> m = 1 \/ m = 2 \/ m = 3 \/ m = 4 \/ m = 5 \/ m = 6 \/ m = 7 \/ m = 8 \/ m = 9 \/ m = 10 \/ m = 11 \/ m = 12.
Proof. lia. Qed.
Ltac months H := apply month_cases in H; repeat (destruct H as [->|H]); try subst.

Lemma dim_bounds y m : 1 <= m <= 12 -> 28 <= days_in_month y m <= 31.
Proof.
  intros H. unfold days_in_month. months H; destruct (is_leap y); vm_compute; split; discriminate.
Qed.

Lemma dbm_succ y m : 1 <= m <= 11 -> days_before_month y (m + 1) = days_before_month y m + days_in_month y m.
Proof.
  intros H. assert (H': 1 <= m <= 12) by lia. unfold days_before_month, days_in_month.
  months H'; try lia; destruct (is_leap y); vm_compute; reflexivity.
Qed.

Lemma dbm_mono y m m' : 1 <= m -> m < m' -> m' <= 12 -> days_before_month y m + days_in_month y m <= days_before_month y m'.
Proof.
  intros H1 H2 H3. replace m' with (m + 1 + Z.of_nat (Z.to_nat (m' - m - 1))) in * by lia.
  revert H3. generalize (Z.to_nat (m' - m - 1)) as k. induction k as [|k IH]; intros Hk.
  - rewrite Z.add_0_r in *. rewrite dbm_succ; lia.
  - replace (m + 1 + Z.of_nat (S k)) with (m + 1 + Z.of_nat k + 1) in * by lia. rewrite dbm_succ by lia.
    assert (0 <= days_in_month y (m + 1 + Z.of_nat k)).
    { pose proof (dim_bounds y (m + 1 + Z.of_nat k)). lia. }
    lia.
Qed.

Lemma dbm_year y : days_before_month y 12 + days_in_month y 12 = 365 + b2z (is_leap y).
Proof. unfold days_before_month, days_in_month, b2z. destruct (is_leap y); reflexivity. Qed.
Lemma dbm_pos y m : 1 <= m <= 12 -> 0 <= days_before_month y m.
Proof. intros H. unfold days_before_month. months H; destruct (is_leap y); vm_compute; discriminate. Qed.

Lemma day_of_year y m d : vd y m d -> 1 <= days_before_month y m + d <= 365 + b2z (is_leap y).
Proof.
  intros (Hy & Hm & Hd). pose proof (dbm_pos y m Hm). split; [lia|].
  rewrite <- dbm_year. destruct (Z.eq_dec m 12) as [->|]; [lia|].
  pose proof (dbm_mono y m 12). pose proof (dim_bounds y 12). lia.
Qed.

Lemma ymd2ord_inj y m d y' m' d' : vd y m d -> vd y' m' d' -> ymd2ord y m d = ymd2ord y' m' d' ->
  y = y' /\ m = m' /\ d = d'.
Proof.
  intros V V' E. pose proof (day_of_year _ _ _ V) as D. pose proof (day_of_year _ _ _ V') as D'.
  destruct V as (Hy & Hm & Hd), V' as (Hy' & Hm' & Hd'). unfold ymd2ord in E.
  assert (y = y').
  { destruct (Z.lt_trichotomy y y') as [H|[H|H]]; auto.
    - pose proof (dby_mono (y + 1) y'). rewrite dby_succ in *. lia.
    - pose proof (dby_mono (y' + 1) y). rewrite dby_succ in *. lia. }
  subst y'. assert (m = m').
  { destruct (Z.lt_trichotomy m m') as [H|[H|H]]; auto.
    - pose proof (dbm_mono y m m'). lia.
    - pose proof (dbm_mono y m' m). lia. }
  subst m'. repeat split; auto. lia.
Qed.

(** one year: the month of a day of the year *)
Definition month_of (leapyear : bool) (n : Z) : Z * Z :=
  let month := (n + 50) / 32 in
  let preceding := (nth (Z.to_nat month) days_before_month_table 0
                    + (if (2 <? month)%Z && leapyear then 1 else 0))%Z in
  if n <? preceding then
    let month := month - 1 in
    let preceding := (preceding - (nth (Z.to_nat month) days_in_month_table 0
                      + (if (month =? 2)%Z && leapyear then 1 else 0)))%Z in
    (month, n - preceding + 1)
  else (month, n - preceding + 1).
Definition month_ok (leapyear : bool) (n : Z) : bool :=
  let '(m, d) := month_of leapyear n in
  (1 <=? m) && (m <=? 12) && (1 <=? d)
  && (d <=? (if (m =? 2) && leapyear then 29 else nth (Z.to_nat m) days_in_month_table 0))
  && (nth (Z.to_nat m) days_before_month_table 0 + (if (2 <? m) && leapyear then 1 else 0) + d =? n + 1).
Lemma month_ok_all leapyear n : 0 <= n <= 364 -> month_ok leapyear n = true.
Proof.
  intros H.
  assert (A: forallb (fun k => month_ok true (Z.of_nat k) && month_ok false (Z.of_nat k)) (seq 0 365) = true)
    by (vm_compute; reflexivity).
  rewrite forallb_forall in A. specialize (A (Z.to_nat n)). rewrite Z2Nat.id in A by lia.
  rewrite andb_true_iff in A. destruct leapyear; apply A; apply in_seq; lia.
Qed.

Lemma ord2ymd_spec n : 1 <= n -> let '(y, m, d) := ord2ymd n in vd y m d /\ ymd2ord y m d = n.
Proof.
  intros Hn. unfold ord2ymd. cbv zeta.
  set (n0 := n - 1). set (a := n0 / 146097). set (r := n0 mod 146097).
  set (b := r / 36524). set (r2 := r mod 36524). set (c := r2 / 1461). set (r3 := r2 mod 1461).
  set (e := r3 / 365). set (q := r3 mod 365).
  assert (Ha: n0 = 146097 * a + r /\ 0 <= r < 146097 /\ 0 <= a).
  { subst a r. pose proof (Z.div_mod n0 146097). pose proof (Z.mod_pos_bound n0 146097).
    assert (0 <= n0) by lia. pose proof (Z.div_pos n0 146097). lia. }
  assert (Hb: r = 36524 * b + r2 /\ 0 <= r2 < 36524 /\ 0 <= b <= 4).
  { subst b r2. pose proof (Z.div_mod r 36524). pose proof (Z.mod_pos_bound r 36524). lia. }
  assert (Hc: r2 = 1461 * c + r3 /\ 0 <= r3 < 1461 /\ 0 <= c <= 24).
  { subst c r3. pose proof (Z.div_mod r2 1461). pose proof (Z.mod_pos_bound r2 1461). lia. }
  assert (He: r3 = 365 * e + q /\ 0 <= q < 365 /\ 0 <= e <= 4).
  { subst e q. pose proof (Z.div_mod r3 365). pose proof (Z.mod_pos_bound r3 365). lia. }
  assert (Hn0: n0 = n - 1) by reflexivity.
  clearbody q e r3 c r2 b r a n0. clear -Ha Hb Hc He Hn Hn0.
  set (year := a * 400 + 1 + b * 100 + c * 4 + e).
  destruct ((e =? 4) || (b =? 4)) eqn:E4.
  - (* 31 December of a leap year *)
    assert (Hy: is_leap (year - 1) = true /\ days_before_year (year - 1) = n - 366).
    { unfold is_leap. apply orb_true_iff in E4. rewrite !Z.eqb_eq in E4.
      assert (K: (b = 4 /\ c = 0 /\ e = 0 /\ q = 0) \/ (e = 4 /\ b <= 3 /\ c <= 23 /\ q = 0)) by lia.
      unfold days_before_year. subst year.
      destruct K as [(-> & -> & -> & ->)|(-> & Hb3 & Hc3 & ->)].
      - replace (a * 400 + 1 + 4 * 100 + 0 * 4 + 0 - 1) with ((a + 1) * 400) by lia.
        replace (((a + 1) * 400) mod 4) with 0 by (Z.to_euclidean_division_equations; lia).
        replace (((a + 1) * 400) mod 400) with 0 by (rewrite Z.mod_mul; lia).
        rewrite orb_true_r. split; [reflexivity|].
        replace (((a + 1) * 400 - 1) / 4) with (100 * a + 99) by (Z.to_euclidean_division_equations; lia).
        replace (((a + 1) * 400 - 1) / 100) with (4 * a + 3) by (Z.to_euclidean_division_equations; lia).
        replace (((a + 1) * 400 - 1) / 400) with a by (Z.to_euclidean_division_equations; lia). lia.
      - split.
        + replace ((a * 400 + 1 + b * 100 + c * 4 + 4 - 1) mod 4) with 0 by (Z.to_euclidean_division_equations; lia).
          replace ((a * 400 + 1 + b * 100 + c * 4 + 4 - 1) mod 100) with (4 * c + 4) by (Z.to_euclidean_division_equations; lia).
          replace (4 * c + 4 =? 0) with false by (symmetry; apply Z.eqb_neq; lia). reflexivity.
        + replace (a * 400 + 1 + b * 100 + c * 4 + 4 - 1 - 1) with (400 * a + 100 * b + 4 * c + 3) by lia.
          replace ((400 * a + 100 * b + 4 * c + 3) / 4) with (100 * a + 25 * b + c) by (Z.to_euclidean_division_equations; lia).
          replace ((400 * a + 100 * b + 4 * c + 3) / 100) with (4 * a + b) by (Z.to_euclidean_division_equations; lia).
          replace ((400 * a + 100 * b + 4 * c + 3) / 400) with a by (Z.to_euclidean_division_equations; lia). lia. }
    destruct Hy as [Hl Hd]. unfold vd, ymd2ord. rewrite Hd. unfold days_in_month, days_before_month. rewrite Hl.
    change (nth (Z.to_nat 12) days_before_month_table 0) with 334.
    change (nth (Z.to_nat 12) days_in_month_table 0) with 31.
    change ((12 =? 2) && true)%bool with false. change ((2 <? 12) && true)%bool with true. cbv iota.
    split; [|lia]. split; [|lia].
    apply orb_true_iff in E4. rewrite !Z.eqb_eq in E4. subst year. lia.
  - apply orb_false_iff in E4. rewrite !Z.eqb_neq in E4.
    assert (Hdby: days_before_year year = n0 - q).
    { unfold days_before_year. subst year.
      replace (a * 400 + 1 + b * 100 + c * 4 + e - 1) with (a * 400 + b * 100 + c * 4 + e) by lia.
      replace ((a * 400 + b * 100 + c * 4 + e) / 4) with (100 * a + 25 * b + c) by (Z.to_euclidean_division_equations; lia).
      replace ((a * 400 + b * 100 + c * 4 + e) / 100) with (4 * a + b) by (Z.to_euclidean_division_equations; lia).
      replace ((a * 400 + b * 100 + c * 4 + e) / 400) with a by (Z.to_euclidean_division_equations; lia).
      lia. }
    assert (Hl: is_leap year = (e =? 3) && (negb (c =? 24) || (b =? 3))).
    { unfold is_leap. subst year.
      replace ((a * 400 + 1 + b * 100 + c * 4 + e) mod 4 =? 0) with (e =? 3).
      2:{ destruct (Z.eqb_spec e 3); symmetry; [apply Z.eqb_eq|apply Z.eqb_neq]; Z.to_euclidean_division_equations; lia. }
      destruct (Z.eqb_spec e 3); auto. cbn [andb]. subst e.
      replace ((a * 400 + 1 + b * 100 + c * 4 + 3) mod 100 =? 0) with (c =? 24).
      2:{ destruct (Z.eqb_spec c 24); symmetry; [apply Z.eqb_eq|apply Z.eqb_neq]; Z.to_euclidean_division_equations; lia. }
      destruct (Z.eqb_spec c 24); auto. cbn [negb orb]. subst c.
      destruct (Z.eqb_spec b 3); [apply Z.eqb_eq|apply Z.eqb_neq]; Z.to_euclidean_division_equations; lia. }
    rewrite <- Hl. pose proof (month_ok_all (is_leap year) q ltac:(lia)) as M. unfold month_ok in M.
    assert (T: forall (x : Z * Z), month_of (is_leap year) q = x ->
       (let month := (q + 50) / 32 in
        let preceding := nth (Z.to_nat month) days_before_month_table 0
                    + (if (2 <? month) && is_leap year then 1 else 0) in
        if q <? preceding then
         (year, month - 1, q - (preceding - (nth (Z.to_nat (month - 1)) days_in_month_table 0
                      + (if (month - 1 =? 2) && is_leap year then 1 else 0))) + 1)
        else (year, month, q - preceding + 1)) = (year, fst x, snd x)).
    { intros x <-. unfold month_of. cbv zeta.
      destruct (q <? _); reflexivity. }
    cbv zeta in T. destruct (month_of (is_leap year) q) as [m d] eqn:Em. rewrite (T (m, d) eq_refl). cbn [fst snd].
    rewrite !andb_true_iff, !Z.leb_le, Z.eqb_eq in M. destruct M as ((((M1 & M2) & M3) & M4) & M5).
    unfold vd, ymd2ord, days_in_month, days_before_month. rewrite Hdby. split; [|lia].
    split; [subst year; lia|]. split; [lia|]. split; [lia|exact M4].
Qed.

Lemma ord2ymd_ymd2ord y m d : vd y m d -> ord2ymd (ymd2ord y m d) = (y, m, d).
Proof.
  intros V. assert (1 <= ymd2ord y m d).
  { pose proof (day_of_year _ _ _ V). destruct V as (Hy & _). unfold ymd2ord.
    pose proof (dby_mono 1 y). change (days_before_year 1) with 0 in *. lia. }
  pose proof (ord2ymd_spec _ H) as S. destruct (ord2ymd (ymd2ord y m d)) as [[y' m'] d']. destruct S as [V' E].
  destruct (ymd2ord_inj _ _ _ _ _ _ V' V E) as (-> & -> & ->). reflexivity.
Qed.

Lemma ord_next n y m d : 1 <= n -> ord2ymd n = (y, m, d) -> next_day (y, m, d) (ord2ymd (n + 1)).
Proof.
  intros Hn E. pose proof (ord2ymd_spec n Hn) as S. rewrite E in S. destruct S as [V En].
  assert (G: forall y' m' d', vd y' m' d' -> ymd2ord y' m' d' = n + 1 -> ord2ymd (n + 1) = (y', m', d')).
  { intros y' m' d' V' E'. rewrite <- E'. apply ord2ymd_ymd2ord. auto. }
  destruct V as (Hy & Hm & Hd). destruct (Z.eq_dec d (days_in_month y m)) as [Ed|Nd].
  - destruct (Z.eq_dec m 12) as [->|Nm].
    + rewrite (G (y + 1) 1 1).
      * change (days_in_month y 12) with 31 in Ed. subst d. constructor.
      * split; [lia|]. split; [lia|]. pose proof (dim_bounds (y + 1) 1). lia.
      * unfold ymd2ord in *. pose proof (dbm_year y). rewrite dby_succ. change (days_before_month (y + 1) 1) with 0. lia.
    + rewrite (G y (m + 1) 1).
      * apply nd_month; [|lia]. apply month_length_spec. auto.
      * split; [lia|]. split; [lia|]. split; [lia|].
        pose proof (dim_bounds y (m + 1)). lia.
      * unfold ymd2ord in *. rewrite dbm_succ by lia. lia.
  - rewrite (G y m (d + 1)).
    + apply nd_day. apply valid_date_spec. split; [auto|]. split; [auto|]. lia.
    + split; [auto|]. split; [auto|]. lia.
    + unfold ymd2ord in *. lia.
Qed.

(** ** fields *)
Lemma of_fields_ord y m d hh mm ss : valid_time hh mm ss ->
  of_fields y m d hh mm ss / 86400 = ymd2ord y m d - 1 /\
  of_fields y m d hh mm ss mod 86400 = hh * 3600 + mm * 60 + ss.
Proof.
  intros (Hh & Hm & Hs). unfold of_fields. set (o := ymd2ord y m d). clearbody o.
  split; [symmetry; apply (Z.div_unique _ _ _ (hh * 3600 + mm * 60 + ss))|symmetry; apply (Z.mod_unique _ _ (o - 1))]; lia.
Qed.

Lemma fields_of_fields y m d hh mm ss : valid_date y m d -> valid_time hh mm ss ->
  fields_of (of_fields y m d hh mm ss) =
  mkMoment (Z.to_N y) (Z.to_N m) (Z.to_N d) (Z.to_N hh) (Z.to_N mm) (Z.to_N ss).
Proof.
  intros V T. apply valid_date_spec in V. destruct (of_fields_ord y m d hh mm ss T) as [E1 E2].
  unfold fields_of. rewrite E1, E2. replace (ymd2ord y m d - 1 + 1) with (ymd2ord y m d) by lia.
  rewrite ord2ymd_ymd2ord by auto. destruct T as (Hh & Hm & Hs).
  f_equal; f_equal; lia.
Qed.

(** ** date_range *)
Lemma floor_hour_spec t h : hour_of t h -> floor_hour t = h.
Proof. unfold hour_of, full_hour, floor_hour. lia. Qed.
Lemma floor_hour_hour_of t : hour_of t (floor_hour t).
Proof. unfold hour_of, full_hour, floor_hour. lia. Qed.

Definition hours (s e : Z) : list Z :=
  map (fun n => s + 3600 * Z.of_nat n) (seq 0 (S (Z.to_nat ((e - s) / 3600)))).

Lemma hours_In s e x : full_hour s -> full_hour e -> s <= e ->
  (In x (hours s e) <-> full_hour x /\ s <= x <= e).
Proof.
  unfold full_hour, hours. intros Hs He H. rewrite in_map_iff. split.
  - intros (n & <- & Hn). apply in_seq in Hn. lia.
  - intros (Hx & H1 & H2). exists (Z.to_nat ((x - s) / 3600)). rewrite in_seq. lia.
Qed.

Lemma hours_sorted s e : StronglySorted Z.lt (hours s e).
Proof.
  unfold hours. generalize (S (Z.to_nat ((e - s) / 3600))) as k. intros k. generalize 0%nat as i.
  induction k as [|k IH]; intros i; cbn [seq map]; constructor; auto.
  apply Forall_forall. intros x Hx. apply in_map_iff in Hx. destruct Hx as (n & <- & Hn). apply in_seq in Hn. lia.
Qed.

Lemma date_range_eq now b1 b2 s e : parse_bound now b1 = Ok s -> parse_bound now (full_day b2) = Ok e ->
  date_range now b1 b2 = (if floor_hour e <? floor_hour s then Raise ValueError
                          else Ok (hours (floor_hour s) (floor_hour e))).
Proof. intros H1 H2. unfold date_range. rewrite H1, H2. reflexivity. Qed.

Lemma date_range_spec now b1 b2 s e hs he : parse_bound now b1 = Ok s -> parse_bound now (full_day b2) = Ok e ->
  hour_of s hs -> hour_of e he ->
  (he < hs -> date_range now b1 b2 = Raise ValueError) /\
  (hs <= he -> exists l, date_range now b1 b2 = Ok l /\ StronglySorted Z.lt l /\
     forall x, In x l <-> full_hour x /\ hs <= x <= he).
Proof.
  intros H1 H2 Fs Fe. rewrite (date_range_eq _ _ _ _ _ H1 H2).
  rewrite (floor_hour_spec _ _ Fs), (floor_hour_spec _ _ Fe).
  destruct (Z.ltb_spec he hs); (split; intros; [|try lia]); try lia; auto.
  exists (hours hs he). split; [auto|]. split; [apply hours_sorted|].
  intros x. apply hours_In; [apply Fs|apply Fe|auto].
Qed.

(** each day between them is visited *)
Lemma day_visited s e y m d : 0 <= s -> s <= e -> valid_date y m d ->
  s / 86400 <= ymd2ord y m d - 1 <= e / 86400 ->
  exists x h, (full_hour x /\ floor_hour s <= x <= floor_hour e) /\ 0 <= h <= 23 /\ x = of_fields y m d h 0 0.
Proof.
  intros H0 Hse V Ho.
  set (x := Z.max (floor_hour s) (86400 * (ymd2ord y m d - 1))).
  exists x, (x mod 86400 / 3600).
  assert (Hx: full_hour x /\ floor_hour s <= x <= floor_hour e /\ x / 86400 = ymd2ord y m d - 1).
  { subst x. unfold full_hour, floor_hour. generalize dependent (ymd2ord y m d). intros o Ho. lia. }
  destruct Hx as (H1 & H2 & H3). split; [auto|]. split; [unfold full_hour in H1; lia|].
  unfold of_fields. rewrite <- H3. unfold full_hour in H1. clearbody x. lia.
Qed.

(** ** the days of a range *)
Definition days_from (n : Z) (k : nat) : list Z := map (fun i => n + Z.of_nat i) (seq 0 k).

Lemma dedup_snoc {A} (eqb : A -> A -> bool) (Heqb : forall x y, eqb x y = true <-> x = y) l x :
  dedup eqb (l ++ [x]) = dedup eqb l ++ (if mem eqb x l then [] else [x]).
Proof.
  induction l as [|y l IH]; [reflexivity|]. cbn [app dedup mem].
  rewrite IH, filter_app. cbn [app]. f_equal. f_equal.
  assert (Es: eqb y x = eqb x y).
  { destruct (eqb x y) eqn:E, (eqb y x) eqn:E'; auto; [apply Heqb in E|apply Heqb in E']; subst y;
      rewrite (proj2 (Heqb x x) eq_refl) in *; discriminate. }
  unfold mem. cbn [existsb]. fold (mem eqb x l). destruct (mem eqb x l); rewrite ?orb_true_r, ?orb_false_r; cbn [filter].
  - reflexivity.
  - rewrite Es. destruct (eqb x y); reflexivity.
Qed.

Lemma dedup_map_inj {A B} (ea : A -> A -> bool) (eb : B -> B -> bool)
  (Ha : forall x y, ea x y = true <-> x = y) (Hb : forall x y, eb x y = true <-> x = y) (f : A -> B) l :
  (forall x y, In x l -> In y l -> f x = f y -> x = y) -> dedup eb (map f l) = map f (dedup ea l).
Proof.
  induction l as [|x l IH]; intros Hi; auto. cbn [map dedup].
  rewrite IH by (intros; apply Hi; simpl; auto). f_equal.
  assert (G: forall l', (forall y, In y l' -> In y l) ->
     filter (fun y => negb (eb (f x) y)) (map f l') = map f (filter (fun y => negb (ea x y)) l')).
  { induction l' as [|y l' IH']; intros Hl; auto. cbn [map filter].
    assert (E: eb (f x) (f y) = ea x y).
    { destruct (ea x y) eqn:E; [apply Ha in E; subst; apply Hb; auto|].
      destruct (eb (f x) (f y)) eqn:E'; auto. apply Hb in E'.
      assert (x = y) by (apply Hi; [left; auto|right; apply Hl; left; auto|auto]). subst.
      rewrite (proj2 (Ha y y) eq_refl) in E. discriminate. }
    rewrite E. destruct (negb (ea x y)); cbn [map]; rewrite IH'; auto; intros z Hz; apply Hl; right; auto. }
  apply G. intros y Hy. apply (proj1 (dedup_In ea Ha y l)). exact Hy.
Qed.

Lemma days_of_hours s k : full_hour s ->
  dedup Z.eqb (map (fun n => (s + 3600 * Z.of_nat n) / 86400) (seq 0 (S k))) =
  days_from (s / 86400) (S (Z.to_nat ((s + 3600 * Z.of_nat k) / 86400 - s / 86400))).
Proof.
  intros Hs. induction k as [|k IH].
  - cbn [seq map dedup filter]. replace (s + 3600 * Z.of_nat 0) with s by lia. rewrite Z.sub_diag. unfold days_from. cbn [Z.to_nat seq map]. rewrite Z.add_0_r. reflexivity.
  - rewrite seq_S, map_app. cbn [map]. rewrite (dedup_snoc Z.eqb Z.eqb_eq), IH. rewrite Nat.add_0_l.
    set (a := (s + 3600 * Z.of_nat (S k)) / 86400). set (b := (s + 3600 * Z.of_nat k) / 86400).
    assert (Hab: a = b \/ a = b + 1) by (subst a b; lia).
    assert (Hb: s / 86400 <= b) by (subst b; lia).
    assert (Hm: mem Z.eqb a (map (fun n => (s + 3600 * Z.of_nat n) / 86400) (seq 0 (S k))) = (a =? b)).
    { destruct (Z.eqb_spec a b) as [E|N].
      - apply (mem_In Z.eqb Z.eqb_eq). apply in_map_iff. exists k. split; [symmetry; exact E|]. apply in_seq. lia.
      - destruct (mem _ _ _) eqn:E; auto. apply (mem_In Z.eqb Z.eqb_eq) in E. apply in_map_iff in E.
        destruct E as (n & E & Hn). apply in_seq in Hn. subst a b. lia. }
    rewrite Hm. destruct (Z.eqb_spec a b) as [E|N].
    + rewrite app_nil_r, E. reflexivity.
    + assert (a = b + 1) by lia.
      replace (Z.to_nat (a - s / 86400)) with (S (Z.to_nat (b - s / 86400))) by lia.
      unfold days_from. rewrite (seq_S (S (Z.to_nat (b - s / 86400)))), map_app. f_equal. cbn [map]. f_equal. lia.
Qed.

Lemma consecutive_days n k : 0 <= n -> consecutive (map (fun i => ord2ymd (i + 1)) (days_from n (S k))).
Proof.
  revert n. induction k as [|k IH]; intros n Hn.
  - constructor.
  - assert (E: days_from n (S (S k)) = n :: days_from (n + 1) (S k)).
    { unfold days_from. cbn [seq map]. f_equal; [lia|]. f_equal; [lia|]. rewrite <- !seq_shift, !map_map.
      apply map_ext. intros. lia. }
    rewrite E. specialize (IH (n + 1) ltac:(lia)). cbn [map]. revert IH.
    unfold days_from at 1 2. cbn [seq map]. rewrite !Z.add_0_r. intros IH. constructor; [|exact IH].
    destruct (ord2ymd (n + 1)) as [[y m] d] eqn:Eo. apply (ord_next (n + 1)); [lia|auto].
Qed.

Lemma every_day_visited now s e y m d l : 0 <= s -> s <= e -> date_range now (BDatetime s) (BDatetime e) = Ok l ->
  valid_date y m d -> s / 86400 <= of_fields y m d 0 0 0 / 86400 <= e / 86400 ->
  exists hh, 0 <= hh <= 23 /\ In (of_fields y m d hh 0 0) l.
Proof.
  intros H0 Hse Hl V Ho.
  destruct (of_fields_ord y m d 0 0 0) as [E _]; [unfold valid_time; lia|]. rewrite E in Ho.
  destruct (day_visited s e y m d H0 Hse V Ho) as (x & h & Hx & Hh & ->).
  exists h. split; auto.
  destruct (date_range_spec now (BDatetime s) (BDatetime e) s e _ _ eq_refl eq_refl (floor_hour_hour_of s) (floor_hour_hour_of e)) as [_ G].
  destruct G as (l' & El & _ & Hin); [lia|]. rewrite Hl in El. injection El as <-. apply Hin. exact Hx.
Qed.
