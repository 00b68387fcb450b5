(** C68: the functions of dates in a selection; C69: the functions of numbers. *)
From Verif.Base Require Import Py.
From Verif.Model Require Import Dates DateFunctions.
From Verif.Spec Require Import Dates DateFunctions.
From Verif.Proofs Require DateFunctions.
Local Open Scope Z_scope.

(** C68: the parts of a date and time written as ISO text, with any fraction of a second and any zone *)
Theorem parts_of_a_date :
  forall (y m d hh mm ss : Z) (s : str), written (y, m, d) (hh, mm, ss) s ->
    get_year (CText s) = Ok (CInt y) /\ get_month (CText s) = Ok (CInt m) /\ get_day (CText s) = Ok (CInt d) /\
    get_hour (CText s) = Ok (CInt hh) /\ get_minute (CText s) = Ok (CInt mm) /\ get_second (CText s) = Ok (CInt ss) /\
    get_date (CText s) = Ok (CDate y m d) /\ get_time (CText s) = Ok (CTime hh mm ss).
Proof. exact DateFunctions.parts_written. Qed.
Print Assumptions parts_of_a_date.

(** C68: the quarter of the year *)
Theorem quarter_of_a_date :
  forall (y m d : Z) (t : time) (s : str), written (y, m, d) t s ->
    exists q, get_quarter (CText s) = Ok (CInt q) /\ quarter m q.
Proof. exact DateFunctions.quarter_written. Qed.
Print Assumptions quarter_of_a_date.

(** C68: the week is the one of ISO 8601 *)
Theorem week_of_a_date :
  forall (a : date) (t : time) (s : str) (w : Z), written a t s ->
    (get_week (CText s) = Ok (CInt w) <-> iso_week a w).
Proof. exact DateFunctions.week_written. Qed.
Print Assumptions week_of_a_date.

(** C68: what is not a date has no parts; it is no error *)
Theorem not_a_date_is_null :
  forall c : cell, ~ (exists t, c = CMoment t) -> ~ (exists y m d, c = CDate y m d) ->
    (forall s, c = CText s -> parse_iso s = Ok None) ->
    get_year c = Ok CNull /\ get_month c = Ok CNull /\ get_day c = Ok CNull /\ get_quarter c = Ok CNull /\ get_week c = Ok CNull /\
    get_hour c = Ok CNull /\ get_minute c = Ok CNull /\ get_second c = Ok CNull /\ get_date c = Ok CNull /\ get_time c = Ok CNull /\
    (forall n, add_days c n = Ok CNull).
Proof. exact DateFunctions.not_a_date_null. Qed.
Print Assumptions not_a_date_is_null.

(** C68: ADDDAYS is the date so many days later, or earlier, at the same time of day; beyond the years 1 to 9999 it is an
    OverflowError.  (The parts of the answer are read as those of a text.) *)
Theorem added_days :
  forall (a : date) (hh mm ss : Z) (s : str) (n : Z), written a (hh, mm, ss) s ->
    (forall y m d, is_date (y, m, d) -> days_apart n a (y, m, d) ->
       add_days (CText s) (CInt n) = Ok (CMoment (of_fields y m d hh mm ss))) /\
    ((~ exists b, is_date b /\ days_apart n a b) -> add_days (CText s) (CInt n) = Raise OverflowError).
Proof. exact DateFunctions.add_days_fields. Qed.
Print Assumptions added_days.
Theorem parts_of_a_moment :
  forall y m d hh mm ss : Z, is_date (y, m, d) -> is_time (hh, mm, ss) ->
    let c := CMoment (of_fields y m d hh mm ss) in
    get_year c = Ok (CInt y) /\ get_month c = Ok (CInt m) /\ get_day c = Ok (CInt d) /\
    get_hour c = Ok (CInt hh) /\ get_minute c = Ok (CInt mm) /\ get_second c = Ok (CInt ss).
Proof. exact DateFunctions.parts_moment. Qed.
Print Assumptions parts_of_a_moment.

(** C68: DAYSDIFF counts the days from one date to another, one less if the second time of day is the earlier *)
Theorem days_between :
  forall (a : date) (t : time) (s : str) (b : date) (t' : time) (s' : str) (n : Z),
    written a t s -> written b t' s' -> days_apart n a b ->
    diff_days (CText s) (CText s') = Ok (CInt (if seconds t <=? seconds t' then n else n - 1)).
Proof. exact DateFunctions.diff_days_spec. Qed.
Print Assumptions days_between.

(** C68: DAYSDIFF(d, ADDDAYS(d, n)) is n *)
Theorem days_between_added :
  forall (a : date) (t : time) (s : str) (n : Z) (c : cell), written a t s ->
    add_days (CText s) (CInt n) = Ok c -> diff_days (CText s) c = Ok (CInt n).
Proof. exact DateFunctions.diff_of_add. Qed.
Print Assumptions days_between_added.

(** The other way round is not the opposite number: 0 days forward, -1 back. *)
Theorem days_back_refuted :
  exists s s' : str, (exists a t, written a t s) /\ (exists a t, written a t s') /\
    diff_days (CText s) (CText s') = Ok (CInt 0) /\ diff_days (CText s') (CText s) = Ok (CInt (-1)).
Proof.
  exists (iso_minutes "T"%char 2020 1 1 12 0 ++ []), (iso_date 2020 1 2).
  assert (V: forall d, 1 <= d <= 31 -> is_date (2020, 1, d)).
  { intros d H. split; [split; [lia|exists 31; split; [left; split; [left; reflexivity|reflexivity]|lia]]|lia]. }
  split; [|split; [|split; vm_compute; reflexivity]].
  - exists (2020, 1, 1), (12, 0, 0). apply written_minutes; [apply V; lia|repeat split; lia|left; reflexivity|left; reflexivity|cbn; lia].
  - exists (2020, 1, 2), (0, 0, 0). apply written_date. apply V. lia.
Qed.
Print Assumptions days_back_refuted.

(** The zone is not read: one instant, written with two zones, has two days. *)
Theorem one_instant_two_days_refuted :
  get_day (CText $"2020-01-01T23:30:00+00:00") = Ok (CInt 1) /\ get_day (CText $"2020-01-02T00:30:00+01:00") = Ok (CInt 2).
Proof. split; vm_compute; reflexivity. Qed.
Print Assumptions one_instant_two_days_refuted.

(** A date has no hour: HOUR(DATE(d)) is an AttributeError, for every d *)
Theorem hour_of_a_date_fails :
  forall (y m d : Z) (t : time) (s : str) (c : cell), written (y, m, d) t s -> get_date (CText s) = Ok c -> get_hour c = Raise AttributeError.
Proof.
  intros y m d [[hh mm] ss] s c H E. destruct (DateFunctions.parts_written _ _ _ _ _ _ _ H) as (_ & _ & _ & _ & _ & _ & D & _).
  rewrite D in E. injection E as <-. reflexivity.
Qed.
Print Assumptions hour_of_a_date_fails.

(** C69: INTEGER and TRUNC leave integers of up to 53 bits and null as they are; ... *)
Theorem integers_stay_partial :
  forall n : Z, Z.abs n <= 2 ^ 53 -> to_integer (CInt n) = Ok (CInt n) /\ to_integer CNull = Ok CNull.
Proof. intros n H. unfold to_integer. now rewrite (DateFunctions.to_float_exact n H). Qed.
Print Assumptions integers_stay_partial.
(** ... larger ones change by at most one part in 2^53, ... *)
Theorem integers_nearly_stay :
  forall n f : Z, to_integer (CInt n) = Ok (CInt f) -> Z.abs (f - n) * 2 ^ 53 <= Z.abs n.
Proof.
  intros n f H. apply DateFunctions.to_float_near. cbn [to_integer] in H. destruct (to_float n); cbn [bind] in H; congruence.
Qed.
Print Assumptions integers_nearly_stay.
(** ... and some do change. *)
Theorem integers_stay_refuted : exists n : Z, to_integer (CInt n) = Ok (CInt (n - 1)).
Proof. exists (2 ^ 53 + 1). vm_compute. reflexivity. Qed.
Print Assumptions integers_stay_refuted.

(** C69: ROUND(n, -k) is the nearest multiple of 10^k, the even one of two; ROUND(n, k) is n *)
Theorem rounded_to_tens : forall n k : Z, 0 < k -> nearest_multiple (10 ^ k) n (round_int n (- k)).
Proof. exact DateFunctions.round_int_nearest. Qed.
Print Assumptions rounded_to_tens.
Theorem rounded_integers_stay : forall n k : Z, 0 <= k -> round_int n k = n.
Proof. intros n k H. unfold round_int. now rewrite (proj2 (Z.leb_le 0 k) H). Qed.
Print Assumptions rounded_integers_stay.

(** *** Examples *)
Example ex_written : written (2024, 12, 30) (13, 5, 59) $"2024-12-30T13:05:59.123+01:00".
Proof.
  change $"2024-12-30T13:05:59.123+01:00" with (iso_seconds "T"%char 2024 12 30 13 5 59 ++ $".123" ++ $"+01:00").
  apply written_seconds; [|repeat split; lia|left; reflexivity|cbn; intuition discriminate|right; right; exists $"01:00"; reflexivity|cbn; lia|cbn; lia].
  split; [split; [lia|exists 31; split; [left; split; [cbn; intuition|reflexivity]|lia]]|lia].
Qed.
(** Monday, 30 December 2024, is in week 1 of 2025 *)
Example ex_week : get_week (CText $"2024-12-30T13:05:59.123+01:00") = Ok (CInt 1) /\ get_week (CText $"2021-01-03") = Ok (CInt 53)
  /\ get_quarter (CText $"2024-12-30") = Ok (CInt 4) /\ get_week (CText $"tomorrow") = Ok CNull.
Proof. vm_compute. auto. Qed.
Example ex_apart : days_apart 2 (2024, 12, 30) (2025, 1, 1) /\ days_apart (-1) (2025, 1, 1) (2024, 12, 31).
Proof.
  assert (N1: next_day (2024, 12, 30) (2024, 12, 31)).
  { apply (nd_day 2024 12 30). split; [lia|]. exists 31. split; [left; split; [cbn; intuition|reflexivity]|lia]. }
  pose proof (nd_year 2024) as N2. split.
  - left. split; [lia|]. change (Z.to_nat 2) with 2%nat. eapply one_later; [eapply one_later; [apply same_date|exact N1]|exact N2].
  - right. split; [lia|]. change (Z.to_nat (- -1)) with 1%nat. eapply one_later; [apply same_date|exact N2].
Qed.
Example ex_add : add_days (CText $"2024-12-30 13:05") (CInt 2) = Ok (CMoment (of_fields 2025 1 1 13 5 0))
  /\ add_days (CText $"2024-12-30") (CInt 10000000) = Raise OverflowError
  /\ diff_days (CText $"2024-02-28") (CText $"2024-03-01") = Ok (CInt 2).
Proof. vm_compute. auto. Qed.
Example ex_no_later : ~ exists b, is_date b /\ days_apart 1 (9999, 12, 31) b.
Proof.
  intros ([[y m] d] & [V H] & [[_ L]|[L _]]); [|lia]. change (Z.to_nat 1) with 1%nat in L.
  inversion L as [|n a b c L' N]; subst. inversion L'; subst. inversion N as [? ? ? V'| ? ? ? _ L2|]; subst; try lia.
  destruct V' as [_ (n & M & Hn)]. destruct M as [[_ ->]|[[M _]|[M _]]]; [lia| |lia]. cbn in M. intuition discriminate.
Qed.
Example ex_round : round_int 1250 (-2) = 1200 /\ round_int 1350 (-2) = 1400 /\ round_int (-1251) (-2) = -1300 /\ round_int 7 3 = 7.
Proof. vm_compute. auto. Qed.
