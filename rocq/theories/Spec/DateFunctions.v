(** Specification: the parts of dates, counting days, weeks, and rounding. *)
From Verif.Base Require Import Py.
From Verif.Spec Require Import Dates.
Local Open Scope Z_scope.

(** a calendar date and a time of day *)
Definition date : Type := Z * Z * Z.
Definition time : Type := Z * Z * Z.
Definition is_date (a : date) : Prop := let '(y, m, d) := a in valid_date y m d /\ y <= 9999.
Definition is_time (t : time) : Prop := let '(hh, mm, ss) := t in valid_time hh mm ss.

(** the ISO texts of a date and a time: the date alone (midnight), with hours and minutes, with seconds and a fraction;
    a time zone is not read *)
Inductive written : date -> time -> str -> Prop :=
| written_date y m d : is_date (y, m, d) -> written (y, m, d) (0, 0, 0) (iso_date y m d)
| written_minutes y m d hh mm sep zone : is_date (y, m, d) -> is_time (hh, mm, 0) ->
    In sep $"T " -> zone_text zone -> (length zone <= 17)%nat ->
    written (y, m, d) (hh, mm, 0) (iso_minutes sep y m d hh mm ++ zone)
| written_seconds y m d hh mm ss sep frac zone : is_date (y, m, d) -> is_time (hh, mm, ss) ->
    In sep $"T " -> ~ In "+"%char frac -> zone_text zone ->
    (length frac <= 9)%nat -> (length (frac ++ zone) <= 14)%nat ->
    written (y, m, d) (hh, mm, ss) (iso_seconds sep y m d hh mm ss ++ frac ++ zone).

(** [b] is [n] days after [a] *)
Inductive days_later : nat -> date -> date -> Prop :=
| same_date a : days_later 0 a a
| one_later n a b c : days_later n a b -> next_day b c -> days_later (S n) a c.
(** [b] is [n] days after [a], or before if [n] is negative *)
Definition days_apart (n : Z) (a b : date) : Prop :=
  (0 <= n /\ days_later (Z.to_nat n) a b) \/ (n < 0 /\ days_later (Z.to_nat (- n)) b a).
Definition seconds (t : time) : Z := let '(hh, mm, ss) := t in hh * 3600 + mm * 60 + ss.

(** the days of the week, Monday is 0; 0001-01-01 is a Monday in the Gregorian calendar *)
Definition weekday (a : date) (w : Z) : Prop := exists n, days_later n (1, 1, 1) a /\ w = Z.of_nat n mod 7.
(** ISO 8601: a week is Monday to Sunday, and belongs to the year its Thursday is in; the weeks of a year are numbered
    from 1 *)
Definition iso_week (a : date) (w : Z) : Prop :=
  exists thursday y m d n k,
    thursday = (y, m, d) /\ weekday thursday 3 /\ days_apart n a thursday /\ -3 <= n <= 3 /\
    days_later k (y, 1, 1) thursday /\ w = Z.of_nat k / 7 + 1.

(** the quarters of the year *)
Definition quarter (m q : Z) : Prop :=
  (In m [1; 2; 3] /\ q = 1) \/ (In m [4; 5; 6] /\ q = 2) \/ (In m [7; 8; 9] /\ q = 3) \/ (In m [10; 11; 12] /\ q = 4).

(** [r] is a multiple of [u] next to [n], the even one if two are as near *)
Definition nearest_multiple (u n r : Z) : Prop :=
  exists q, r = q * u /\ 2 * Z.abs (n - r) <= u /\ (2 * Z.abs (n - r) = u -> Z.even q = true).
