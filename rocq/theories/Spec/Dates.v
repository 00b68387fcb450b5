(** Calendar dates, hours and durations. *)
From Verif.Base Require Import Py.
From Verif.Model Require Import Paths.

(** the Gregorian calendar, from its definition *)
Definition leap (y : Z) : Prop := (Z.divide 4 y /\ (~ Z.divide 100 y \/ Z.divide 400 y))%Z.
Definition month_length (y m n : Z) : Prop :=
  (In m [1;3;5;7;8;10;12] /\ n = 31 \/ In m [4;6;9;11] /\ n = 30
   \/ m = 2 /\ (leap y /\ n = 29 \/ ~ leap y /\ n = 28))%Z.
Definition valid_date (y m d : Z) : Prop :=
  (1 <= y)%Z /\ exists n, month_length y m n /\ (1 <= d <= n)%Z.
Definition valid_time (hh mm ss : Z) : Prop := (0 <= hh <= 23 /\ 0 <= mm <= 59 /\ 0 <= ss <= 59)%Z.

(** the next calendar day *)
Inductive next_day : Z * Z * Z -> Z * Z * Z -> Prop :=
| nd_day : forall y m d, valid_date y m (d + 1) -> next_day (y, m, d) (y, m, d + 1)%Z
| nd_month : forall y m d, month_length y m d -> (m < 12)%Z -> next_day (y, m, d) (y, m + 1, 1)%Z
| nd_year : forall y, next_day (y, 12, 31)%Z (y + 1, 1, 1)%Z.

(** successive days *)
Inductive consecutive : list (Z * Z * Z) -> Prop :=
| one_day : forall d, consecutive [d]
| then_day : forall d d' l, next_day d d' -> consecutive (d' :: l) -> consecutive (d :: d' :: l).

(** instants are seconds; [h] is the full hour of [t] *)
Definition full_hour (h : Z) : Prop := (h mod 3600 = 0)%Z.
Definition hour_of (t h : Z) : Prop := full_hour h /\ (h <= t < h + 3600)%Z.

(** ISO texts *)
Definition iso_date (y m d : Z) : str :=
  dec_pad 4 (Z.to_N y) ++ $"-" ++ dec_pad 2 (Z.to_N m) ++ $"-" ++ dec_pad 2 (Z.to_N d).
Definition iso_minutes (sep : ascii) (y m d hh mm : Z) : str :=
  iso_date y m d ++ [sep] ++ dec_pad 2 (Z.to_N hh) ++ $":" ++ dec_pad 2 (Z.to_N mm).
Definition iso_seconds (sep : ascii) (y m d hh mm ss : Z) : str :=
  iso_minutes sep y m d hh mm ++ $":" ++ dec_pad 2 (Z.to_N ss).

(** a number with a unit: an optional minus sign, digits, the unit letter in either case *)
Definition number (z : Z) (s : str) : Prop := exists n, undec s = Some n /\ z = Z.of_N n.
Inductive quantity (unit : ascii) : Z -> str -> Prop :=
| q_plus : forall z s u, number z s -> lower_c u = unit -> quantity unit z (s ++ [u])
| q_minus : forall z s u, number z s -> lower_c u = unit -> quantity unit (- z) ("-"%char :: s ++ [u]).
(** an optional quantity: absent counts nothing *)
Inductive opt_quantity (unit : ascii) : Z -> str -> Prop :=
| oq_none : opt_quantity unit 0 []
| oq_some : forall z s, quantity unit z s -> opt_quantity unit z s.
Definition total_seconds (d h m s : Z) : Z := (86400 * d + 3600 * h + 60 * m + s)%Z.
(** what Python's timedelta can hold *)
Definition timedelta_range (t : Z) : Prop := (-999999999 * 86400 <= t < 1000000000 * 86400)%Z.

(** a time zone text: nothing, Z, or "+" and an offset *)
Definition zone_text (z : str) : Prop := z = [] \/ z = $"Z" \/ exists r, z = "+"%char :: r.

(** [a] is the day [k] days before [b] *)
Definition days_before (k : nat) (a b : Z * Z * Z) : Prop :=
  exists days, consecutive days /\ length days = S k /\ hd_error days = Some a /\ last days (0, 0, 0)%Z = b.
