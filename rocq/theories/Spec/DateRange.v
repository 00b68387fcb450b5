(** The instants meant by the bounds of a range of dates. *)
From Verif.Base Require Import Py.
From Verif.Model Require Import Paths Dates.
From Verif.Spec Require Import Dates.

(** a first bound: the beginning of a day, an instant, or now *)
Inductive starts (now : datetime) : bound -> Z -> Prop :=
| starts_date y m d : valid_date y m d -> starts now (BDate y m d) (of_fields y m d 0 0 0)
| starts_text y m d : valid_date y m d -> (y <= 9999)%Z -> starts now (BText (iso_date y m d)) (of_fields y m d 0 0 0)
| starts_time sep y m d hh mm ss : valid_date y m d -> (y <= 9999)%Z -> valid_time hh mm ss -> In sep $"T " ->
    starts now (BText (iso_seconds sep y m d hh mm ss)) (of_fields y m d hh mm ss)
| starts_instant t : starts now (BDatetime t) t
| starts_now : starts now BNone now.
(** a last bound: a day is meant to its end *)
Inductive ends (now : datetime) : bound -> Z -> Prop :=
| ends_date y m d : valid_date y m d -> ends now (BDate y m d) (of_fields y m d 23 59 59)
| ends_text y m d : valid_date y m d -> (y <= 9999)%Z -> ends now (BText (iso_date y m d)) (of_fields y m d 23 59 59)
| ends_time sep y m d hh mm ss : valid_date y m d -> (y <= 9999)%Z -> valid_time hh mm ss -> In sep $"T " ->
    ends now (BText (iso_seconds sep y m d hh mm ss)) (of_fields y m d hh mm ss)
| ends_instant t : ends now (BDatetime t) t
| ends_now : ends now BNone now.
