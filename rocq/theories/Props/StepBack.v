(** C21: the days which are read after stepping back. *)
From Verif.Base Require Import Py.
From Verif.Model Require Import Paths Dates Frames ReadRange Reader.
From Verif.Spec Require Import Paths Dates.
From Verif.Proofs Require StepBack.
Local Open Scope Z_scope.

(** C21: [k] steps back read exactly the folders of as many days as were asked for, from the day [k] days before the first to
    the day [k] days before the last, over the ends of months and years. *)
Theorem stepping_back_shifts_the_range :
  forall (pf : option (str * str * str)) (store : str -> list str) (now : datetime) (rnd : str) (t : list seg)
         (y m d hh mm ss y' m' d' hh' mm' ss' : Z) (k : nat),
    daily_template t -> valid_date y m d -> valid_time hh mm ss -> valid_date y' m' d' -> valid_time hh' mm' ss' ->
    of_fields y m d hh mm ss <= of_fields y' m' d' hh' mm' ss' ->
    (* the calendar begins with the year 1 *)
    Z.of_nat k * 24 * 60 * 60 <= of_fields y m d hh mm ss ->
    exists days a b, days_before k a (y, m, d) /\ days_before k b (y', m', d') /\
      consecutive days /\ hd_error days = Some a /\ last days (0, 0, 0) = b /\
      list_days_back pf store now rnd (template_text t ++ $"/") (of_fields y m d hh mm ss) (of_fields y' m' d' hh' mm' ss') k
      = get_list_of_blobs pf store (map (day_folder t) days).
Proof. exact StepBack.days_back. Qed.
Print Assumptions stepping_back_shifts_the_range.
Example ex_days_before : days_before 2 (2024, 2, 29) (2024, 3, 2).
Proof. exact (StepBack.days_between (ymd2ord 2024 3 2 - 1) 2 ltac:(vm_compute; discriminate)). Qed.
