(** Model of mabel/utils/dates.py and of the parts of Python's datetime it relies on. *)
From Verif.Base Require Import Py.
From Verif.Model Require Import Paths.

(** ** Python's proleptic Gregorian calendar (Lib/_pydatetime.py) *)
Definition is_leap (y : Z) : bool :=
  (y mod 4 =? 0)%Z && (negb (y mod 100 =? 0)%Z || (y mod 400 =? 0)%Z).
(** _days_before_year *)
Definition days_before_year (year : Z) : Z :=
  let y := (year - 1)%Z in (y * 365 + y / 4 - y / 100 + y / 400)%Z.
(** _DAYS_IN_MONTH, _DAYS_BEFORE_MONTH, indexed by month 1..12 *)
Definition days_in_month_table : list Z := [0;31;28;31;30;31;30;31;31;30;31;30;31]%Z.
Definition days_before_month_table : list Z := [0;0;31;59;90;120;151;181;212;243;273;304;334]%Z.
Definition days_in_month (year month : Z) : Z :=
  if (month =? 2)%Z && is_leap year then 29%Z else nth (Z.to_nat month) days_in_month_table 0%Z.
Definition days_before_month (year month : Z) : Z :=
  (nth (Z.to_nat month) days_before_month_table 0 + (if (2 <? month) && is_leap year then 1 else 0))%Z.
(** _ymd2ord *)
Definition ymd2ord (y m d : Z) : Z := (days_before_year y + days_before_month y m + d)%Z.
(** _ord2ymd *)
Definition ord2ymd (n : Z) : Z * Z * Z :=
  let n := (n - 1)%Z in
  let n400 := (n / 146097)%Z in let n := (n mod 146097)%Z in
  let year := (n400 * 400 + 1)%Z in
  let n100 := (n / 36524)%Z in let n := (n mod 36524)%Z in
  let n4 := (n / 1461)%Z in let n := (n mod 1461)%Z in
  let n1 := (n / 365)%Z in let n := (n mod 365)%Z in
  let year := (year + n100 * 100 + n4 * 4 + n1)%Z in
  if (n1 =? 4)%Z || (n100 =? 4)%Z then ((year - 1)%Z, 12%Z, 31%Z)
  else
    let leapyear := (n1 =? 3)%Z && (negb (n4 =? 24)%Z || (n100 =? 3)%Z) in
    let month := ((n + 50) / 32)%Z in
    let preceding := (nth (Z.to_nat month) days_before_month_table 0
                      + (if (2 <? month)%Z && leapyear then 1 else 0))%Z in
    if (n <? preceding)%Z then
      let month := (month - 1)%Z in
      let preceding := (preceding - (nth (Z.to_nat month) days_in_month_table 0
                        + (if (month =? 2)%Z && leapyear then 1 else 0)))%Z in
      (year, month, (n - preceding + 1)%Z)
    else (year, month, (n - preceding + 1)%Z).

(** a naive datetime without microseconds: seconds since 0001-01-01T00:00:00 *)
Definition datetime := Z.
Definition of_fields (y m d hh mm ss : Z) : datetime :=
  ((ymd2ord y m d - 1) * 86400 + hh * 3600 + mm * 60 + ss)%Z.
Definition fields_of (t : datetime) : moment :=
  let '(y, m, d) := ord2ymd (t / 86400 + 1) in
  let s := (t mod 86400)%Z in
  mkMoment (Z.to_N y) (Z.to_N m) (Z.to_N d)
           (Z.to_N (s / 3600)) (Z.to_N (s mod 3600 / 60)) (Z.to_N (s mod 60)).
(** datetime.datetime(y, m, d, ...): the constructor's checks *)
Definition make_datetime (y m d hh mm ss : Z) : result datetime :=
  if ((1 <=? y) && (y <=? 9999) && (1 <=? m) && (m <=? 12) && (1 <=? d) && (d <=? days_in_month y m)
     && (0 <=? hh) && (hh <=? 23) && (0 <=? mm) && (mm <=? 59) && (0 <=? ss) && (ss <=? 59))%Z
  then Ok (of_fields y m d hh mm ss) else Raise ValueError.

(** ** int(text): blanks around, a sign, digits with single underscores between them *)
Definition is_uspace (c : ascii) : bool :=
  let n := N_of_ascii c in is_space c || ((28 <=? n) && (n <=? 31))%N || (n =? 133)%N || (n =? 160)%N.
Fixpoint ulstrip (s : str) : str :=
  match s with [] => [] | c :: s' => if is_uspace c then ulstrip s' else s end.
Definition ustrip (s : str) : str := rev (ulstrip (rev (ulstrip s))).
Fixpoint int_digits (acc : Z) (s : str) : result Z :=
  match s with
  | [] => Ok acc
  | c :: s' =>
      match digit_val c with
      | Some d => int_digits (10 * acc + Z.of_N d) s'
      | None =>
          if Ascii.eqb c "_"%char then
            match s' with
            | c' :: s'' => match digit_val c' with
                           | Some d => int_digits (10 * acc + Z.of_N d) s''
                           | None => Raise ValueError
                           end
            | [] => Raise ValueError
            end
          else Raise ValueError
      end
  end.
Definition int_unsigned (s : str) : result Z :=
  match s with
  | c :: s' => match digit_val c with Some d => int_digits (Z.of_N d) s' | None => Raise ValueError end
  | [] => Raise ValueError
  end.
Definition py_int (s : str) : result Z :=
  match ustrip s with
  | "-"%char :: s' => let* z := int_unsigned s' in Ok (- z)%Z
  | "+"%char :: s' => int_unsigned s'
  | s' => int_unsigned s'
  end.

(** s[a:b] for 0 <= a <= b *)
Definition sub (s : str) (a b : nat) : str := firstn (b - a) (skipn a s).
(** value[i] in DATE_SEPARATORS etc.; raises IndexError beyond the end *)
Definition char_in (s : str) (i : nat) (set : str) : result bool :=
  let* c := py_index s (Z.of_nat i) in Ok (mem Ascii.eqb c set).

(** dates.py:43-134 for a text.  The outer try catches ValueError and TypeError. *)
Definition parse_iso_body (value : str) : result (option datetime) :=
  if (10 <=? length value)%nat && (length value <=? 33)%nat then
    let* last := py_index value (-1) in
    let value := if Ascii.eqb last "Z"%char then slice_to value (-1) else value in
    let plus := contains $"+" value in
    let value := if plus then hd [] (split "+"%char value) else value in
    if plus && negb ((10 <=? length value)%nat && (length value <=? 28)%nat) then Ok None
    else
      let val_len := length value in
      let* s4 := char_in value 4 $"-:" in
      let* seps := (if negb s4 then Ok true
                    else let* s7 := char_in value 7 $"-:" in Ok (negb s7)) in
      if seps then Ok None
      else if (val_len =? 10)%nat then
        let* y := py_int (sub value 0 4) in let* m := py_int (sub value 5 7) in
        let* d := py_int (sub value 8 10) in
        let* t := make_datetime y m d 0 0 0 in Ok (Some t)
      else if (16 <=? val_len)%nat then
        let* s10 := char_in value 10 $"T " in
        let* ok := (if s10 then char_in value 13 $"-:" else Ok false) in
        if negb ok then Ok None
        else
          let* secs := (if (19 <=? val_len)%nat then char_in value 16 $"-:" else Ok false) in
          if secs then
            let* y := py_int (sub value 0 4) in let* m := py_int (sub value 5 7) in
            let* d := py_int (sub value 8 10) in let* hh := py_int (sub value 11 13) in
            let* mm := py_int (sub value 14 16) in let* ss := py_int (sub value 17 19) in
            let* t := make_datetime y m d hh mm ss in Ok (Some t)
          else if (val_len =? 16)%nat then
            let* y := py_int (sub value 0 4) in let* m := py_int (sub value 5 7) in
            let* d := py_int (sub value 8 10) in let* hh := py_int (sub value 11 13) in
            let* mm := py_int (sub value 14 16) in
            let* t := make_datetime y m d hh mm 0 in Ok (Some t)
          else Ok None
      else Ok None
  else Ok None.
(** dates.py:133-134 *)
Definition catch_value_type {A} (r : result (option A)) : result (option A) :=
  match r with Raise ValueError => Ok None | Raise TypeError => Ok None | r => r end.
Definition parse_iso (value : str) : result (option datetime) := catch_value_type (parse_iso_body value).

(** ** date_range: dates.py:137-169.  A bound is a text, a date, a datetime or None. *)
Inductive bound := BText (s : str) | BDate (y m d : Z) | BDatetime (t : datetime) | BNone.
Definition parse_bound (now : datetime) (b : bound) : result datetime :=
  match b with
  | BText s => let* o := parse_iso s in Ok (match o with Some t => t | None => now end)
  | BDate y m d => Ok (of_fields y m d 0 0 0)
  | BDatetime t => Ok t
  | BNone => Ok now
  end.
(** dates.py:146-150: a bare end date covers its whole day (time.max is 23:59:59.999999; the
    fraction is dropped by the rounding to the hour below) *)
Definition full_day (b : bound) : bound :=
  match b with
  | BDate y m d => BDatetime (of_fields y m d 23 59 59)
  | BText s => if (length s =? 10)%nat then BText (s ++ $"T23:00:00") else b
  | b => b
  end.
(** .replace(minute=0, second=0, microsecond=0) *)
Definition floor_hour (t : datetime) : datetime := (t - t mod 3600)%Z.

Definition date_range (now : datetime) (start_date end_date : bound) : result (list datetime) :=
  let* e := parse_bound now (full_day end_date) in
  let e := floor_hour e in
  let* s := parse_bound now start_date in
  let s := floor_hour s in
  if (e <? s)%Z then Raise ValueError
  else Ok (map (fun n => (s + 3600 * Z.of_nat n)%Z) (seq 0 (S (Z.to_nat ((e - s) / 3600))))).

(** ** parse_delta: dates.py:11-40.  Each group is optional and greedy; as the unit letter is no
    digit the regular expression has at most one way to match a group. *)
Definition match_group (unit : ascii) (s : str) : option Z * str :=
  let (neg, s1) := match s with "-"%char :: r => (true, r) | _ => (false, s) end in
  let fix digits (s : str) (acc : Z) (seen : bool) : option (Z * str) :=
    match s with
    | c :: r => match digit_val c with
                | Some d => digits r (10 * acc + Z.of_N d)%Z true
                | None => if seen && Ascii.eqb (lower_c c) unit then Some (acc, r) else None
                end
    | [] => None
    end in
  match digits s1 0%Z false with
  | Some (v, r) => (Some (if neg then (- v)%Z else v), r)
  | None => (None, s)
  end.
Definition or0 (o : option Z) : Z := match o with Some z => z | None => 0%Z end.
(** datetime.timedelta in seconds; more than 999999999 days either way is an OverflowError *)
Definition make_timedelta (days hours minutes seconds : Z) : result Z :=
  let total := (days * 86400 + hours * 3600 + minutes * 60 + seconds)%Z in
  if ((-999999999 <=? total / 86400) && (total / 86400 <=? 999999999))%Z
  then Ok total else Raise OverflowError.
Definition parse_delta (delta : str) : result Z :=
  let (d, s) := match_group "d"%char delta in
  let (h, s) := match_group "h"%char s in
  let (m, s) := match_group "m"%char s in
  let (sec, _) := match_group "s"%char s in
  make_timedelta (or0 d) (or0 h) (or0 m) (or0 sec).
