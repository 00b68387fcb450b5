(** mabel/data/readers/internals/inline_functions.py: the functions of dates and of numbers.

    The functions of texts are in Evaluator.v.  Not modelled: NOW, RANDOM, HASH and MD5, and numbers that are not
    integers.  Dates have no microseconds: parse_iso does not read them (utils/dates.py 101-115). *)
From Verif.Base Require Import Py.
From Verif.Model Require Import Paths Dates.
Local Open Scope Z_scope.

(** what a function gets and answers: None, an integer, a text, a datetime.date, a datetime.time, a datetime.datetime *)
Inductive cell := CNull | CInt (z : Z) | CText (s : str) | CDate (y m d : Z) | CTime (hh mm ss : Z) | CMoment (t : datetime).

(** 22-23: [if isinstance(input, str): input = parse_iso(input)] *)
Definition read_date (c : cell) : result cell :=
  match c with
  | CText s => let* o := parse_iso s in match o with Some t => Ok (CMoment t) | None => Ok CNull end
  | _ => Ok c
  end.
(** the attributes of a datetime *)
Definition day_of (t : datetime) : Z * Z * Z := ord2ymd (t / 86400 + 1).
Definition hour (t : datetime) : Z := t mod 86400 / 3600.
Definition minute (t : datetime) : Z := t mod 3600 / 60.
Definition second (t : datetime) : Z := t mod 60.

(** a part both dates and datetimes have *)
Definition date_part (part : Z * Z * Z -> Z) (c : cell) : result cell :=
  let* c := read_date c in
  match c with
  | CMoment t => Ok (CInt (part (day_of t)))
  | CDate y m d => Ok (CInt (part (y, m, d)))
  | _ => Ok CNull
  end.
(** a part only datetimes have: a date has no such attribute *)
Definition time_part (part : datetime -> cell) (c : cell) : result cell :=
  let* c := read_date c in
  match c with
  | CMoment t => Ok (part t)
  | CDate _ _ _ => Raise AttributeError
  | _ => Ok CNull
  end.

(** 18-26, 29-37, 40-48 *)
Definition get_year := date_part (fun '(y, m, d) => y).
Definition get_month := date_part (fun '(y, m, d) => m).
Definition get_day := date_part (fun '(y, m, d) => d).
(** 51-59, 62-70 *)
Definition get_date := time_part (fun t => let '(y, m, d) := day_of t in CDate y m d).
Definition get_time := time_part (fun t => CTime (hour t) (minute t) (second t)).
(** 73-81 *)
Definition get_quarter := date_part (fun '(y, m, d) => (m - 1) / 3 + 1).
(** 84-92, 95-103, 106-114 *)
Definition get_hour := time_part (fun t => CInt (hour t)).
Definition get_minute := time_part (fun t => CInt (minute t)).
Definition get_second := time_part (fun t => CInt (second t)).

(** 117-125: [int(input.strftime("%V"))].  strftime is the C library's, with the day of the week (Sunday is 0) and the
    day of the year (January 1 is 0); this is glibc's (time/strftime_l.c, iso_week_days and the cases G, g and V). *)
Definition iso_week_days (yday wday : Z) : Z := yday - (yday - wday + 4 + 378) mod 7 + 4 - 1.
Definition week_of (day : Z * Z * Z) : Z :=
  let '(y, m, d) := day in
  let ord := ymd2ord y m d in
  let wday := ord mod 7 in
  let yday := ord - days_before_year y - 1 in
  let days := iso_week_days yday wday in
  let days :=
    if days <? 0 then iso_week_days (yday + (365 + if is_leap (y - 1) then 1 else 0)) wday
    else let d' := iso_week_days (yday - (365 + if is_leap y then 1 else 0)) wday in
         if 0 <=? d' then d' else days in
  days / 7 + 1.
Definition get_week := date_part week_of.

(** datetime.timedelta(days=n) *)
Definition timedelta_days (n : Z) : result Z :=
  if (-999999999 <=? n) && (n <=? 999999999) then Ok n else Raise OverflowError.
(** [date + timedelta]: the days from 0001-01-01 to 9999-12-31 *)
Definition max_ordinal : Z := 3652059.
Definition plus_days (ord n : Z) : result Z :=
  if (1 <=? ord + n) && (ord + n <=? max_ordinal) then Ok (ord + n) else Raise OverflowError.
(** 157-162.  Another number than an integer is not in the model; what is no number is a TypeError *)
Definition add_days (start_date day_count : cell) : result cell :=
  let* c := read_date start_date in
  match c with
  | CMoment t =>
    let* n := match day_count with CInt n => timedelta_days n | _ => Raise TypeError end in
    let* o := plus_days (t / 86400 + 1) n in Ok (CMoment ((o - 1) * 86400 + t mod 86400))
  | CDate y m d =>
    let* n := match day_count with CInt n => timedelta_days n | _ => Raise TypeError end in
    let* o := plus_days (ymd2ord y m d) n in let '(y', m', d') := ord2ymd o in Ok (CDate y' m' d')
  | _ => Ok CNull
  end.
(** 165-174: a datetime and a date cannot be subtracted *)
Definition diff_days (start_date end_date : cell) : result cell :=
  let* s := read_date start_date in
  let* e := read_date end_date in
  match s, e with
  | CMoment t, CMoment t' => Ok (CInt ((t' - t) / 86400))
  | CDate y m d, CDate y' m' d' => Ok (CInt (ymd2ord y' m' d' - ymd2ord y m d))
  | CMoment _, CDate _ _ _ | CDate _ _ _, CMoment _ => Raise TypeError
  | _, _ => Ok CNull
  end.

(** float(n) of an integer: 53 significant bits, rounded to the nearest, a tie to the even one; too large a number is an
    OverflowError *)
Definition to_float (n : Z) : result Z :=
  let a := Z.abs n in
  let e := Z.log2 a - 52 in
  if e <=? 0 then Ok n
  else
    let u := 2 ^ e in
    let q := a / u in
    let r := a mod u in
    let q := if (2 * r <? u) || ((2 * r =? u) && Z.even q) then q else q + 1 in
    let f := q * u in
    if 2 ^ 1024 <=? f then Raise OverflowError else Ok (Z.sgn n * f).
(** 177-183, 216-217: TRUNC and INTEGER *)
Definition to_integer (c : cell) : result cell :=
  match c with
  | CNull => Ok CNull
  | CInt z => let* f := to_float z in Ok (CInt f)
  | _ => Raise TypeError
  end.
(** 215: round(n, k) of an integer: n itself, or with a negative k the nearest multiple of a power of ten, a tie to the
    even multiple *)
Definition round_int (n k : Z) : Z :=
  if 0 <=? k then n
  else
    let u := 10 ^ (- k) in
    let q := n / u in
    let r := n mod u in
    (if (2 * r <? u) || ((2 * r =? u) && Z.even q) then q else q + 1) * u.
