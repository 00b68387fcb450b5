(** Model of BaseInnerReader.__init__ (dates and dataset) and of the date loop of get_list_of_blobs
    (mabel/data/readers/internals/base_inner_reader.py). *)
From Verif.Base Require Import Py.
From Verif.Model Require Import Paths Dates Frames.

(** base_inner_reader.py:37-45 *)
Definition reader_dataset (dataset : str) (partitions : list str) : str :=
  let dataset := if endswith $"/" dataset then dataset else dataset ++ $"/" in
  match partitions with [] => dataset | _ => dataset ++ join $"/" partitions ++ $"/" end.

(** parse_iso of a date argument (dates.py:81-84 for dates and datetimes) *)
Definition parse_date_arg (b : bound) : result (option datetime) :=
  match b with
  | BText s => parse_iso s
  | BDate y m d => Ok (Some (of_fields y m d 0 0 0))
  | BDatetime t => Ok (Some t)
  | BNone => Ok None
  end.
(** base_inner_reader.py:48-52; [today] is utcnow() cut to the hour *)
Definition reader_dates (today : datetime) (start_date end_date : bound) : result (datetime * datetime) :=
  let* s := parse_date_arg start_date in
  let* e := parse_date_arg end_date in
  let s := match s with Some t => t | None => today end in
  let e := match e with Some t => t | None => today end in
  Ok (Z.min s e, Z.max s e).

(** base_inner_reader.py:89-222.  [rnd] is what random_string gives for a "{stem}" in the dataset,
    here the same for every hour. *)
Definition list_range (pf : option (str * str * str)) (store : str -> list str) (now : datetime)
           (rnd dataset : str) (start_date end_date : datetime) : result (list str) :=
  let* hours := date_range now (BDatetime start_date) (BDatetime end_date) in
  let* paths := mapM (fun h => cycle_path rnd dataset (fields_of h)) hours in
  get_list_of_blobs pf store paths.
