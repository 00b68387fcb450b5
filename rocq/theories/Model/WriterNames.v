(** Model of what Writer.__init__ (mabel/data/writers/writer.py) makes of the name of the dataset. *)
From Verif.Base Require Import Py.
From Verif.Model Require Import Paths.

(** writer.py:47-54: each exception is made, and not raised *)
Definition name_checks (dataset : str) : result unit :=
  let _ := if contains $"BACKOUT" dataset then Some InvalidDataSetError else None in
  let _ := if endswith $"/" dataset then Some InvalidDataSetError else None in
  let _ := if contains $"{" dataset || contains $"}" dataset then Some InvalidDataSetError else None in
  let _ := if contains $"%" dataset then Some InvalidDataSetError else None in
  Ok tt.

(** writer.py:57-72.  [raw_path] is the text of the argument, if it is given. *)
Definition without_legacy (raw_path : option str) (dataset : str) (partitions : option (list str)) : str * option (list str) :=
  let partitions := match raw_path with
                    | Some r => if str_eqb (upper r) $"TRUE" then None else partitions
                    | None => partitions
                    end in
  if contains $"{date" dataset then
    let (dataset, partitions) := if contains $"{datefolders}" dataset
      then (replace $"{datefolders}" [] dataset, Some [$"year_{yyyy}/month_{mm}/day_{dd}"]) else (dataset, partitions) in
    if contains $"{datefolders_short}" dataset
      then (replace $"{datefolders_short}" [] dataset, Some [$"{yyyy}/{mm}/{dd}"]) else (dataset, partitions)
  else (dataset, partitions).
(** writer.py:91-94: what the dates are put into *)
Definition writer_template (raw_path : option str) (dataset : str) (partitions : option (list str)) : str :=
  match without_legacy raw_path dataset partitions with
  | (dataset, Some ((_ :: _) as partitions)) => dataset ++ $"/" ++ join $"/" partitions
  | (dataset, _) => dataset
  end.
(** stream_writer.py:107-109: the identity a StreamWriter gives a valid record, before the fields of the
    record are put in (Model/Stream.v) *)
Definition stream_identity (raw_path : option str) (dataset : str) (partitions : option (list str)) (at_ : moment) : str :=
  date_format (writer_template raw_path dataset partitions) at_.
