(** mabel/data/readers/reader.py 202-231: the select and the filter of a Reader as texts, and the reader of a SQL query
    (readers/internals/sql_reader.py 271-281).  Reading itself is in Reader.v. *)
From Verif.Base Require Import Py Value.
From Verif.Model Require Import Tokens Evaluator Expression ToDnf Storage Reader.

Section Query.
  Context (float_of date_of : str -> option value) (py_is : value -> value -> bool) (matches : value -> value -> result bool).
  Context (apply : str -> list value -> result value).

  (** reader.py 228-231: [Evaluator(select)] or [pass_thru]; only a dictionary has columns *)
  Definition make_select (select : str) : result (value -> result value) :=
    if str_eqb select $"*" then Ok pass_thru
    else let* items := new_evaluator float_of date_of select in
         Ok (fun v => match v with
                      | VDict r => let* out := evaluate float_of date_of apply items r in Ok (VDict out)
                      | _ => Raise AttributeError
                      end).

  (** reader.py 221-226, 272 and parallel_reader.py 112-115: [Expression(filters)], which must have a DNF, or [pass_thru].
      Simplification: [to_dnf] is only called when there are blobs. *)
  Definition make_filter (filters : option str) : result (value -> result bool) :=
    match filters with
    | None => Ok pass_thru_filter
    | Some text =>
        let* t := init_expression float_of date_of text in
        let* _ := to_dnf t in
        Ok (fun v => match v with
                     | VDict r => let* x := evaluate_recursive float_of date_of py_is matches t r in Ok (truthy x)
                     | _ => Raise AttributeError
                     end)
    end.

  Definition as_record (v : value) : result record := match v with VDict r => Ok r | _ => Raise TypeError end.

  (** [open dataset columns filters n]: the first n records which a reader of the dataset gives with these (Reader.v).
      Simplification: a SqlReader reads records when it is asked for them, here n of them are read before. *)
  Context (open : str -> (value -> result value) -> (value -> result bool) -> nat -> result (list value)) (n : nat).

  (** reader.py 49-231 [Reader(select, dataset, filters)] *)
  Definition query_reader (select dataset : str) (filters : option str) : result (list record) :=
    let* f := make_filter filters in
    let* columns := make_select select in
    let* values := open dataset columns f n in
    mapM as_record values.
End Query.
