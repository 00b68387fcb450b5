(** mabel/data/internals/dictset.py 245-263: the mean and the variance of a column.

    Python's [statistics] module calculates with fractions and converts the result last: to an integer if it is one,
    otherwise to the nearest float.  Here results are the fractions, before that conversion.  The standard deviation
    (265-273), a rounded square root of the variance, is not modelled.  Values are integers, true (1) and false (0);
    there are no floats in this model. *)
From Coq Require Import QArith.
From Verif.Base Require Import Py Value.
From Verif.Model Require Import DictSet.
Local Open Scope Q_scope.

(** statistics.py [_sum]: the sum of numbers; anything else is a TypeError *)
Fixpoint exact_sum (data : list value) : result Q :=
  match data with
  | [] => Ok 0
  | v :: rest =>
      match num_of v with
      | Some z => let* s := exact_sum rest in Ok (inject_Z z + s)
      | None => Raise TypeError
      end
  end.

(** statistics.py [mean]; StatisticsError is a kind of ValueError *)
Definition statistics_mean (data : list value) : result Q :=
  if (Z.of_nat (length data) <? 1)%Z then Raise ValueError
  else let* total := exact_sum data in Ok (total / inject_Z (Z.of_nat (length data))).

(** statistics.py [_ss]: the sum of the squares of the differences from [c].  The data have been added before, so
    all of them are numbers *)
Definition squares (c : Q) (data : list value) : Q :=
  fold_left (fun acc v => match num_of v with Some z => acc + (inject_Z z - c) * (inject_Z z - c) | None => acc end)
            data 0.

(** statistics.py [variance] *)
Definition statistics_variance (data : list value) : result Q :=
  if (Z.of_nat (length data) <? 2)%Z then Raise ValueError
  else let* total := exact_sum data in
       let c := total / inject_Z (Z.of_nat (length data)) in
       Ok (squares c data / inject_Z (Z.of_nat (length data) - 1)).

(** dictset.py 245-253 [mean] *)
Definition ds_mean (key : str) (rows : list record) : result Q := statistics_mean (collect_list key rows).
(** dictset.py 255-263 [variance] *)
Definition ds_variance (key : str) (rows : list record) : result Q := statistics_variance (collect_list key rows).
