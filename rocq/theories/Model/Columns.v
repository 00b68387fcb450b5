(** mabel/data/internals/dictset.py: the types of the columns of a set. *)
From Verif.Base Require Import Py Value.
From Verif.Model Require Import Storage DictSet.

(** ** 183-196 [types] *)
Section Types.
  (** [type(val).__name__].  A parameter: the values of this model have no floats, so that a theorem for every
      [type_name] says what happens to them as well. *)
  Context (type_name : value -> str).

  (** 187: the set of the names *)
  Definition key_type (key : str) (top : list record) : list str :=
    dedup str_eqb (map type_name (filter (fun v => negb (is_none v)) (collect_list key top))).
  (** 188-195: what [response[key]] is in the end; what 188-189 sets is set again by 190-195 *)
  Definition kind (names : list str) : str :=
    match names with
    | [t] => t
    | _ => if list_eqb str_eqb (sorted_str names) [$"float"; $"int"] then $"numeric" else $"mixed"
    end.
  (** 183-196.  [top] is a set over the generator [itake]; without persistance (NO_PERSISTANCE) reading its keys uses
      the generator up, and [collect_list] finds nothing in it. *)
  Definition types (persisted : bool) (number_of_rows : Z) (rows : list record) : list (str * str) :=
    let top := take number_of_rows rows in
    let again := if persisted then top else [] in
    fold_left (fun response key => dset str_eqb key (kind (key_type key again)) response) (keys 0 top) [].
End Types.
