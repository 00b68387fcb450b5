(** What the operations on sets of records are expected to do. *)
From Coq Require Export Permutation Sorted.
From Verif.Base Require Import Py Value.

(** ** Sorting *)
(** a column of numbers / of texts; null or missing values are allowed *)
Definition number_column (c : str) (rows : list record) : Prop :=
  forall r, In r rows -> rget c r = VNull \/ exists z, num_of (rget c r) = Some z.
Definition text_column (c : str) (rows : list record) : Prop :=
  forall r, In r rows -> rget c r = VNull \/ exists s, rget c r = VStr s.

(** [v] comes before or ties with [w] in ascending order; nulls come first *)
Inductive value_le : value -> value -> Prop :=
| null_first w : value_le VNull w
| numbers_le v w x y : num_of v = Some x -> num_of w = Some y -> (x <= y)%Z -> value_le v w
| texts_le s t : str_leb s t = true -> value_le (VStr s) (VStr t).

Definition row_le (c : str) (descending : bool) (a b : record) : Prop :=
  if descending then value_le (rget c b) (rget c a) else value_le (rget c a) (rget c b).

(** [out] is [l] sorted by [R], keeping the order of elements which tie *)
Definition stable_sort {A} (R : A -> A -> Prop) (l out : list A) : Prop :=
  Permutation out l /\ StronglySorted R out /\
  forall tied : A -> bool,
    (forall a b, tied a = true -> tied b = true -> R a b) -> filter tied out = filter tied l.

(** ** First occurrences: [first_occurrences same before l out] - [out] keeps, in order, the elements of
    [l] for which there is no earlier element (in [before] or in [l]) which is the [same] *)
Inductive first_occurrences {A} (same : A -> A -> Prop) : list A -> list A -> list A -> Prop :=
| fo_nil before : first_occurrences same before [] []
| fo_keep before x l out :
    (forall y, In y before -> ~ same y x) ->
    first_occurrences same (before ++ [x]) l out -> first_occurrences same before (x :: l) (x :: out)
| fo_drop before x l out :
    (exists y, In y before /\ same y x) ->
    first_occurrences same (before ++ [x]) l out -> first_occurrences same before (x :: l) out.

(** [picks P l sub]: [sub] are the elements of [l] which satisfy [P], in order *)
Inductive picks {A} (P : A -> Prop) : list A -> list A -> Prop :=
| picks_nil : picks P [] []
| picks_in x l sub : P x -> picks P l sub -> picks P (x :: l) (x :: sub)
| picks_out x l sub : ~ P x -> picks P l sub -> picks P (x :: l) sub.

(** two records have the same values in these columns *)
Definition agree_on (columns : list str) (a b : record) : Prop :=
  forall c, In c columns -> rget c a = rget c b.

(** every record has the column, with texts only, or with numbers, booleans and nulls only *)
Definition one_kind (c : str) (rows : list record) : Prop :=
  (forall r, In r rows -> exists s, dget str_eqb c r = Some (VStr s)) \/
  (forall r, In r rows -> exists v, dget str_eqb c r = Some v /\
     match v with VNull | VBool _ | VInt _ => True | _ => False end).
(** every value of the column is printed with the same number of characters *)
Definition same_width (c : str) (rows : list record) : Prop :=
  forall r r', In r rows -> In r' rows -> length (py_str (rget c r)) = length (py_str (rget c r')).

(** the record has this column *)
Definition has_column (c : str) (r : record) : Prop := dget str_eqb c r <> None.

(** ** Aggregates *)
(** the values of a column, of the records which have it *)
Fixpoint column_values (c : str) (rows : list record) : list value :=
  match rows with
  | [] => []
  | r :: rest => match dget str_eqb c r with
                 | Some v => v :: column_values c rest
                 | None => column_values c rest
                 end
  end.
Definition all_numbers (vs : list value) : Prop := Forall (fun v => exists z, num_of v = Some z) vs.
Definition number (v : value) : Z := match num_of v with Some z => z | None => 0 end.
Fixpoint total (vs : list value) : Z :=
  match vs with [] => 0%Z | v :: vs' => (number v + total vs')%Z end.
Definition greatest (vs : list value) (m : value) : Prop :=
  In m vs /\ forall v, In v vs -> (number v <= number m)%Z.
Definition least (vs : list value) (m : value) : Prop :=
  In m vs /\ forall v, In v vs -> (number m <= number v)%Z.

(** ** Records *)
Definition well_formed (r : record) : Prop := NoDup (map fst r).
(** two records are the same but for the order of their columns *)
Definition same_columns (a b : record) : Prop := Permutation a b.

(** ** Leaves of a nested record *)
Definition scalar (v : value) : Prop :=
  match v with VList _ | VDict _ => False | _ => True end.
(** [leaf_at p x v]: following the keys [p] in [v] ends at the scalar [x] *)
Inductive leaf_at : list str -> value -> value -> Prop :=
| leaf_here x : scalar x -> leaf_at [] x x
| leaf_in p x k w d : In (k, w) d -> leaf_at p x w -> leaf_at (k :: p) x (VDict d).

(** nested records without lists whose keys are not empty and have no dot *)
Definition plain_key (k : str) : Prop := k <> [] /\ ~ In "."%char k.
Inductive nested : value -> Prop :=
| nested_scalar v : scalar v -> nested v
| nested_dict d : NoDup (map fst d) -> Forall plain_key (map fst d) -> Forall nested (map snd d) ->
                  nested (VDict d).

(** the values of a record as texts with their positions: "0,x", "1,y", ... *)
Fixpoint numbered (i : N) (values : list value) : list str :=
  match values with
  | [] => []
  | v :: rest => (dec i ++ $"," ++ py_str v) :: numbered (i + 1) rest
  end.
(** the hashes of some texts, combined by exclusive or *)
Definition xor_all (hash : str -> Z) (texts : list str) : Z := fold_right Z.lxor 0%Z (map hash texts).
