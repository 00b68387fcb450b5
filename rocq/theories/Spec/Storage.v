(** Specification: the records of a set, wherever they are kept. *)
From Coq Require Import Sorted Permutation.
From Verif.Base Require Import Py Value.
From Verif.Model Require Import Storage.

(** [out] are the records at these positions, in this order *)
Definition records_at (rows : list value) (positions : list Z) (out : list value) : Prop :=
  Forall2 (fun i v => (0 <= i)%Z /\ nth_error rows (Z.to_nat i) = Some v) positions out.

(** every position is one of the set's *)
Definition in_range (rows : list value) (locations : list Z) : Prop :=
  Forall (fun i => (0 <= i < Z.of_nat (length rows))%Z) locations.

(** What uses of a set deliver: [unread] is what the iterator made last has not delivered yet.  A loop over the
    set itself goes on with that one; everything else starts from the first record. *)
Fixpoint deliveries (rows unread : list value) (us : list use) : list (list value) :=
  match us with
  | [] => []
  | Collect :: us' => rows :: deliveries rows [] us'
  | First :: us' => firstn 1 rows :: deliveries rows (skipn 1 rows) us'
  | Take n :: us' => firstn n rows :: deliveries rows (skipn n rows) us'
  | ForLoop :: us' => unread :: deliveries rows [] us'
  | ForBreak n :: us' => firstn n unread :: deliveries rows (skipn n unread) us'
  end.

(** the records delivered by one generator *)
Definition delivered_by (g : nat) (log : list (nat * value)) : list value :=
  map snd (filter (fun x => Nat.eqb (fst x) g) log).

(** how often the schedule asks this generator for its next record *)
Fixpoint turns (g : nat) (os : list step) : nat :=
  match os with
  | [] => 0
  | NextOf h :: os' => (if Nat.eqb h g then 1 else 0) + turns g os'
  | _ :: os' => turns g os'
  end.
