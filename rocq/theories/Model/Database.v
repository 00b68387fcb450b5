(** Model of mabel/data/writers/database_writer.py and mabel/adapters/database/base_database_writer.py *)
From Verif.Base Require Import Py.

(** database_writer.py:16 *)
Definition BATCH_SIZE : Z := 100.

(** what the writer depends on *)
Record dbenv (R : Type) := mkDbenv {
  db_check : R -> result unit;   (* expectations and DataFrame.append's validation *)
  db_fails : nat -> bool;        (* the n-th inner_writer.commit raises; it has then sent nothing *)
  db_finalizer : bool;           (* a finalizer was given *)
  db_ffails : nat -> bool }.     (* the n-th run of the finalizer raises *)
Arguments db_check {R}. Arguments db_fails {R}. Arguments db_finalizer {R}. Arguments db_ffails {R}.

Section Database.
  Context {R : Type} (E : dbenv R).
  Record dstate := mkD {
    d_wal : list R; d_buffered : nat; d_records : nat;
    d_tries : nat;              (* commits tried *)
    d_sent : list (list R);     (* the batches the database got *)
    d_runs : nat;               (* runs of the finalizer *)
    d_done : bool }.            (* inner_writer.finalized *)
  Definition new_db : dstate := mkD [] 0 0 0 [] 0 false.

  (** database_writer.py:117-138 *)
  Definition db_commit (s : dstate) : result unit * dstate :=
    match d_wal s with
    | [] => (Ok tt, s)
    | _ =>
        if db_fails E (d_tries s)
        then (Raise StorageError,
              mkD (d_wal s) (d_buffered s) (d_records s) (S (d_tries s)) (d_sent s) (d_runs s) (d_done s))
        else (Ok tt, mkD [] 0 (d_records s) (S (d_tries s)) (d_sent s ++ [d_wal s]) (d_runs s) (d_done s))
    end.
  (** database_writer.py:77-109.  Simplification: records are dictionaries. *)
  Definition db_append (s : dstate) (r : R) : result nat * dstate :=
    match db_check E r with
    | Raise e => (Raise e, s)
    | Ok _ =>
        let s := mkD (d_wal s ++ [r]) (S (d_buffered s)) (S (d_records s)) (d_tries s) (d_sent s)
                     (d_runs s) (d_done s) in
        if (BATCH_SIZE <=? Z.of_nat (length (d_wal s)))%Z then
          match db_commit s with
          | (Raise e, s') => (Raise e, s')
          | (Ok _, s') => (Ok 0%nat, mkD [] 0 (d_records s') (d_tries s') (d_sent s') (d_runs s') (d_done s'))
          end
        else (Ok (d_buffered s), s)
    end.
  (** base_database_writer.py:19-25 *)
  Definition inner_finalize (s : dstate) : result unit * dstate :=
    if db_finalizer E && negb (d_done s) then
      let s' ok := mkD (d_wal s) (d_buffered s) (d_records s) (d_tries s) (d_sent s) (S (d_runs s)) ok in
      if db_ffails E (d_runs s) then (Raise ValueError, s' false) else (Ok tt, s' true)
    else (Ok tt, mkD (d_wal s) (d_buffered s) (d_records s) (d_tries s) (d_sent s) (d_runs s) true).
  (** database_writer.py:140-160 *)
  Definition db_finalize (s : dstate) : result nat * dstate :=
    match db_commit s with
    | (Raise e, s') => (Raise e, s')
    | (Ok _, s') =>
        match inner_finalize s' with
        | (Raise e, s'') => (Raise e, s'')
        | (Ok _, s'') => (Ok (d_records s''), s'')
        end
    end.
  (** database_writer.py:162-165: the second __del__ of the class replaces the first; exceptions in
      __del__ are ignored *)
  Definition db_del (s : dstate) : dstate :=
    match db_commit s with
    | (Raise _, s') => s'
    | (Ok _, s') => snd (db_finalize s')
    end.

  Inductive dcall := DAppend (r : R) | DFinalize | DDel.
  Definition dstep (s : dstate) (c : dcall) : result nat * dstate :=
    match c with
    | DAppend r => db_append s r
    | DFinalize => db_finalize s
    | DDel => (Ok 0%nat, db_del s)
    end.
  Fixpoint drun (s : dstate) (cs : list dcall) : list (result nat) * dstate :=
    match cs with
    | [] => ([], s)
    | c :: cs' => let '(o, s') := dstep s c in
                  let '(os, s'') := drun s' cs' in (o :: os, s'')
    end.
End Database.
Arguments DAppend {R}. Arguments DFinalize {R}. Arguments DDel {R}.
Arguments d_wal {R}. Arguments d_records {R}. Arguments d_sent {R}. Arguments d_runs {R}. Arguments d_done {R}.
Arguments d_tries {R}. Arguments d_buffered {R}. Arguments new_db {R}.
