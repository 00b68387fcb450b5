(** Model of BlobWriter.__del__ (mabel/data/writers/internals/blob_writer.py:211-213): a blob writer nobody refers to any
    more commits what it still holds when the interpreter collects it. *)
From Verif.Base Require Import Py.
From Verif.Model Require Import Paths Frames Writers Stream.

(** blob_writer.py:211-213, of the writer of a batch which is thrown away: an exception in a destructor is ignored *)
Definition discard {R} (E : setting R) (s : state (R:=R)) : world :=
  snd (snd (commit E (st_blob s) (st_world s))).

Section Collector.
  Context {R V : Type} (M : streaming R V).

  (** a stream writer, and the blob writers which are no longer in its pool and still hold records.  Simplification: those
      which hold nothing are left out, their destructors do nothing (blob_writer.py:141). *)
  Record cstate := mkC { c_stream : sstate (R:=R); c_dropped : list (pooled (R:=R)) }.
  Definition new_collected : cstate := mkC new_stream [].

  (** writer_pool.py:51-69: the writer is taken out of the pool (line 66) before its commit (line 67), so when that raises
      nobody refers to it any more *)
  Definition c_remove (c : cstate) (id : str) : result unit * cstate :=
    match remove_writer M (c_stream c) id with
    | (Ok _, s') => (Ok tt, mkC s' (c_dropped c))
    | (Raise e, s') => (Raise e, mkC s' (c_dropped c ++ filter (has_id id) (pool (c_stream c))))
    end.
  Fixpoint c_remove_all (c : cstate) (ids : list str) : result unit * cstate :=
    match ids with
    | [] => (Ok tt, c)
    | id :: ids' => match c_remove c id with
                    | (Ok _, c') => c_remove_all c' ids'
                    | (Raise e, c') => (Raise e, c')
                    end
    end.
  (** stream_writer.py:179-193 *)
  Definition c_attend (c : cstate) : result unit * cstate :=
    let s := c_stream c in
    let now := m_time M (ticks s) in
    let c := mkC (mkSState (pool s) (world_of s) (S (ticks s))) (c_dropped c) in
    match c_remove_all c (stale now (m_idle M) (pool s)) with
    | (Ok _, c') => c_remove_all c' (nominate (m_pool_size M) (pool (c_stream c')))
    | x => x
    end.
  (** stream_writer.py:159-172 *)
  Definition c_finalize (c : cstate) : cstate :=
    fold_left (fun c w => snd (c_remove c (p_id w))) (pool (c_stream c)) c.

  (** the interpreter collects one of the dropped writers.  Since a blob writer refers to itself (blob_writer.py:50-53)
      this may be at any moment after; simplification: not within a region guarded by the lock. *)
  Inductive cevent := Event (e : event (R:=R)) | Collect (n : nat).
  (** blob_writer.py:211-213; the result is whether the destructor raised (nobody is told) *)
  Definition collect (c : cstate) (n : nat) : result nat * cstate :=
    match nth_error (c_dropped c) n with
    | None => (Ok 0%nat, c)
    | Some d =>
        let s := c_stream c in
        let '(o, (_, w')) := commit (m_writer M (p_id d)) (p_blob d) (world_of s) in
        (match o with Ok _ => Ok 0%nat | Raise e => Raise e end,
         mkC (mkSState (pool s) w' (ticks s)) (firstn n (c_dropped c) ++ skipn (S n) (c_dropped c)))
    end.
  Definition cstep (c : cstate) (e : cevent) : result nat * cstate :=
    match e with
    | Event (SAppend r now) => let '(o, s') := stream_append M (c_stream c) r now in (o, mkC s' (c_dropped c))
    | Event Attend => let '(o, c') := c_attend c in
                      (match o with Ok _ => Ok 0%nat | Raise e => Raise e end, c')
    | Event SFinalize => (Ok 0%nat, c_finalize c)
    | Collect n => collect c n
    end.
  Fixpoint crun (c : cstate) (es : list cevent) : list (result nat) * cstate :=
    match es with
    | [] => ([], c)
    | e :: es' => let '(o, c') := cstep c e in
                  let '(os, c'') := crun c' es' in (o :: os, c'')
    end.
End Collector.
Arguments Event {R}. Arguments Collect {R}. Arguments mkC {R}. Arguments c_stream {R}. Arguments c_dropped {R}.
Arguments new_collected {R}.
