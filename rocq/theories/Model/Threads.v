(** Model of several threads which use one stream writer (mabel/data/writers/stream_writer.py and
    internals/writer_pool.py): the threads of the application, which append and finalize, and the pool attendant.
    Finer than [Stream.v]: the threads take turns after every single step, also between finding a writer and
    appending to it, or between taking a writer from the pool and committing it.  Only the module's lock
    (stream_writer.py:16) keeps them apart.  The writers are objects: the pool and the threads hold references to them. *)
From Verif.Base Require Import Py.
From Verif.Model Require Import Paths Frames Writers Stream.

Section Threads.
  Context {R V : Type} (M : streaming R V).

  (** an entry of the pool: identity, last_access, writer (writer_pool.py:44-48) *)
  Record entry := mkEntry { e_id : str; e_last : Z; e_ref : nat }.
  (** what the threads share: the pool's list, the writers, the storage, the clock, run_pool_attendant, and which
      thread has the lock *)
  Record shared := mkShared {
    entries : list entry; heap : list (blobw (R:=R)); storage : world; clock : nat; running : bool; holder : option nat }.

  Definition e_has (id : str) (e : entry) : bool := str_eqb (e_id e) id.
  (** [w for w in self.writers if w["identity"] == identity].pop() *)
  Fixpoint find_last (id : str) (l : list entry) : option (list entry * entry * list entry) :=
    match l with
    | [] => None
    | e :: l' => match find_last id l' with
                 | Some (a, x, b) => Some (e :: a, x, b)
                 | None => if e_has id e then Some ([], e, l') else None
                 end
    end.
  (** writer_pool.py:27-49 get_writer: a reference to the writer *)
  Definition get_writer (s : shared) (id : str) : nat * shared :=
    let now := m_time M (clock s) in
    match find_last id (entries s) with
    | Some (a, e, b) =>
        (e_ref e, mkShared (a ++ mkEntry (e_id e) now (e_ref e) :: b) (heap s) (storage s) (S (clock s)) (running s) (holder s))
    | None =>
        let ref := length (heap s) in
        (ref, mkShared (entries s ++ [mkEntry id now ref]) (heap s ++ [open_buffer]) (storage s) (S (clock s)) (running s) (holder s))
    end.
  Definition the_writer (s : shared) (ref : nat) : blobw := nth ref (heap s) open_buffer.
  Fixpoint set_nth {A} (n : nat) (x : A) (l : list A) : list A :=
    match l, n with [], _ => [] | _ :: l', O => x :: l' | y :: l', S n' => y :: set_nth n' x l' end.
  (** blob_writer.append(record) (stream_writer.py:131, 154; blob_writer.py:55-97) *)
  Definition writer_append (s : shared) (id : str) (ref : nat) (r : R) : result nat * shared :=
    let '(o, (b, w)) := blob_append (m_writer M id) (the_writer s ref) (storage s) r in
    (o, mkShared (entries s) (set_nth ref b (heap s)) w (clock s) (running s) (holder s)).
  (** writer_pool.py:56-66 but for the commit: the entry is taken out if it is the only one of the identity *)
  Definition take_out (s : shared) (id : str) : option nat * shared :=
    match filter (e_has id) (entries s) with
    | [e] => (Some (e_ref e), mkShared (filter (fun e => negb (e_has id e)) (entries s)) (heap s) (storage s) (clock s) (running s) (holder s))
    | _ => (None, s)
    end.
  (** writer_pool.py:67 writer.get("writer").commit() *)
  Definition writer_commit (s : shared) (id : str) (ref : nat) : result unit * shared :=
    let '(o, (b, w)) := commit (m_writer M id) (the_writer s ref) (storage s) in
    (match o with Ok _ => Ok tt | Raise e => Raise e end,
     mkShared (entries s) (set_nth ref b (heap s)) w (clock s) (running s) (holder s)).
  (** writer_pool.py:81-101 *)
  Definition entry_pooled (s : shared) (e : entry) : pooled := mkPooled (e_id e) (e_last e) (the_writer s (e_ref e)).
  Definition stale_ids (s : shared) (now : Z) : list str := stale now (m_idle M) (map (entry_pooled s) (entries s)).
  Definition nominated (s : shared) : list str := nominate (m_pool_size M) (map (entry_pooled s) (entries s)).

  (** where a thread is *)
  Inductive doing :=
  | Outside
  | Ready (e : event (R:=R))                               (* at "with lock" *)
  | Finding (r : R) (ids : list str) (writes : nat)        (* stream_writer.py:131, 153 *)
  | Appending (r : R) (id : str) (ref : nat) (ids : list str) (writes : nat)  (* 131, 154-155 *)
  | Searching                                              (* 183, the stale writers *)
  | Evicting (ids : list str) (stale_ones : bool)          (* 183-194, the rest of one of the two loops *)
  | Committing (id : str) (ref : nat) (ids : list str) (stale_ones : bool)
  | Closing (ids : list str)                               (* 162-171, the rest of the loop *)
  | Storing (id : str) (ref : nat) (ids : list str)
  | Leaving (o : result nat)                               (* at the end of "with lock" *)
  | Dead.                                                  (* the attendant after an exception *)
  (** the first line inside "with lock" *)
  Definition enter (s : shared) (e : event) : doing :=
    match e with
    | SAppend r now => Finding r (targets M r now) 0
    | Attend => Searching
    | SFinalize => Closing (map e_id (entries s))
    end.
  Definition in_section (d : doing) : bool :=
    match d with Outside | Ready _ | Leaving _ | Dead => false | _ => true end.
  (** one step inside "with lock" *)
  Definition inner (d : doing) (s : shared) : doing * shared :=
    match d with
    | Finding r [] writes => (Leaving (Ok writes), s)
    | Finding r (id :: ids) writes => let '(ref, s') := get_writer s id in (Appending r id ref ids writes, s')
    | Appending r id ref ids writes =>
        match writer_append s id ref r with
        | (Ok _, s') => (Finding r ids (S writes), s')
        | (Raise e, s') => (Leaving (Raise e), s')
        end
    | Searching =>
        (Evicting (stale_ids s (m_time M (clock s))) true,
         mkShared (entries s) (heap s) (storage s) (S (clock s)) (running s) (holder s))
    | Evicting [] true => (Evicting (nominated s) false, s)
    | Evicting [] false => (Leaving (Ok 0%nat), s)
    | Evicting (id :: ids) b =>
        match take_out s id with
        | (Some ref, s') => (Committing id ref ids b, s')
        | (None, s') => (Evicting ids b, s')
        end
    | Committing id ref ids b =>
        match writer_commit s id ref with
        | (Ok _, s') => (Evicting ids b, s')
        | (Raise e, s') => (Leaving (Raise e), s')
        end
    | Closing [] => (Leaving (Ok 0%nat), s)
    | Closing (id :: ids) =>
        match take_out s id with
        | (Some ref, s') => (Storing id ref ids, s')
        | (None, s') => (Closing ids, s')
        end
    | Storing id ref ids => let '(_, s') := writer_commit s id ref in (Closing ids, s')
    | d => (d, s)
    end.

  (** a thread of the application with the calls it still makes, or the attendant (stream_writer.py:175-197) *)
  Inductive ask := AskAppend (r : R) | AskFinalize.
  Inductive program := Client (asks : list ask) | Attendant.
  Record thread := mkThread { todo : program; at_ : doing; asked : option (event (R:=R)) }.
  (** what has come to an end, in the order in which the lock was given back *)
  Record config := mkConfig { common : shared; threads : list thread; history : list (nat * event (R:=R) * result nat) }.

  Definition hold (s : shared) (h : option nat) : shared := mkShared (entries s) (heap s) (storage s) (clock s) (running s) h.
  Definition stop_attendant (s : shared) : shared := mkShared (entries s) (heap s) (storage s) (clock s) false (holder s).
  Definition after (p : program) (o : result nat) : doing :=
    match p, o with Attendant, Raise _ => Dead | _, _ => Outside end.

  (** any thread makes a step; the clock shows any time *)
  Inductive turn : config -> config -> Prop :=
  | call_append i s ths h r asks now :      (* stream_writer.py:106-123: the identity, outside the lock *)
      nth_error ths i = Some (mkThread (Client (AskAppend r :: asks)) Outside None) ->
      turn (mkConfig s ths h)
           (mkConfig s (set_nth i (mkThread (Client asks) (Ready (SAppend r now)) (Some (SAppend r now))) ths) h)
  | call_finalize i s ths h asks :          (* 160 *)
      nth_error ths i = Some (mkThread (Client (AskFinalize :: asks)) Outside None) ->
      turn (mkConfig s ths h)
           (mkConfig (stop_attendant s) (set_nth i (mkThread (Client asks) (Ready SFinalize) (Some SFinalize)) ths) h)
  | next_round i s ths h :                  (* 179 while self.run_pool_attendant *)
      nth_error ths i = Some (mkThread Attendant Outside None) -> running s = true ->
      turn (mkConfig s ths h) (mkConfig s (set_nth i (mkThread Attendant (Ready Attend) (Some Attend)) ths) h)
  | acquire i s ths h p e :
      nth_error ths i = Some (mkThread p (Ready e) (Some e)) -> holder s = None ->
      turn (mkConfig s ths h) (mkConfig (hold s (Some i)) (set_nth i (mkThread p (enter s e) (Some e)) ths) h)
  | inside i s ths h p d a d' s' :
      nth_error ths i = Some (mkThread p d a) -> in_section d = true -> inner d s = (d', s') ->
      turn (mkConfig s ths h) (mkConfig s' (set_nth i (mkThread p d' a) ths) h)
  | release i s ths h p o e :
      nth_error ths i = Some (mkThread p (Leaving o) (Some e)) ->
      turn (mkConfig s ths h)
           (mkConfig (hold s None) (set_nth i (mkThread p (after p o) None) ths) (h ++ [(i, e, o)])).
  Inductive turns : config -> config -> Prop :=
  | no_turn c : turns c c
  | more_turns c c' c'' : turns c c' -> turn c' c'' -> turns c c''.

  (** the threads of the application and an attendant, over a new stream writer *)
  Definition start (programs : list (list ask)) : config :=
    mkConfig (mkShared [] [] (mkWorld 0 []) 0 true None)
             (map (fun p => mkThread (Client p) Outside None) programs ++ [mkThread Attendant Outside None]) [].
End Threads.
Arguments mkThread {R}. Arguments todo {R}. Arguments at_ {R}. Arguments asked {R}.
Arguments mkConfig {R}. Arguments common {R}. Arguments threads {R}. Arguments history {R}.
Arguments mkShared {R}. Arguments entries {R}. Arguments heap {R}. Arguments storage {R}. Arguments clock {R}.
Arguments running {R}. Arguments holder {R}.
Arguments AskAppend {R}. Arguments AskFinalize {R}. Arguments Client {R}. Arguments Attendant {R}.
Arguments Outside {R}. Arguments Ready {R}. Arguments Leaving {R}. Arguments Dead {R}.
