(** A stream writer and the storage adapters behind it. *)
From Verif.Base Require Import Py Value.
From Verif.Model Require Import Storage Paths Dates Frames ReadRange Cursor Writers Stream Adapters Reader.
From Verif.Spec Require Import Paths Dates Reader System.

Section Store.
  Context {R V : Type} (k : kind) (M : streaming R V).

  (** The inner writer of the writer of a partition: new, or after some of its commits.  The pool makes one for
      every writer it opens (writer_pool.py:42-49, blob_writer.py:42-43), and a writer keeps it until it is evicted. *)
  Inductive inner_of (id : str) : inner -> Prop :=
  | opened i : new_inner k (s_format (m_base M)) (m_ext M) id = Ok i -> inner_of id i
  | committed i t data s name i' s' : inner_of id i ->
      Adapters.commit k i None (s_node (m_base M)) t data s = Ok (name, i', s') -> inner_of id i'.

  (** Storing what is in the log of a stream writer: every blob is committed, in order, by the inner writer of a
      partition of the stream, which names it for the time *)
  Inductive stored_as (partition : str -> Prop) : list (str * str) -> stored -> stored -> Prop :=
  | nothing_stored s : stored_as partition [] s s
  | blob_stored id i t data name i' s s' log s'' : partition id -> inner_of id i ->
      Adapters.commit k i None (s_node (m_base M)) t data s = Ok (name, i', s') -> stored_as partition log s' s'' ->
      stored_as partition ((blob_name (s_filename (m_writer M id)) (s_node (m_base M)) t, data) :: log) s s''.

  (** the partitions the records of a stream go to *)
  Definition partition_written (es : list (event (R:=R))) (id : str) : Prop :=
    exists r at_, In (SAppend r at_) es /\ In id (targets M r at_).
End Store.

(** a read of the storage with all the columns [columns] gives, filters, and a value asked for of the field the stream is partitioned by *)
Definition read_asked (parse : str -> result value) (unzstd : str -> result str) (other : str -> str -> generator value)
    (columns : value -> result value) (filters : value -> result bool)
    (hash : str -> Z) (loads : str -> result cdict) (k : kind) (now : datetime) (rnd : str) (t : list seg)
    (asked : option (str * str * str)) (start stop : datetime) (n : nat) (s : stored) : result (list value * saved) :=
  read_records hash loads
    (fun _ => list_range asked (fun p => listing k rnd (range_hours now start stop) p s) now rnd (template_text t ++ $"/") start stop) 0
    (blob_records parse unzstd other (fun name => get_blob_bytes k name s) columns filters None) NoCursor n.
