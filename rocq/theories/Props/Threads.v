(** C89: threads which share a stream writer. *)
From Verif.Base Require Import Py Value.
From Verif.Model Require Import Frames Writers Stream Threads.
From Verif.Spec Require Import Writers Stream Threads.
From Verif.Proofs Require Threads ThreadsCases StreamReadCases ReaderCases.

(** Any number of threads append to one stream writer, and the attendant thread evicts writers, in any schedule of
    their single steps and with any clock and any storage.  At most one of them is between taking the lock
    and giving it back ... *)
Theorem one_thread_inside :
  forall (R V : Type) (M : streaming R V) (programs : list (list ask)) (c : config) (i j : nat) (t u : thread),
    turns M (start programs) c ->
    nth_error (threads c) i = Some t -> nth_error (threads c) j = Some u ->
    in_section (at_ t) = true -> in_section (at_ u) = true -> i = j.
Proof. exact @Threads.one_inside. Qed.
Print Assumptions one_thread_inside.

(** ... and what they were answered, what is in the pool and what was stored is as if each call had been made at
    once and alone, in the order in which the lock was given back. *)
Theorem calls_are_as_if_alone :
  forall (R V : Type) (M : streaming R V) (programs : list (list ask)) (c : config),
    turns M (start programs) c -> holder (common c) = None ->
    exists s, srun M new_stream (events_of (history c)) = (outcomes_of (history c), s) /\
      world_of s = storage (common c) /\ map p_id (pool s) = map e_id (entries (common c)).
Proof. exact @Threads.as_if_alone. Qed.
Print Assumptions calls_are_as_if_alone.

(** In that order every thread's calls are its own calls in its own order, none left out. *)
Theorem threads_keep_their_order :
  forall (R V : Type) (M : streaming R V) (programs : list (list ask)) (c : config) (i : nat) (p : list ask),
    turns M (start programs) c -> nth_error programs i = Some p ->
    exists t later, nth_error (threads c) i = Some t /\ p = asks_of (events_of (by_thread i (history c))) ++ later /\
      (finished t -> later = []).
Proof. exact @Threads.calls_in_order. Qed.
Print Assumptions threads_keep_their_order.

(** With storage that does not fail: after the finalize every record any thread had accepted is stored exactly
    once in each of its folders, the records of one thread in the order of its appends. *)
Theorem records_of_threads_stored_exactly_once :
  forall (R V : Type) (M : streaming R V), reliable (m_base M) ->
  forall (programs : list (list ask)) (c : config),
    turns M (start programs) c -> holder (common c) = None -> finalized_last (history c) ->
    exists blobs, contents M blobs (puts (storage (common c))) /\
      forall id, interleaved (map (fun i => sent M (events_of (by_thread i (history c))) (outcomes_of (by_thread i (history c))) id)
                                  (seq 0 (length programs)))
                             (stored_for id blobs).
Proof. exact @Threads.threads_stored. Qed.
Print Assumptions records_of_threads_stored_exactly_once.

(** ... and before, what is stored is the beginning of such a mixture: nothing twice, nothing made up. *)
Theorem records_of_threads_never_duplicated :
  forall (R V : Type) (M : streaming R V), reliable (m_base M) ->
  forall (programs : list (list ask)) (c : config),
    turns M (start programs) c -> holder (common c) = None ->
    exists blobs, contents M blobs (puts (storage (common c))) /\
      forall id, exists waiting,
        interleaved (map (fun i => sent M (events_of (by_thread i (history c))) (outcomes_of (by_thread i (history c))) id)
                                  (seq 0 (length programs)))
                    (stored_for id blobs ++ waiting).
Proof. exact @Threads.threads_never_twice. Qed.
Print Assumptions records_of_threads_never_duplicated.

(** Whatever happened so far, the storage having failed or not, all threads can go on to the end of their calls. *)
Theorem threads_never_stuck :
  forall (R V : Type) (M : streaming R V) (programs : list (list ask)) (c : config),
    turns M (start programs) c ->
    exists c', turns M c c' /\ holder (common c') = None /\
      forall i t, i < length programs -> nth_error (threads c') i = Some t -> finished t.
Proof. exact @Threads.never_stuck. Qed.
Print Assumptions threads_never_stuck.

(** Two threads which append three records each and one which finalizes, interrupted at every step. *)
Section Example.
  Import ReaderCases StreamReadCases ThreadsCases.
  Example ex_schedule : turns (st_writer st_template) (start th_programs) th_end /\ reliable (m_base (st_writer st_template)) /\
    holder (common th_end) = None /\ finalized_last (history th_end) /\ length (puts (storage (common th_end))) = 4.
  Proof.
    split; [exact th_turns|]. split; [split; [reflexivity|intros g; exists []; reflexivity]|]. split; [vm_compute; reflexivity|].
    split; [|vm_compute; reflexivity].
    exists (firstn 12 (history th_end)), 2, (Ok 0), []. split; [vm_compute; reflexivity|intros r now []].
  Qed.
  Example ex_order : map (fun x => fst (fst x)) (history th_end) = [0; 1; 0; 3; 1; 0; 1; 3; 3; 3; 3; 3; 2] /\
    asks_of (events_of (by_thread 1 (history th_end))) = [AskAppend (a_record 4); AskAppend (VDict []); AskAppend (a_record 5)].
  Proof. split; vm_compute; reflexivity. Qed.
  (** interrupted inside: a thread has found its writer and not yet appended, another waits for the lock *)
  Example ex_inside : let c := schedule (st_writer st_template) (firstn 18 th_schedule) (start th_programs) in
    holder (common c) = Some 1 /\ map (fun t => in_section (at_ t)) (threads c) = [false; true; false; false] /\
    map e_id (entries (common c)) = [$"data/set/year_2024/month_02/day_28"].
  Proof. cbv zeta. split; [|split]; vm_compute; reflexivity. Qed.
End Example.
