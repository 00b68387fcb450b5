(** mabel/data/readers/internals/threaded_wrapper.py: reading the blobs in several threads.

    The reader and its threads share two queues.  A step is one action of one of them on the queues; the steps interleave
    in any order. *)
From Verif.Base Require Import Py Value.
From Verif.Model Require Import Collections.

Section Threaded.
  (** blobs, and pages of records *)
  Context {B C : Type}.
  (** 60: the pages [page_dictset(func(source, []), 5)] gives for a blob, and whether it ends without an exception *)
  Context (pages : B -> list C * bool).

  (** what is in the send queue: 80, 105, 108 *)
  Inductive message := Item (b : B) | Terminate.
  (** what is in the reply queue: 61, 62.  The name of the blob is for the statements only. *)
  Inductive reply := Page (b : B) (c : C) | EndOf (b : B).
  (** 53-68: waiting for its first blob (at most a second), waiting for a further one (without end), giving the
      pages of a blob of which some are left, ended *)
  Inductive worker := Starting | Waiting | Working (b : B) (left : list C) | Stopped.
  (** the reader: about to look whether a thread is alive (94), in its inner loop (97-101), left the loop by its
      condition (94), after 600 seconds (111-115), because the client wants no more records (116-118) *)
  Inductive status := Looking | Reading | Ended | Expired | Abandoned.

  Record state := mkState {
    send : list message;         (* send_queue *)
    replies : list reply;        (* reply_queue *)
    workers : list worker;
    unsent : list B;             (* items_to_read[item_index:] *)
    delivered : list (B * C);    (* the pages whose records were yielded, in order *)
    finished : list B;           (* the blobs whose end was read *)
    died : list B;               (* the blobs whose thread ended with an exception *)
    reader : status }.

  (** 74-92: [slots] is 8 *)
  Definition slots : nat := 8.
  Definition start (items : list B) (slots : nat) : state :=
    mkState (map Item (firstn slots items)) [] (repeat Starting slots) (skipn slots items) [] [] [] Looking.

  Inductive event := First | Next | StopFirst | Stop | GiveUp | Put | Finish | Die | Look | Leave | Get | GetEnd | Nothing | Expire | Abandon.
  (** 94-118: the steps of the reader *)
  Inductive reads : event -> state -> state -> Prop :=
  (** 94: some thread is alive *)
  | reads_look w s : reader s = Looking -> In w (workers s) -> w <> Stopped ->
      reads Look s (mkState (send s) (replies s) (workers s) (unsent s) (delivered s) (finished s) (died s) Reading)
  (** 94: none is *)
  | reads_leave s : reader s = Looking -> (forall w, In w (workers s) -> w = Stopped) ->
      reads Leave s (mkState (send s) (replies s) (workers s) (unsent s) (delivered s) (finished s) (died s) Ended)
  (** 98, 101: a page *)
  | reads_get b c q s : reader s = Reading -> replies s = Page b c :: q ->
      reads Get s (mkState (send s) q (workers s) (unsent s) (delivered s ++ [(b, c)]) (finished s) (died s) Reading)
  (** 98-100, 102-108: the end of a blob; the next blob or the signal to end is sent *)
  | reads_end b q s : reader s = Reading -> replies s = EndOf b :: q ->
      reads GetEnd s (mkState (send s ++ match unsent s with b' :: _ => [Item b'] | [] => [Terminate] end) q (workers s)
                        (match unsent s with _ :: u => u | [] => [] end) (delivered s) (finished s ++ [b]) (died s) Looking)
  (** 98, 110: nothing in the queue *)
  | reads_nothing s : reader s = Reading -> replies s = [] ->
      reads Nothing s (mkState (send s) (replies s) (workers s) (unsent s) (delivered s) (finished s) (died s) Looking)
  (** 110-115: the same after 600 seconds *)
  | reads_expire s : reader s = Reading -> replies s = [] ->
      reads Expire s (mkState (send s) (replies s) (workers s) (unsent s) (delivered s) (finished s) (died s) Expired)
  (** 101, 116-118: the client stops within a page.  Simplification: this page stays in the queue, which nobody reads any more. *)
  | reads_abandon b c q s : reader s = Reading -> replies s = Page b c :: q ->
      reads Abandon s (mkState (send s) (replies s) (workers s) (unsent s) (delivered s) (finished s) (died s) Abandoned).

  (** 53-68: the steps of a thread [w]: what it takes from the send queue, what it adds to the reply queue, whose
      blob ends with an exception, and how it goes on *)
  Inductive works : event -> worker -> list message -> list message -> list reply -> list B -> worker -> Prop :=
  (** 55: its first blob *)
  | works_first b q : works First Starting (Item b :: q) q [] [] (Working b (fst (pages b)))
  (** 66: a further one *)
  | works_next b q : works Next Waiting (Item b :: q) q [] [] (Working b (fst (pages b)))
  (** 55, 59; 66, 59: the signal to end *)
  | works_stop_first q : works StopFirst Starting (Terminate :: q) q [] [] Stopped
  | works_stop q : works Stop Waiting (Terminate :: q) q [] [] Stopped
  (** 56-57: no first blob within a second *)
  | works_give_up : works GiveUp Starting [] [] [] [] Stopped
  (** 61 *)
  | works_put b c cs q : works Put (Working b (c :: cs)) q q [Page b c] [] (Working b cs)
  (** 62-63 *)
  | works_finish b q : snd (pages b) = true -> works Finish (Working b []) q q [EndOf b] [] Waiting
  (** 60: an exception ends the thread *)
  | works_die b q : snd (pages b) = false -> works Die (Working b []) q q [] [b] Stopped.

  Inductive step : event -> state -> state -> Prop :=
  | step_reader e s s' : reads e s s' -> step e s s'
  | step_worker e l w r w' q out dead s : workers s = l ++ w :: r -> works e w (send s) q out dead w' ->
      step e s (mkState q (replies s ++ out) (l ++ w' :: r) (unsent s) (delivered s) (finished s) (died s ++ dead) (reader s)).
  (** the executions *)
  Inductive steps : list event -> state -> state -> Prop :=
  | steps_nil s : steps [] s s
  | steps_cons e es s s' s'' : step e s s' -> steps es s' s'' -> steps (e :: es) s s''.
  (** 120-121: [process.join()] for each thread *)
  Definition joined (s : state) : Prop := (reader s = Ended \/ reader s = Expired \/ reader s = Abandoned) /\ forall w, In w (workers s) -> w = Stopped.
End Threaded.
Arguments message B : clear implicits.
Arguments reply B C : clear implicits.
Arguments worker B C : clear implicits.
Arguments state B C : clear implicits.

(** 23-50, 60: the pages of a blob whose records are [read] *)
Definition pages_of {B} (dumps : record -> str) (read : B -> list record) (b : B) : list (list str) * bool :=
  let '(pages, raised) := page_dictset dumps 5 (read b) in (pages, match raised with None => true | Some _ => false end).
