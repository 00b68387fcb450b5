(** What threads which share a stream writer rely on. *)
From Verif.Base Require Import Py.
From Verif.Model Require Import Writers Stream Threads.
From Verif.Spec Require Import Stream.

(** a list made of the elements of several lists, each in its order *)
Inductive interleaved {A} : list (list A) -> list A -> Prop :=
| all_used ls : (forall l, In l ls -> l = []) -> interleaved ls []
| next_of a x l b rest : interleaved (a ++ l :: b) rest -> interleaved (a ++ (x :: l) :: b) (x :: rest).

Section Threads.
  Context {R : Type}.
  Notation ended := (list (nat * event (R:=R) * result nat)).
  Definition events_of (h : ended) : list event := map (fun x => snd (fst x)) h.
  Definition outcomes_of (h : ended) : list (result nat) := map snd h.
  (** the part of a history which is one thread's own *)
  Definition by_thread (i : nat) (h : ended) : ended := filter (fun x => (fst (fst x) =? i)%nat) h.
  (** what was asked for *)
  Definition asks_of (es : list (event (R:=R))) : list ask :=
    flat_map (fun e => match e with SAppend r _ => [AskAppend r] | SFinalize => [AskFinalize] | Attend => [] end) es.
  (** nothing is appended after the last finalize *)
  Definition finalized_last (h : ended) : Prop :=
    exists h1 i o h2, h = h1 ++ (i, SFinalize, o) :: h2 /\ forall r now, ~ In (SAppend r now) (events_of h2).
  (** a thread of the application which has made all its calls *)
  Definition finished (t : thread (R:=R)) : Prop := at_ t = Outside /\ todo t = Client [].
End Threads.
