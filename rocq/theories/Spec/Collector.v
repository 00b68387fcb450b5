(** What the users of a stream writer rely on when its storage fails. *)
From Verif.Base Require Import Py Value.
From Verif.Model Require Import Storage Paths Frames Writers Stream Collector.
From Verif.Spec Require Import Paths Writers Stream Reader StreamRead.

Section Collector.
  Context {R V : Type} (M : streaming R V).

  (** the copies of records meant for the partition [id] by the appends whose outcome is as [wanted] says *)
  Fixpoint meant_for (wanted : result nat -> bool) (es : list (cevent (R:=R))) (os : list (result nat)) (id : str) : list R :=
    match es, os with
    | Event (SAppend r now) :: es', o :: os' =>
        (if wanted o then map (fun _ => r) (filter (str_eqb id) (targets M r now)) else []) ++ meant_for wanted es' os' id
    | _ :: es', _ :: os' => meant_for wanted es' os' id
    | _, _ => []
    end.
  (** of the appends which returned, and of those which raised *)
  Definition accepted_for := meant_for (fun o => match o with Ok _ => true | Raise _ => false end).
  Definition refused_for := meant_for (fun o => match o with Ok _ => false | Raise _ => true end).

  (** the valid records of the appends whose outcome is as [wanted] says, made at a moment as asked for *)
  Fixpoint appended_on (wanted : result nat -> bool) (asked : moment -> bool) (es : list (cevent (R:=R))) (os : list (result nat)) : list R :=
    match es, os with
    | Event (SAppend r at_) :: es', o :: os' =>
        (if wanted o && (m_valid M r && asked at_) then [r] else []) ++ appended_on wanted asked es' os'
    | _ :: es', _ :: os' => appended_on wanted asked es' os'
    | _, _ => []
    end.
  Definition returned_on := appended_on (fun o => match o with Ok _ => true | Raise _ => false end).
  Definition raised_on := appended_on (fun o => match o with Ok _ => false | Raise _ => true end).

  (** no destructor's attempt to store failed *)
  Definition destructors_succeed (es : list (cevent (R:=R))) (os : list (result nat)) : Prop :=
    forall n e, ~ In (Collect n, Raise e) (combine es os).
End Collector.

(** a stream writer of a format a reader reads, with storage that may fail, leaving nothing behind when it does *)
Definition failing_settings {V} (parse : str -> result value) (unzstd : str -> result str) (other : str -> str -> generator value)
    (fits : value -> Prop) (image : value -> value) (M : streaming value V) : Prop :=
  read_as parse unzstd other (m_base M) (extension (s_format (m_base M)) (m_ext M)) fits image /\
  plain (s_node (m_base M)) /\ plain (m_ext M) /\ sets_ok M /\ clean_failures (m_base M).
(** what it was asked to do and what it answered, with a clock, and storage that gives back what was stored *)
Definition failing_ran {V} (read_blob : str -> result str) (M : streaming value V) (es : list cevent) (os : list (result nat))
    (c : cstate) : Prop :=
  crun M new_collected es = (os, c) /\
  (forall r at_, In (Event (SAppend r at_)) es -> clock_time at_) /\
  good_clock (m_base M) (attempts (world_of (c_stream c))) /\
  reads_log read_blob (puts (world_of (c_stream c))).
