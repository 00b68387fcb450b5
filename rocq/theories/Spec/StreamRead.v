(** What a reader makes of what a stream writer stored. *)
From Coq Require Import Sorted.
From Verif.Base Require Import Py Value.
From Verif.Model Require Import Storage Paths Frames Writers Stream.
From Verif.Spec Require Import Paths Dates Writers Stream Reader.

(** what reading gives when [wanted] is there to be read: an error when nothing is, else [rows] *)
Definition gives {C} (wanted rows : list value) (read : result (list value * C)) : Prop :=
  match wanted with
  | [] => read = Raise DataNotFoundError
  | _ :: _ => exists cursor, read = Ok (rows, cursor)
  end.

(** listing the folder [p] gives every name stored below it, once *)
Definition lists_folder (store : str -> list str) (log : list (str * str)) (p : str) : Prop :=
  NoDup (store p) /\ forall m, In m (store p) <-> In m (map fst log) /\ startswith (p ++ $"/") m = true.

(** no component of the folder's name looks like a sub-partitioning, a frame, a marker or the dead letters *)
Definition clean_folder (p : str) : Prop :=
  forall c, In c (split "/"%char p) ->
    contains $"by_" c = false /\ contains $"as_at_" c = false /\ startswith $"frame.complete" c = false /\
    contains $"BACKOUT" c = false.

(** the moments a clock shows *)
Definition date_of (at_ : moment) : Z * Z * Z := (Z.of_N (year at_), Z.of_N (month at_), Z.of_N (day at_)).
Definition clock_time (at_ : moment) : Prop :=
  (let '(y, m, d) := date_of at_ in valid_date y m d) /\
  valid_time (Z.of_N (hour at_)) (Z.of_N (minute at_)) (Z.of_N (second at_)).
Definition on_day (date : Z * Z * Z) (at_ : moment) : bool :=
  let '(y, m, d) := date in
  (year at_ =? Z.to_N y)%N && (month at_ =? Z.to_N m)%N && (day at_ =? Z.to_N d)%N.
Definition in_hour (h : nat) (at_ : moment) : bool := (hour at_ =? N.of_nat h)%N.
(** on or after the first, on or before the second day *)
Definition date_leb (a b : Z * Z * Z) : bool :=
  let '(y, m, d) := a in let '(y', m', d') := b in
  ((y <? y') || (y =? y') && ((m <? m') || (m =? m') && (d <=? d')))%Z.
Definition within_days (a b : Z * Z * Z) (at_ : moment) : bool := date_leb a (date_of at_) && date_leb (date_of at_) b.
(** the sub-partitioning by hour: /by_hour/hour={HH} *)
Definition hour_folders : list seg := [Lit $"/by_hour/hour="; Hour].

(** the valid records whose append returned and was made at a moment as asked for, in order *)
Fixpoint accepted_on {R V} (M : streaming R V) (asked : moment -> bool) (es : list event) (os : list (result nat)) : list R :=
  match es, os with
  | SAppend r at_ :: es', Ok _ :: os' =>
      (if m_valid M r && asked at_ then [r] else []) ++ accepted_on M asked es' os'
  | _ :: es', _ :: os' => accepted_on M asked es' os'
  | _, _ => []
  end.
(** the moments of the appends; the clock never goes back *)
Fixpoint moments {R} (es : list (event (R:=R))) : list moment :=
  match es with [] => [] | SAppend _ at_ :: es' => at_ :: moments es' | _ :: es' => moments es' end.
Definition in_order {R} (es : list (event (R:=R))) : Prop := StronglySorted (fun a b => ~ before b a) (moments es).

(** the days between two days, both included *)
Definition within (a b date : Z * Z * Z) : Prop :=
  (let '(y, m, d) := date in valid_date y m d) /\ date_leb a date = true /\ date_leb date b = true.

(** a stream writer of a format a reader reads, with storage that does not fail *)
Definition stream_settings {V} (parse : str -> result value) (unzstd : str -> result str) (other : str -> str -> generator value)
    (fits : value -> Prop) (image : value -> value) (M : streaming value V) : Prop :=
  read_as parse unzstd other (m_base M) (extension (s_format (m_base M)) (m_ext M)) fits image /\
  plain (s_node (m_base M)) /\ plain (m_ext M) /\ sets_ok M /\ reliable (m_base M).
(** what it was asked to do, with a clock, and storage that gives back what was stored *)
Definition stream_ran {V} (read_blob : str -> result str) (M : streaming value V) (es : list event) (os : list (result nat))
    (s : sstate) : Prop :=
  srun M new_stream (es ++ [SFinalize]) = (os, s) /\
  (forall r at_, In (SAppend r at_) es -> clock_time at_) /\
  good_clock (m_base M) (attempts (world_of s)) /\
  reads_log read_blob (puts (world_of s)).

(** ** Stream writers one after the other *)
(** what a writer was asked to do and what it answered; it ran to its end, or was killed *)
Inductive session := Finished (es : list (event (R:=value))) (os : list (result nat))
                   | Killed (es : list (event (R:=value))) (os : list (result nat)).
Definition asked_of (x : session) : list event := match x with Finished es _ | Killed es _ => es end.
(** Writers started one after the other over the same storage, each with nothing in memory.  A writer which is
    killed leaves the blobs it had stored by then: some beginning of all it would have stored to its end. *)
Inductive sessions_ran {V} (M : streaming value V) : world -> list session -> world -> Prop :=
| no_session w : sessions_ran M w [] w
| finished w k es os s xs w' :
    srun M (mkSState [] w k) (es ++ [SFinalize]) = (os, s) -> sessions_ran M (world_of s) xs w' ->
    sessions_ran M w (Finished es os :: xs) w'
| killed w k es os s n xs w' :
    srun M (mkSState [] w k) (es ++ [SFinalize]) = (os, s) ->
    (length (puts w) <= n <= length (puts (world_of s)))%nat ->
    sessions_ran M (mkWorld n (firstn n (puts (world_of s)))) xs w' ->
    sessions_ran M w (Killed es os :: xs) w'.
(** what remains of a writer's records of a day: all, or the first ones *)
Definition remains {V} (M : streaming value V) (x : session) (date : Z * Z * Z) (kept : list value) : Prop :=
  match x with
  | Finished es os => kept = accepted_on M (on_day date) es os
  | Killed es os => exists lost, kept ++ lost = accepted_on M (on_day date) es os
  end.
