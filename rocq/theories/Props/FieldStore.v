(** * C90: streams partitioned by a field, on disk, in MinIO and in Google Cloud Storage *)
From Coq Require Import Sorted.
From Verif.Base Require Import Py Value.
From Verif.Model Require Import Paths Dates Frames ReadRange Cursor Storage Writers Stream Adapters Reader.
From Verif.Model Require Json.
From Verif.Spec Require Import Paths Dates Json Writers Stream Reader StreamRead StreamField.
From Verif.Spec Require Adapters.
From Verif.Spec Require Import System StreamStore.
From Verif.Proofs Require FieldStore FieldStoreCases StreamFieldCases StreamStoreCases StreamReadCases ReaderCases.
Local Open Scope Z_scope.

(** A stream partitioned by the field F as in C90 was finalized, and its blobs were committed to a file system, to MinIO or to
    Google Cloud Storage, in which the days to read held nothing.  That can always be done. *)
Theorem field_stream_can_be_stored :
  forall (parse : str -> result value) (unzstd : str -> result str) (other : str -> str -> generator value)
         (fits : value -> Prop) (image : value -> value) (V : Type) (M : streaming value V) (k : kind)
         (t : list seg) (F : str) (es : list event) (os : list (result nat)) (s : sstate) (s0 : stored),
    stream_settings parse unzstd other fits image M ->
    proper_template (map Date t) -> field_name F -> m_template M = stream_template (field_template t F) ->
    srun M new_stream (es ++ [SFinalize]) = (os, s) ->
    exists s1, stored_as k M (partition_written M es) (puts (world_of s)) s0 s1.
Proof.
  intros parse unzstd other fits image V M k t F es os s s0 HM P FN T RUN.
  exact (FieldStore.field_storable parse unzstd other fits image M k HM t F es os s s0 P FN T RUN).
Qed.
Print Assumptions field_stream_can_be_stored.

(** Then a reader of the same storage which asks for F = v is given, day after day, exactly the valid records appended on that
    day whose field has the letters, digits and spaces of v, in the order of the appends, each as often as different members of
    its list have them (a field without a list: once); DataNotFoundError when there are none ([found]). *)
Theorem stored_field_value_is_read_partial :
  forall (parse : str -> result value) (unzstd : str -> result str) (other : str -> str -> generator value)
         (fits : value -> Prop) (image : value -> value) (V : Type) (M : streaming value V)
         (columns : value -> result value) (filters : value -> result bool) (c : value -> value) (p : value -> bool)
         (k : kind) (hash : str -> Z) (loads : str -> result cdict)
         (t : list seg) (F : str) (es : list event) (os : list (result nat)) (s : sstate) (s0 : stored) (times : str -> value -> nat)
         (op v : str) (now : datetime) (rnd : str) (y m d hh mm ss y' m' d' hh' mm' ss' : Z) (n : nat),
    stream_settings parse unzstd other fits image M ->
    daily_template t -> chronological t -> proper_template (map Date t) -> field_name F -> m_template M = stream_template (field_template t F) ->
    Adapters.proper k s0 ->
    srun M new_stream (es ++ [SFinalize]) = (os, s) ->
    (forall r at_, In (SAppend r at_) es -> clock_time at_) ->
    good_clock (m_base M) (attempts (world_of s)) ->
    (forall x r at_, In (SAppend r at_) es -> members_with M F x r (times x r)) ->
    In op [$"="; $"=="] -> contains $"BACKOUT" (kept_text v) = false ->
    valid_date y m d -> valid_time hh mm ss -> valid_date y' m' d' -> valid_time hh' mm' ss' -> 1000 <= y -> y' <= 9999 ->
    let start := of_fields y m d hh mm ss in let stop := of_fields y' m' d' hh' mm' ss' in
    start <= stop ->
    (forall date, within (y, m, d) (y', m', d') date ->
       clean_folder (day_folder t date) /\ listing k rnd (range_hours now start stop) (day_folder t date) s0 = []) ->
    forall s1, stored_as k M (partition_written M es) (puts (world_of s)) s0 s1 ->
    exists days, consecutive days /\ hd_error days = Some (y, m, d) /\ last days (y', m', d') = (y', m', d') /\
    let wanted := flat_map (fun date => day_copies M times date es os (kept_text v)) days in
    ((forall r, In r wanted -> fits r /\ applies columns filters c p (image r)) ->
     records_read (read_asked parse unzstd other columns filters hash loads k now rnd t (Some (F, op, v)) start stop n s1)
     = found wanted n (filter p (map c (map image wanted)))).
Proof.
  intros parse unzstd other fits image V M columns filters c p k hash loads t F es os s s0 times op v now rnd y m d hh mm ss y' m' d' hh' mm' ss' n HM DT CH P FN T P0 RUN HC CL TD Hop HB V1 T1 V2 T2 Y1 Y2 start stop LE HF s1 HS.
  exact (FieldStore.stored_value_range parse unzstd other fits image M columns filters c p k hash loads HM t F es os s s0 DT P FN T P0 RUN HC CL times TD op v now rnd y m d hh mm ss y' m' d' hh' mm' ss' n s1 CH Hop HB V1 T1 V2 T2 Y1 Y2 LE HF HS).
Qed.
Print Assumptions stored_field_value_is_read_partial.

(** One day, for templates of any order. *)
Theorem stored_field_value_of_day_is_read_partial :
  forall (parse : str -> result value) (unzstd : str -> result str) (other : str -> str -> generator value)
         (fits : value -> Prop) (image : value -> value) (V : Type) (M : streaming value V)
         (columns : value -> result value) (filters : value -> result bool) (c : value -> value) (p : value -> bool)
         (k : kind) (hash : str -> Z) (loads : str -> result cdict)
         (t : list seg) (F : str) (es : list event) (os : list (result nat)) (s : sstate) (s0 : stored) (times : str -> value -> nat)
         (op v : str) (now : datetime) (rnd : str) (y m d hh mm ss hh' mm' ss' : Z) (n : nat),
    stream_settings parse unzstd other fits image M ->
    daily_template t -> proper_template (map Date t) -> field_name F -> m_template M = stream_template (field_template t F) ->
    Adapters.proper k s0 ->
    srun M new_stream (es ++ [SFinalize]) = (os, s) ->
    (forall r at_, In (SAppend r at_) es -> clock_time at_) ->
    good_clock (m_base M) (attempts (world_of s)) ->
    (forall x r at_, In (SAppend r at_) es -> members_with M F x r (times x r)) ->
    In op [$"="; $"=="] -> contains $"BACKOUT" (kept_text v) = false ->
    valid_date y m d -> valid_time hh mm ss -> valid_time hh' mm' ss' ->
    let start := of_fields y m d hh mm ss in let stop := of_fields y m d hh' mm' ss' in
    start <= stop -> clean_folder (day_folder t (y, m, d)) ->
    listing k rnd (range_hours now start stop) (day_folder t (y, m, d)) s0 = [] ->
    forall s1, stored_as k M (partition_written M es) (puts (world_of s)) s0 s1 ->
    let wanted := day_copies M times (y, m, d) es os (kept_text v) in
    (forall r, In r wanted -> fits r /\ applies columns filters c p (image r)) ->
    records_read (read_asked parse unzstd other columns filters hash loads k now rnd t (Some (F, op, v)) start stop n s1)
    = found wanted n (filter p (map c (map image wanted))).
Proof.
  intros parse unzstd other fits image V M columns filters c p k hash loads t F es os s s0 times op v now rnd y m d hh mm ss hh' mm' ss' n HM DT P FN T P0 RUN HC CL TD Hop HB V1 T1 T2 start stop LE C L s1 HS.
  exact (FieldStore.stored_value_day parse unzstd other fits image M columns filters c p k hash loads HM t F es os s s0 DT P FN T P0 RUN HC CL times TD op v now rnd y m d hh mm ss hh' mm' ss' n s1 Hop HB V1 T1 T2 LE C L HS).
Qed.
Print Assumptions stored_field_value_of_day_is_read_partial.

(** A reader which asks for no value is given the records of all values, day after day, and on each day value after value in
    the order of the folders. *)
Theorem stored_field_values_are_all_read_partial :
  forall (parse : str -> result value) (unzstd : str -> result str) (other : str -> str -> generator value)
         (fits : value -> Prop) (image : value -> value) (V : Type) (M : streaming value V)
         (columns : value -> result value) (filters : value -> result bool) (c : value -> value) (p : value -> bool)
         (k : kind) (hash : str -> Z) (loads : str -> result cdict)
         (t : list seg) (F : str) (es : list event) (os : list (result nat)) (s : sstate) (s0 : stored) (times : str -> value -> nat)
         (texts : list str) (now : datetime) (rnd : str) (y m d hh mm ss y' m' d' hh' mm' ss' : Z) (n : nat),
    stream_settings parse unzstd other fits image M ->
    daily_template t -> chronological t -> proper_template (map Date t) -> field_name F -> m_template M = stream_template (field_template t F) ->
    Adapters.proper k s0 ->
    srun M new_stream (es ++ [SFinalize]) = (os, s) ->
    (forall r at_, In (SAppend r at_) es -> clock_time at_) ->
    good_clock (m_base M) (attempts (world_of s)) ->
    (forall x r at_, In (SAppend r at_) es -> members_with M F x r (times x r)) ->
    (** [texts] are the values of the days, in order *)
    (forall x, In x texts -> (forall a, In a x -> is_alpha a || is_digit a || is_space a = true) /\ contains $"BACKOUT" x = false) ->
    StronglySorted (fun x y => str_ltb (x ++ $"/") (y ++ $"/") = true) texts ->
    (forall date r x, within (y, m, d) (y', m', d') date -> In r (accepted_on M (on_day date) es os) ->
       has_text M F x r = true -> contains $"BACKOUT" x = false -> In x texts) ->
    valid_date y m d -> valid_time hh mm ss -> valid_date y' m' d' -> valid_time hh' mm' ss' -> 1000 <= y -> y' <= 9999 ->
    let start := of_fields y m d hh mm ss in let stop := of_fields y' m' d' hh' mm' ss' in
    start <= stop ->
    (forall date, within (y, m, d) (y', m', d') date ->
       clean_folder (day_folder t date) /\ listing k rnd (range_hours now start stop) (day_folder t date) s0 = []) ->
    forall s1, stored_as k M (partition_written M es) (puts (world_of s)) s0 s1 ->
    exists days, consecutive days /\ hd_error days = Some (y, m, d) /\ last days (y', m', d') = (y', m', d') /\
    let wanted := flat_map (fun date => flat_map (day_copies M times date es os) texts) days in
    ((forall r, In r wanted -> fits r /\ applies columns filters c p (image r)) ->
     records_read (read_asked parse unzstd other columns filters hash loads k now rnd t None start stop n s1)
     = found wanted n (filter p (map c (map image wanted)))).
Proof.
  intros parse unzstd other fits image V M columns filters c p k hash loads t F es os s s0 times texts now rnd y m d hh mm ss y' m' d' hh' mm' ss' n HM DT CH P FN T P0 RUN HC CL TD HX HO HT V1 T1 V2 T2 Y1 Y2 start stop LE HF s1 HS.
  exact (FieldStore.stored_values_all parse unzstd other fits image M columns filters c p k hash loads HM t F es os s s0 DT P FN T P0 RUN HC CL times TD texts now rnd y m d hh mm ss y' m' d' hh' mm' ss' n s1 CH HX HO HT V1 T1 V2 T2 Y1 Y2 LE HF HS).
Qed.
Print Assumptions stored_field_values_are_all_read_partial.

(** The stream of C90's cases in every kind of storage, which held a blob of another dataset. *)
Section Example.
  Import ReaderCases StreamReadCases StreamStoreCases StreamFieldCases FieldStoreCases.
  Notation F := $"user".
  Example ex_hypotheses : forall k,
    (forall other, stream_settings Json.loads unz other distinct_keys (fun r => r) (fw F)) /\
    daily_template st_template /\ chronological st_template /\ proper_template (map Date st_template) /\ field_name F /\
    m_template (fw F) = stream_template (field_template st_template F) /\ Adapters.proper k (ss_before k) /\
    stream_ran (read_from (f_log F $"ann" $"bob b")) (fw F) (f_events F $"ann" $"bob b") (fst (f_run F $"ann" $"bob b")) (snd (f_run F $"ann" $"bob b")) /\
    (forall x r at_, In (SAppend r at_) (f_events F $"ann" $"bob b") -> members_with (fw F) F x r (f_times F x r)) /\
    forall date, within (2024, 2, 28) (2024, 3, 1) date ->
      clean_folder (day_folder st_template date) /\
      listing k [] (range_hours 0 (of_fields 2024 2 28 0 0 0) (of_fields 2024 3 1 12 0 0)) (day_folder st_template date) (ss_before k) = [].
  Proof.
    intros k. split; [intros other; apply f_settings|]. split; [exact st_daily|]. split; [exact st_chronological|].
    split; [exact st_proper|]. split; [exact f_name|]. split; [reflexivity|]. split; [apply ss_proper|]. split; [exact f_ran|].
    split; [intros x r at_ _; apply f_members|]. exact (ss_nothing k).
  Qed.
  Example ex_ann : forall k, fs_read k $"ann" $"bob b" (Some (F, $"=", $"ann")) = Ok [one F 1 $"ann"; both F 3 [$"ann"; $"bob b"]; one F 4 $"ann"].
  Proof. exact fs_ann. Qed.
  Example ex_twice : forall k, fs_read k $"a-1" $"a1" (Some (F, $"=", $"a1"))
    = Ok [one F 1 $"a-1"; one F 2 $"a1"; both F 3 [$"a-1"; $"a1"]; both F 3 [$"a-1"; $"a1"]; one F 4 $"a-1"; one F 5 $"a1"].
  Proof. exact fs_twice. Qed.
  Example ex_all : forall k, fs_read k $"ann" $"bob b" None
    = Ok [one F 1 $"ann"; both F 3 [$"ann"; $"bob b"]; one F 4 $"ann"; one F 2 $"bob b"; both F 3 [$"ann"; $"bob b"]; one F 5 $"bob b"].
  Proof. exact fs_all. Qed.
End Example.
