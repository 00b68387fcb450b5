(** * C98: streams divided into datasets by fields of their records *)
From Verif.Base Require Import Py Value.
From Verif.Model Require Import Paths Dates Frames ReadRange Cursor Storage Writers Stream Adapters Reader.
From Verif.Model Require Json.
From Verif.Spec Require Import Paths Dates Json Writers Stream Reader StreamRead StreamField StreamLevels.
From Verif.Spec Require Adapters.
From Verif.Spec Require Import System StreamStore.
From Verif.Proofs Require LevelsStore LevelsSessions LevelsCases StreamStoreCases StreamReadCases ReaderCases.
Local Open Scope Z_scope.

(** The template of the stream has fields of the record in the names of folders, at most one in each, with or without literal
    text around it: TEST/{key}/{value}/year_{yyyy}/month_{mm}/day_{dd} ([levels_template]).  The stream was finalized, and its
    blobs were committed to a file system, to MinIO or to Google Cloud Storage.  That can always be done. *)
Theorem fields_stream_can_be_stored :
  forall (parse : str -> result value) (unzstd : str -> result str) (other : str -> str -> generator value)
         (fits : value -> Prop) (image : value -> value) (V : Type) (M : streaming value V) (k : kind)
         (ls : list level) (es : list event) (os : list (result nat)) (s : sstate) (s0 : stored),
    stream_settings parse unzstd other fits image M ->
    levels_ok ls -> m_template M = stream_template (levels_template ls) ->
    srun M new_stream (es ++ [SFinalize]) = (os, s) ->
    (forall r at_, In (SAppend r at_) es -> names_folders M ls r) ->
    exists s1, stored_as k M (partition_written M es) (puts (world_of s)) s0 s1.
Proof.
  intros parse unzstd other fits image V M k ls es os s s0 HM OK T RUN HN.
  exact (LevelsStore.levels_storable parse unzstd other fits image M k HM ls es os s s0 OK T RUN HN).
Qed.
Print Assumptions fields_stream_can_be_stored.

(** Then a reader of the dataset with a value in the place of each field ([levels_of]) is given, day after day, exactly the
    valid records appended on that day whose fields, or a member of their lists, have these values' letters, digits and spaces:
    each once, in the order of the appends, and none of another value; DataNotFoundError when there are none ([found]). *)
Theorem stored_fields_are_read :
  forall (parse : str -> result value) (unzstd : str -> result str) (other : str -> str -> generator value)
         (fits : value -> Prop) (image : value -> value) (V : Type) (M : streaming value V)
         (columns : value -> result value) (filters : value -> result bool) (c : value -> value) (p : value -> bool)
         (k : kind) (hash : str -> Z) (loads : str -> result cdict)
         (ls : list level) (es : list event) (os : list (result nat)) (s : sstate) (s0 : stored) (values : str -> str)
         (now : datetime) (rnd : str) (y m d hh mm ss y' m' d' hh' mm' ss' : Z) (n : nat),
    stream_settings parse unzstd other fits image M ->
    levels_ok ls -> m_template M = stream_template (levels_template ls) ->
    Adapters.proper k s0 ->
    srun M new_stream (es ++ [SFinalize]) = (os, s) ->
    (forall r at_, In (SAppend r at_) es -> names_folders M ls r) ->
    (forall r at_, In (SAppend r at_) es -> clock_time at_) ->
    good_clock (m_base M) (attempts (world_of s)) ->
    values_ok ls values -> daily_template (levels_of values ls) -> chronological (levels_of values ls) ->
    valid_date y m d -> valid_time hh mm ss -> valid_date y' m' d' -> valid_time hh' mm' ss' -> 1000 <= y -> y' <= 9999 ->
    let start := of_fields y m d hh mm ss in let stop := of_fields y' m' d' hh' mm' ss' in
    start <= stop ->
    (forall date, within (y, m, d) (y', m', d') date ->
       clean_folder (day_folder (levels_of values ls) date) /\
       listing k rnd (range_hours now start stop) (day_folder (levels_of values ls) date) s0 = []) ->
    forall s1, stored_as k M (partition_written M es) (puts (world_of s)) s0 s1 ->
    exists days, consecutive days /\ hd_error days = Some (y, m, d) /\ last days (y', m', d') = (y', m', d') /\
    let wanted := flat_map (fun date => filter (has_texts M ls values) (accepted_on M (on_day date) es os)) days in
    ((forall r, In r wanted -> fits r /\ applies columns filters c p (image r)) ->
     records_read (read_asked parse unzstd other columns filters hash loads k now rnd (levels_of values ls) None start stop n s1)
     = found wanted n (filter p (map c (map image wanted)))).
Proof.
  intros parse unzstd other fits image V M columns filters c p k hash loads ls es os s s0 values now rnd y m d hh mm ss y' m' d' hh' mm' ss' n HM OK T P0 RUN HN HC CL VO DT CH V1 T1 V2 T2 Y1 Y2 start stop LE HF s1 HS.
  exact (LevelsStore.stored_levels_range parse unzstd other fits image M columns filters c p k hash loads HM ls es os s s0 OK T RUN HN P0 HC CL values VO DT now rnd y m d hh mm ss y' m' d' hh' mm' ss' n s1 CH V1 T1 V2 T2 Y1 Y2 LE HF HS).
Qed.
Print Assumptions stored_fields_are_read.

(** One day, for templates of any order. *)
Theorem stored_fields_of_day_are_read :
  forall (parse : str -> result value) (unzstd : str -> result str) (other : str -> str -> generator value)
         (fits : value -> Prop) (image : value -> value) (V : Type) (M : streaming value V)
         (columns : value -> result value) (filters : value -> result bool) (c : value -> value) (p : value -> bool)
         (k : kind) (hash : str -> Z) (loads : str -> result cdict)
         (ls : list level) (es : list event) (os : list (result nat)) (s : sstate) (s0 : stored) (values : str -> str)
         (now : datetime) (rnd : str) (y m d hh mm ss hh' mm' ss' : Z) (n : nat),
    stream_settings parse unzstd other fits image M ->
    levels_ok ls -> m_template M = stream_template (levels_template ls) ->
    Adapters.proper k s0 ->
    srun M new_stream (es ++ [SFinalize]) = (os, s) ->
    (forall r at_, In (SAppend r at_) es -> names_folders M ls r) ->
    (forall r at_, In (SAppend r at_) es -> clock_time at_) ->
    good_clock (m_base M) (attempts (world_of s)) ->
    values_ok ls values -> daily_template (levels_of values ls) ->
    valid_date y m d -> valid_time hh mm ss -> valid_time hh' mm' ss' ->
    let start := of_fields y m d hh mm ss in let stop := of_fields y m d hh' mm' ss' in
    start <= stop -> clean_folder (day_folder (levels_of values ls) (y, m, d)) ->
    listing k rnd (range_hours now start stop) (day_folder (levels_of values ls) (y, m, d)) s0 = [] ->
    forall s1, stored_as k M (partition_written M es) (puts (world_of s)) s0 s1 ->
    let wanted := filter (has_texts M ls values) (accepted_on M (on_day (y, m, d)) es os) in
    (forall r, In r wanted -> fits r /\ applies columns filters c p (image r)) ->
    records_read (read_asked parse unzstd other columns filters hash loads k now rnd (levels_of values ls) None start stop n s1)
    = found wanted n (filter p (map c (map image wanted))).
Proof.
  intros parse unzstd other fits image V M columns filters c p k hash loads ls es os s s0 values now rnd y m d hh mm ss hh' mm' ss' n HM OK T P0 RUN HN HC CL VO DT V1 T1 T2 start stop LE C L s1 HS.
  exact (LevelsStore.stored_levels_day parse unzstd other fits image M columns filters c p k hash loads HM ls es os s s0 OK T RUN HN P0 HC CL values VO DT now rnd y m d hh mm ss hh' mm' ss' n s1 V1 T1 T2 LE C L HS).
Qed.
Print Assumptions stored_fields_of_day_are_read.

(** Any number of such writers, each started when the one before has ended, by its finalize or killed at any point ([sessions_ran]):
    the reader is given, day after day and on each day one writer after the other, all the wanted records a finished writer
    accepted, and the first ones a killed writer accepted ([remains_of]). *)
Theorem stored_fields_of_writers_after_each_other :
  forall (parse : str -> result value) (unzstd : str -> result str) (other : str -> str -> generator value)
         (fits : value -> Prop) (image : value -> value) (V : Type) (M : streaming value V)
         (columns : value -> result value) (filters : value -> result bool) (c : value -> value) (p : value -> bool)
         (k : kind) (hash : str -> Z) (loads : str -> result cdict)
         (ls : list level) (xs : list session) (w : world) (s0 : stored) (values : str -> str)
         (now : datetime) (rnd : str) (y m d hh mm ss y' m' d' hh' mm' ss' : Z) (n : nat),
    stream_settings parse unzstd other fits image M ->
    levels_ok ls -> m_template M = stream_template (levels_template ls) ->
    Adapters.proper k s0 ->
    sessions_ran M (mkWorld 0 []) xs w ->
    let es := flat_map asked_of xs in
    (forall r at_, In (SAppend r at_) es -> names_folders M ls r) ->
    (forall r at_, In (SAppend r at_) es -> clock_time at_) ->
    good_clock (m_base M) (attempts w) ->
    values_ok ls values -> daily_template (levels_of values ls) -> chronological (levels_of values ls) ->
    valid_date y m d -> valid_time hh mm ss -> valid_date y' m' d' -> valid_time hh' mm' ss' -> 1000 <= y -> y' <= 9999 ->
    let start := of_fields y m d hh mm ss in let stop := of_fields y' m' d' hh' mm' ss' in
    start <= stop ->
    (forall date, within (y, m, d) (y', m', d') date ->
       clean_folder (day_folder (levels_of values ls) date) /\
       listing k rnd (range_hours now start stop) (day_folder (levels_of values ls) date) s0 = []) ->
    (exists s1, stored_as k M (partition_written M es) (puts w) s0 s1) /\
    forall s1, stored_as k M (partition_written M es) (puts w) s0 s1 ->
    exists days kept, consecutive days /\ hd_error days = Some (y, m, d) /\ last days (y', m', d') = (y', m', d') /\
    Forall2 (fun x of_day => forall date, In date days -> remains_of M (has_texts M ls values) x date (of_day date)) xs kept /\
    let wanted := flat_map (fun date => flat_map (fun of_day => of_day date) kept) days in
    ((forall r, In r wanted -> fits r /\ applies columns filters c p (image r)) ->
     records_read (read_asked parse unzstd other columns filters hash loads k now rnd (levels_of values ls) None start stop n s1)
     = found wanted n (filter p (map c (map image wanted)))).
Proof.
  intros parse unzstd other fits image V M columns filters c p k hash loads ls xs w s0 values now rnd y m d hh mm ss y' m' d' hh' mm' ss' n HM OK T P0 RUN es HN HC CL VO DT CH V1 T1 V2 T2 Y1 Y2 start stop LE HF.
  exact (conj (LevelsSessions.levels_sessions_storable parse unzstd other fits image M HM ls xs w s0 k OK T RUN HN)
    (fun s1 HS => LevelsSessions.levels_sessions_range parse unzstd other fits image M HM ls xs w s0 k OK T RUN HN columns filters c p hash loads P0 HC CL values VO DT now rnd y m d hh mm ss y' m' d' hh' mm' ss' n s1 CH V1 T1 V2 T2 Y1 Y2 LE HF HS)).
Qed.
Print Assumptions stored_fields_of_writers_after_each_other.

(** A stream of data/{key}/v {value}/year_{yyyy}/month_{mm}/day_{dd} in every kind of storage, which held a blob of another
    dataset. *)
Section Example.
  Import ReaderCases StreamReadCases StreamStoreCases LevelsCases.
  Example ex_hypotheses : forall k,
    (forall other, stream_settings Json.loads unz other distinct_keys (fun r => r) (lw lv_levels)) /\
    levels_ok lv_levels /\ m_template (lw lv_levels) = stream_template (levels_template lv_levels) /\ Adapters.proper k (ss_before k) /\
    (forall r at_, In (SAppend r at_) lv_events -> names_folders (lw lv_levels) lv_levels r) /\
    (forall r at_, In (SAppend r at_) lv_events -> clock_time at_) /\
    good_clock (m_base (lw lv_levels)) (attempts (world_of (snd lv_run))) /\
    values_ok lv_levels (lv_values $"ann" $"x") /\
    daily_template (levels_of (lv_values $"ann" $"x") lv_levels) /\ chronological (levels_of (lv_values $"ann" $"x") lv_levels) /\
    forall date, within (2024, 2, 28) (2024, 3, 1) date ->
      clean_folder (day_folder (levels_of (lv_values $"ann" $"x") lv_levels) date) /\
      listing k [] (range_hours 0 (of_fields 2024 2 28 0 0 0) (of_fields 2024 3 1 12 0 0))
        (day_folder (levels_of (lv_values $"ann" $"x") lv_levels) date) (ss_before k) = [].
  Proof.
    intros k. split; [intros other; apply lv_settings|]. split; [exact lv_ok|]. split; [reflexivity|]. split; [apply ss_proper|].
    split; [exact lv_names|]. split; [exact lv_clock_times|]. split; [exact lv_good|]. split; [exact lv_values_ok|].
    split; [exact lv_daily|]. split; [exact lv_chronological|]. exact (lv_nothing k).
  Qed.
  (** the template as text *)
  Example ex_template : m_template (lw lv_levels) = $"data/{key}/v {value}/year_{yyyy}/month_{mm}/day_{dd}" /\
    day_folder (levels_of (lv_values $"ann" $"x") lv_levels) (2024, 2, 29) = $"data/ann/v x/year_2024/month_02/day_29".
  Proof. split; vm_compute; reflexivity. Qed.
  Example ex_ann_x : forall k, lv_read k $"ann" $"x" = Ok [pair_of 1 $"ann" [$"x"]; pair_of 3 $"ann" [$"x"; $"y"]; pair_of 5 $"an-n" [$"y"; $"x"]].
  Proof. exact lv_ann_x. Qed.
  Example ex_ann_y : forall k, lv_read k $"ann" $"y" = Ok [pair_of 3 $"ann" [$"x"; $"y"]; pair_of 4 $"ann" [$"y"]; pair_of 5 $"an-n" [$"y"; $"x"]].
  Proof. exact lv_ann_y. Qed.
  Example ex_bob_y : forall k, lv_read k $"bob" $"y" = Raise DataNotFoundError.
  Proof. exact lv_bob_y. Qed.
  (** the writer killed after five of its blobs, then one with the same records which runs to its end *)
  Example ex_sessions :
    sessions_ran (lw lv_levels) (mkWorld 0 []) ls_sessions ls_world /\
    (forall r at_, In (SAppend r at_) (flat_map asked_of ls_sessions) -> names_folders (lw lv_levels) lv_levels r /\ clock_time at_) /\
    good_clock (m_base (lw lv_levels)) (attempts ls_world).
  Proof.
    split; [exact ls_ran|]. split; [|exact ls_good_clock]. intros r at_ H. apply ls_asked in H.
    split; [exact (lv_names r at_ H)|exact (lv_clock_times r at_ H)].
  Qed.
  Example ex_sessions_read : forall k, ls_read k $"ann" $"x"
    = Ok [pair_of 1 $"ann" [$"x"]; pair_of 1 $"ann" [$"x"]; pair_of 3 $"ann" [$"x"; $"y"]; pair_of 3 $"ann" [$"x"; $"y"]; pair_of 5 $"an-n" [$"y"; $"x"]].
  Proof. exact ls_ann_x. Qed.
End Example.
