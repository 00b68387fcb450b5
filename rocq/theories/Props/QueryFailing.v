(** C83: SQL queries over what writers left while the storage failed now and then. *)
From Coq Require Import Permutation.
From Verif.Base Require Import Py Value.
From Verif.Model Require Import Paths Dates Frames ReadRange Cursor Storage Writers Stream Adapters Reader Sql Query Collector.
From Verif.Model Require Json.
From Verif.Spec Require Import Paths Dates Json Writers Stream Reader StreamRead StreamField StreamLevels Collector FailingSessions FailingLevels.
From Verif.Spec Require Adapters.
From Verif.Spec Require Import System StreamStore FailingStore Query.
From Verif.Proofs Require QueryFailing QueryFailingCases QueryCases ExpressionCases SqlAnswerCases FailingSessionsCases FailingFieldCases StreamReadCases.
Local Open Scope Z_scope.

(** The hypotheses are those of C104 (C105, C107), on disk, in MinIO and in Google Cloud Storage; the records appended are
    such as can be read back.  What is left of the records appended on the days of the range, unless it is nothing, is given
    to a query over these days: the theorems of C83 then say what it answers. *)
Theorem failing_writers_are_queried :
  forall (parse : str -> result value) (unzstd : str -> result str) (other : str -> str -> generator value)
         (fits : value -> Prop) (image : value -> value) (V : Type) (M : streaming value V),
    failing_settings parse unzstd other fits image M ->
    forall (xs : list spell) (w : world) (t : list seg),
    spells_ran M (mkWorld 0 []) xs w ->
    (forall x r at_, In x xs -> In (Event (SAppend r at_)) (history_of x) -> clock_time at_ /\ fits r) ->
    good_clock (m_base M) (attempts w) ->
    daily_template t -> chronological t -> proper_template (map Date t) ->
    m_template M = template_text t \/ m_template M = template_text (t ++ hour_folders) ->
    forall (now : datetime) (rnd : str) (y m d hh mm ss y' m' d' hh' mm' ss' : Z),
    valid_date y m d -> valid_time hh mm ss -> valid_date y' m' d' -> valid_time hh' mm' ss' -> 1000 <= y -> y' <= 9999 ->
    let start := of_fields y m d hh mm ss in let stop := of_fields y' m' d' hh' mm' ss' in
    start <= stop ->
    forall (k : kind) (s0 s1 : stored), Adapters.proper k s0 ->
    (forall date, within (y, m, d) (y', m', d') date ->
       clean_folder (day_folder t date) /\ listing k rnd (range_hours now start stop) (day_folder t date) s0 = []) ->
    stored_as k M (partition_appended M (flat_map history_of xs)) (puts w) s0 s1 ->
    exists kept stored, Forall2 (spell_kept M (within_days (y, m, d) (y', m', d'))) xs kept /\ Permutation stored (concat kept) /\
    (stored <> [] -> forall hash loads, gives (fun columns filters n =>
       records_read (read_selected parse unzstd other columns filters hash loads k now rnd t start stop n s1)) (map image stored)).
Proof. exact (@QueryFailing.spells_given). Qed.
Print Assumptions failing_writers_are_queried.

(** The same with fields of the record in the names of folders: a query over the folders of given texts. *)
Theorem failing_writers_divided_by_fields_are_queried :
  forall (parse : str -> result value) (unzstd : str -> result str) (other : str -> str -> generator value)
         (fits : value -> Prop) (image : value -> value) (V : Type) (M : streaming value V),
    failing_settings parse unzstd other fits image M ->
    forall (ls : list level) (xs : list spell) (w : world),
    levels_ok ls -> m_template M = stream_template (levels_template ls) ->
    spells_ran M (mkWorld 0 []) xs w ->
    (forall x r at_, In x xs -> In (Event (SAppend r at_)) (history_of x) -> clock_time at_ /\ names_folders M ls r /\ fits r) ->
    good_clock (m_base M) (attempts w) ->
    forall (k : kind) (s0 : stored), Adapters.proper k s0 ->
    forall (values : str -> str) (now : datetime) (rnd : str) (y m d hh mm ss y' m' d' hh' mm' ss' : Z) (s1 : stored),
    let t := levels_of values ls in let start := of_fields y m d hh mm ss in let stop := of_fields y' m' d' hh' mm' ss' in
    values_ok ls values -> daily_template t -> chronological t ->
    valid_date y m d -> valid_time hh mm ss -> valid_date y' m' d' -> valid_time hh' mm' ss' -> 1000 <= y -> y' <= 9999 ->
    start <= stop ->
    (forall date, within (y, m, d) (y', m', d') date ->
       clean_folder (day_folder t date) /\ listing k rnd (range_hours now start stop) (day_folder t date) s0 = []) ->
    stored_as k M (partition_appended M (flat_map history_of xs)) (puts w) s0 s1 ->
    exists kept stored, Forall2 (wanted_kept M (has_texts M ls values) (within_days (y, m, d) (y', m', d'))) xs kept /\ Permutation stored (concat kept) /\
    (stored <> [] -> forall hash loads, gives (fun columns filters n =>
       records_read (read_asked parse unzstd other columns filters hash loads k now rnd t None start stop n s1)) (map image stored)).
Proof. exact (@QueryFailing.levels_given). Qed.
Print Assumptions failing_writers_divided_by_fields_are_queried.

(** The same by the values of a field (/by_F/F={F}): a query over the records of a value. *)
Theorem failing_writers_by_field_are_queried :
  forall (parse : str -> result value) (unzstd : str -> result str) (other : str -> str -> generator value)
         (fits : value -> Prop) (image : value -> value) (V : Type) (M : streaming value V),
    failing_settings parse unzstd other fits image M ->
    forall (t : list seg) (F : str) (xs : list spell) (w : world),
    daily_template t -> chronological t -> proper_template (map Date t) -> field_name F ->
    m_template M = stream_template (field_template t F) ->
    spells_ran M (mkWorld 0 []) xs w ->
    (forall x r at_, In x xs -> In (Event (SAppend r at_)) (history_of x) -> clock_time at_ /\ texts_differ M F r /\ fits r) ->
    good_clock (m_base M) (attempts w) ->
    forall (k : kind) (s0 : stored), Adapters.proper k s0 ->
    forall (op v : str) (now : datetime) (rnd : str) (y m d hh mm ss y' m' d' hh' mm' ss' : Z) (s1 : stored),
    let start := of_fields y m d hh mm ss in let stop := of_fields y' m' d' hh' mm' ss' in
    In op [$"="; $"=="] -> Py.contains $"BACKOUT" (kept_text v) = false ->
    valid_date y m d -> valid_time hh mm ss -> valid_date y' m' d' -> valid_time hh' mm' ss' -> 1000 <= y -> y' <= 9999 ->
    start <= stop ->
    (forall date, within (y, m, d) (y', m', d') date ->
       clean_folder (day_folder t date) /\ listing k rnd (range_hours now start stop) (day_folder t date) s0 = []) ->
    stored_as k M (partition_appended M (flat_map history_of xs)) (puts w) s0 s1 ->
    exists kept stored, Forall2 (wanted_kept M (has_text M F (kept_text v)) (within_days (y, m, d) (y', m', d'))) xs kept /\ Permutation stored (concat kept) /\
    (stored <> [] -> forall hash loads, gives (fun columns filters n =>
       records_read (read_asked parse unzstd other columns filters hash loads k now rnd t (Some (F, op, v)) start stop n s1)) (map image stored)).
Proof. exact (@QueryFailing.value_given). Qed.
Print Assumptions failing_writers_by_field_are_queried.

(** The streams of C104 and C107 (their other hypotheses: ex_hypotheses there), stored in each of the storages and queried. *)
Section Example.
  Import ExpressionCases SqlAnswerCases QueryCases StreamReadCases FailingSessionsCases FailingFieldCases QueryFailingCases.
  Example ex_hypotheses :
    (forall x r at_, In x fx_spells -> In (Event (SAppend r at_)) (history_of x) -> clock_time at_ /\ distinct_keys r) /\
    (forall x r at_, In x ff_spells -> In (Event (SAppend r at_)) (history_of x) -> clock_time at_ /\ texts_differ ff_M $"user" r /\ distinct_keys r).
  Proof. exact (conj qf_appends qf_field_appends). Qed.
  Example ex_query : forall k quotient hash xxh,
    sql_reader none_of none_of (query_reader none_of none_of same no_matches some_functions (qf_open k) 10) rows_where quotient hash xxh 200 false
      $"SELECT a AS number FROM data.set WHERE a < 5 AND a <> 2" = Ok (map (fun n => [($"number", VInt n)]) [1; 1; 3; 4]).
  Proof. exact qf_answer. Qed.
  Example ex_field_query : forall k quotient hash xxh,
    sql_reader none_of none_of (query_reader none_of none_of same no_matches some_functions (qf_field_open k $"bob b") 10) rows_where quotient hash xxh 200 false
      $"SELECT a AS number FROM data.set WHERE a >= 2" = Ok (map (fun n => [($"number", VInt n)]) [2; 5]).
  Proof. exact qf_field_answer. Qed.
End Example.
