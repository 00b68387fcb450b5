(** C101: what a stream writer stored although its storage failed now and then is read back. *)
From Coq Require Import Permutation.
From Verif.Base Require Import Py Value.
From Verif.Model Require Import Paths Dates Frames ReadRange Cursor Storage Writers Stream Reader Collector.
From Verif.Model Require Json.
From Verif.Spec Require Import Paths Dates Frames Cursor Json Writers Stream Reader StreamRead Collector.
From Verif.Proofs Require FailingRead FailingReadCases StreamReadCases ReaderCases.
Local Open Scope Z_scope.

(** A stream writer partitioned by the day or by the hour, whose storage raises now and then and keeps nothing of what it then
    was given.  At any point of any history of appends, rounds of the attendant, finalizes and collected writers, a
    reader of a range of days gives records which were appended on these days, none of them more often than it was
    appended. *)
Theorem failing_stream_is_read_without_duplicates :
  forall (parse : str -> result value) (unzstd : str -> result str)
         (other : str -> str -> generator value) (read_blob : str -> result str)
         (fits : value -> Prop) (image : value -> value)
         (V : Type) (M : streaming value V)
         (columns : value -> result value) (filters : value -> result bool) (c : value -> value) (p : value -> bool)
         (es : list cevent) (os : list (result nat)) (s : cstate) (store : str -> list str)
         (t : list seg) (now : datetime) (rnd : str) (y m d hh mm ss y' m' d' hh' mm' ss' : Z),
    failing_settings parse unzstd other fits image M -> failing_ran read_blob M es os s ->
    daily_template t -> chronological t -> proper_template (map Date t) ->
    m_template M = template_text t \/ m_template M = template_text (t ++ hour_folders) ->
    valid_date y m d -> valid_time hh mm ss -> valid_date y' m' d' -> valid_time hh' mm' ss' -> 1000 <= y -> y' <= 9999 ->
    of_fields y m d hh mm ss <= of_fields y' m' d' hh' mm' ss' ->
    (forall date, within (y, m, d) (y', m', d') date ->
       clean_folder (day_folder t date) /\ lists_folder store (puts (world_of (c_stream s))) (day_folder t date)) ->
    let returned := returned_on M (within_days (y, m, d) (y', m', d')) es os in
    let raised := raised_on M (within_days (y, m, d) (y', m', d')) es os in
    (forall r, In r (returned ++ raised) -> fits r /\ applies columns filters c p (image r)) ->
    exists stored rest, Permutation (stored ++ rest) (returned ++ raised) /\
    forall (hash : str -> Z) (loads : str -> result cdict) (n : nat),
      gives stored (firstn n (filter p (map c (map image stored)))) (read_records hash loads
        (fun _ => list_range None store now rnd (template_text t ++ $"/") (of_fields y m d hh mm ss) (of_fields y' m' d' hh' mm' ss'))
        0 (blob_records parse unzstd other read_blob columns filters None) NoCursor n).
Proof.
  intros parse unzstd other read_blob fits image V M columns filters c p es os s store t now rnd y m d hh mm ss y' m' d' hh' mm' ss' S R DT CH P [T|T].
  - exact (FailingRead.read_at_most_once parse unzstd other read_blob fits image M columns filters c p es os s store S R t false now rnd y m d hh mm ss y' m' d' hh' mm' ss' DT CH P (eq_trans T (f_equal template_text (eq_sym (app_nil_r t))))).
  - exact (FailingRead.read_at_most_once parse unzstd other read_blob fits image M columns filters c p es os s store S R t true now rnd y m d hh mm ss y' m' d' hh' mm' ss' DT CH P T).
Qed.
Print Assumptions failing_stream_is_read_without_duplicates.

(** After a finalize, once the writers which could not store what they held were collected and these second attempts
    succeeded, the reader gives every record whose append returned, as often as it was appended, and possibly some of
    those whose append raised. *)
Theorem failing_stream_is_read_complete :
  forall (parse : str -> result value) (unzstd : str -> result str)
         (other : str -> str -> generator value) (read_blob : str -> result str)
         (fits : value -> Prop) (image : value -> value)
         (V : Type) (M : streaming value V)
         (columns : value -> result value) (filters : value -> result bool) (c : value -> value) (p : value -> bool)
         (es : list cevent) (ns : list nat) (os : list (result nat)) (s : cstate) (store : str -> list str)
         (t : list seg) (now : datetime) (rnd : str) (y m d hh mm ss y' m' d' hh' mm' ss' : Z),
    let history := es ++ Event SFinalize :: map Collect ns in
    failing_settings parse unzstd other fits image M -> failing_ran read_blob M history os s ->
    c_dropped s = [] -> destructors_succeed history os ->
    daily_template t -> chronological t -> proper_template (map Date t) ->
    m_template M = template_text t \/ m_template M = template_text (t ++ hour_folders) ->
    valid_date y m d -> valid_time hh mm ss -> valid_date y' m' d' -> valid_time hh' mm' ss' -> 1000 <= y -> y' <= 9999 ->
    of_fields y m d hh mm ss <= of_fields y' m' d' hh' mm' ss' ->
    (forall date, within (y, m, d) (y', m', d') date ->
       clean_folder (day_folder t date) /\ lists_folder store (puts (world_of (c_stream s))) (day_folder t date)) ->
    let returned := returned_on M (within_days (y, m, d) (y', m', d')) history os in
    let raised := raised_on M (within_days (y, m, d) (y', m', d')) history os in
    (forall r, In r (returned ++ raised) -> fits r /\ applies columns filters c p (image r)) ->
    exists stored some rest, Permutation stored (returned ++ some) /\ Permutation (some ++ rest) raised /\
    forall (hash : str -> Z) (loads : str -> result cdict) (n : nat),
      gives stored (firstn n (filter p (map c (map image stored)))) (read_records hash loads
        (fun _ => list_range None store now rnd (template_text t ++ $"/") (of_fields y m d hh mm ss) (of_fields y' m' d' hh' mm' ss'))
        0 (blob_records parse unzstd other read_blob columns filters None) NoCursor n).
Proof.
  intros parse unzstd other read_blob fits image V M columns filters c p es ns os s store t now rnd y m d hh mm ss y' m' d' hh' mm' ss' history S R D N DT CH P [T|T] V1 T1 V2 T2 Y1 Y2 L HF returned raised HA.
  - exact (FailingRead.read_collected parse unzstd other read_blob fits image M columns filters c p history os s store S R t false now rnd y m d hh mm ss y' m' d' hh' mm' ss' DT CH P (eq_trans T (f_equal template_text (eq_sym (app_nil_r t)))) V1 T1 V2 T2 Y1 Y2 L HF HA es ns eq_refl D N).
  - exact (FailingRead.read_collected parse unzstd other read_blob fits image M columns filters c p history os s store S R t true now rnd y m d hh mm ss y' m' d' hh' mm' ss' DT CH P T V1 T1 V2 T2 Y1 Y2 L HF HA es ns eq_refl D N).
Qed.
Print Assumptions failing_stream_is_read_complete.

(** The stream of C81 with storage that fails at three of its attempts, of an append and of the attendant. *)
Section Example.
  Import ReaderCases StreamReadCases FailingReadCases.
  Definition ex_records t ns := match read_records (fun _ => 0) (fun _ => Raise ValueError)
      (fun _ => list_range None (fr_store fr_bad t ns) 0 [] (template_text st_template ++ $"/") (of_fields 2024 2 28 0 0 0) (of_fields 2024 3 1 12 0 0))
      0 (blob_records Json.loads unz no_other (read_from (fr_log fr_bad t ns)) pass_thru pass_thru_filter None) NoCursor 10
    with Ok (rs, _) => rs | Raise _ => [] end.
  Example ex_hypotheses :
    daily_template st_template /\ chronological st_template /\ proper_template (map Date st_template) /\
    (forall t, In t [st_template; st_template ++ hour_folders] ->
       (forall other, failing_settings Json.loads unz other distinct_keys (fun r => r) (fr_writer fr_bad t)) /\
       m_template (fr_writer fr_bad t) = template_text t /\
       failing_ran (read_from (fr_log fr_bad t fr_ns)) (fr_writer fr_bad t) (fr_history fr_ns) (fst (fr_run fr_bad t fr_ns)) (snd (fr_run fr_bad t fr_ns)) /\
       c_dropped (snd (fr_run fr_bad t fr_ns)) = [] /\ destructors_succeed (fr_history fr_ns) (fst (fr_run fr_bad t fr_ns)) /\
       forall date, within (2024, 2, 28) (2024, 3, 1) date ->
         clean_folder (day_folder st_template date) /\ lists_folder (fr_store fr_bad t fr_ns) (fr_log fr_bad t fr_ns) (day_folder st_template date)).
  Proof.
    split; [exact st_daily|]. split; [exact st_chronological|]. split; [exact st_proper|].
    intros t [<-|[<-|[]]].
    - split; [intros other; apply fr_settings|]. split; [reflexivity|]. split; [apply (fr_ran _ _ _ _ (proj1 fr_attempts)); repeat constructor|].
      split; [vm_compute; reflexivity|]. split; [|exact (fr_folders _ _ _ (proj1 fr_distinct))].
      intros n e H. vm_compute in H. repeat (destruct H as [H|H]; [discriminate H|]). destruct H.
    - split; [intros other; apply fr_settings|]. split; [reflexivity|]. split; [apply (fr_ran _ _ _ _ (proj2 fr_attempts)); repeat constructor|].
      split; [vm_compute; reflexivity|]. split; [|exact (fr_folders _ _ _ (proj2 fr_distinct))].
      intros n e H. vm_compute in H. repeat (destruct H as [H|H]; [discriminate H|]). destruct H.
  Qed.
  (** The append of 4 raised.  Before the writers are collected 2 and 3 are not there. *)
  Example ex_read :
    ex_records st_template [] = map a_record [1; 5] /\ ex_records st_template fr_ns = map a_record [1; 2; 3; 5] /\
    returned_on (fr_writer fr_bad st_template) (within_days (2024, 2, 28) (2024, 3, 1)) (fr_history fr_ns) (fst (fr_run fr_bad st_template fr_ns))
      = map a_record [1; 2; 3; 5] /\
    raised_on (fr_writer fr_bad st_template) (within_days (2024, 2, 28) (2024, 3, 1)) (fr_history fr_ns) (fst (fr_run fr_bad st_template fr_ns))
      = map a_record [4].
  Proof. repeat split; vm_compute; reflexivity. Qed.
  Example ex_read_hours : ex_records (st_template ++ hour_folders) [] = map a_record [1; 5] /\
    ex_records (st_template ++ hour_folders) fr_ns = map a_record [1; 2; 3; 4; 5].
  Proof. repeat split; vm_compute; reflexivity. Qed.
End Example.
