(** Streams whose storage failed now and then, in the storage of the adapters. *)
From Coq Require Import Lia Sorted Permutation.
From Verif.Base Require Import Py PyFacts Value.
From Verif.Model Require Import Storage Paths Dates Frames ReadRange Cursor Writers Stream Adapters Reader Collector.
From Verif.Spec Require Import Paths Dates Writers Stream Reader StreamRead Collector.
From Verif.Spec Require Adapters.
From Verif.Spec Require Import System StreamStore FailingStore.
From Verif.Proofs Require Import Paths Adapters AdaptersUse StreamPaths StreamPool Stream StreamRead StreamRange StreamStore.
From Verif.Proofs Require RoundTrip System Repeats Collector FailingRead.
Local Open Scope Z_scope.

(** the events of the stream in a history *)
Definition events_of {R} (es : list (cevent (R:=R))) : list (event (R:=R)) :=
  flat_map (fun e => match e with Event e => [e] | Collect _ => [] end) es.
Lemma events_In {R} (es : list (cevent (R:=R))) e : In e (events_of es) <-> In (Event e) es.
Proof.
  unfold events_of. rewrite in_flat_map. split.
  - intros (x & Hx & H). destruct x as [e'|n]; [|destruct H]. destruct H as [->|[]]. exact Hx.
  - intros H. exists (Event e). split; [exact H|left; reflexivity].
Qed.
Lemma appended_written {R V} (M : streaming R V) es id : partition_appended M es id <-> partition_written M (events_of es) id.
Proof.
  unfold partition_appended, partition_written. split; intros (r & at_ & H & I); exists r, at_; (split; [apply events_In, H|exact I]).
Qed.
Lemma stored_as_ext {R V} k (M : streaming R V) (p q : str -> Prop) : (forall id, p id -> q id) ->
  forall log s s', stored_as k M p log s s' -> stored_as k M q log s s'.
Proof. intros H log s s'. induction 1; [constructor|]. eapply blob_stored; eauto. Qed.

Section Failing.
  Context (parse : str -> result value) (unzstd : str -> result str) (other : str -> str -> generator value).
  Context (fits : value -> Prop) (image : value -> value).
  Context {V : Type} (M : streaming value V).
  Hypothesis HM : failing_settings parse unzstd other fits image M.

  Lemma fit_failing : fit_names (s_format (m_base M)) (m_ext M) (s_node (m_base M)).
  Proof.
    destruct HM as (HB & PN & PE & _).
    split; [apply plain_no; auto|]. split; [apply plain_no; auto|]. split; [split; apply plain_no; auto|].
    pose proof (RoundTrip.read_as_extension _ _ _ _ _ _ _ HB) as (e & z & Q & Dz).
    destruct (RoundTrip.data_extension_facts z Dz) as (_ & v & Hv & N1 & N2 & _).
    exists e, v. rewrite Q, Hv. auto.
  Qed.

  Context (k : kind) (t : list seg) (hourly : bool) (es : list (cevent (R:=value))) (os : list (result nat)) (c : cstate (R:=value)).
  Context (s0 : stored).
  Notation w := (world_of (c_stream c)).
  Notation part := (partition_appended M es).
  Hypothesis P : proper_template (map Date t).
  Hypothesis T : m_template M = template_text (t ++ sub hourly).

  Lemma failing_partitions id : part id -> exists b fs, folder (b :: fs) /\ relative id /\ components_of id = b :: fs /\
    forall x, blob_name (s_filename (m_writer M id)) (s_node (m_base M)) x
              = join $"/" (b :: fs) ++ $"/" ++ blob_file (s_format (m_base M)) (m_ext M) (s_node (m_base M)) x.
  Proof.
    destruct HM as (_ & _ & PE & SM & _). intros H. apply appended_written in H.
    apply (partitions_ok (t ++ sub hourly) (proper_sub t hourly P) M SM T PE (events_of es) id H).
  Qed.
  Lemma failing_storable : crun M new_collected es = (os, c) -> exists s1, stored_as k M part (puts w) s0 s1.
  Proof.
    intros RUN. destruct HM as (_ & _ & _ & _ & CF).
    destruct (Collector.at_most_rowed M CF es os c RUN) as (blobs & (rows & R1 & R2 & R3 & R4) & SP).
    apply (stored_exists k M _ fit_failing failing_partitions). rewrite R1. apply Forall_forall. intros e He.
    apply in_map_iff in He as (x & <- & Hx). rewrite Forall_forall in R4. destruct (R4 x Hx) as (_ & _ & Nx).
    destruct x as [[n [id g]] data]. cbn [fst snd] in *. exists id, (s_clock (m_base M) n). split; [|reflexivity].
    destruct g as [|r g]; [congruence|].
    assert (Hr : In r (stored_for id blobs)).
    { apply (in_stored_for (id, r :: g) blobs r); [|left; reflexivity]. rewrite R2. apply in_map_iff. eexists; split; [|exact Hx]. reflexivity. }
    destruct (SP id) as (rest & Pm).
    assert (Hm : In r (accepted_for M es os id ++ refused_for M es os id)).
    { eapply Permutation_in; [exact Pm|]. apply in_app_iff. auto. }
    apply in_app_iff in Hm as [Hm|Hm]; destruct (FailingRead.meant_In M _ es os _ r Hm) as (at_ & Ha & Hi); exists r, at_; auto.
  Qed.

  Hypothesis P0 : proper k s0.
  Context (s1 : stored).
  Hypothesis HS : stored_as k M part (puts w) s0 s1.
  Lemma failing_ran_stored : crun M new_collected es = (os, c) ->
    (forall r at_, In (Event (SAppend r at_)) es -> clock_time at_) -> good_clock (m_base M) (attempts w) ->
    failing_ran (fun name => get_blob_bytes k name s1) M es os c.
  Proof.
    intros RUN HC CL. split; [exact RUN|]. split; [exact HC|]. split; [exact CL|].
    pose proof (stored_facts k M _ fit_failing failing_partitions (puts w) s0 s1 HS P0) as (_ & _ & _ & RL & _). exact RL.
  Qed.
  Lemma failing_nothing rnd now a b date : (a <= b)%Z ->
    listing k rnd (range_hours now a b) (day_folder t date) s0 = [] ->
    lists_folder (fun p => dedup str_eqb (listing k rnd (range_hours now a b) p s1)) (puts w) (day_folder t date).
  Proof.
    intros L. rewrite (day_folder_fill t P date).
    pose proof (join_split "/"%char (fill t (midnight date))) as J. change ["/"%char] with $"/" in J. rewrite <- J.
    intros L0. apply (stored_listing k M part fit_failing failing_partitions (puts w) s0 s1); auto.
    - apply (fill_is_folder t P).
    - intros _. now apply System.some_hours.
  Qed.
End Failing.

Section Stated.
  Context (parse : str -> result value) (unzstd : str -> result str) (other : str -> str -> generator value).
  Context (fits : value -> Prop) (image : value -> value).
  Context {V : Type} (M : streaming value V).
  Context (columns : value -> result value) (filters : value -> result bool) (cf : value -> value) (pf : value -> bool).
  Context (k : kind).
  Hypothesis HM : failing_settings parse unzstd other fits image M.

  Lemma either_hourly (t : list seg) : m_template M = template_text t \/ m_template M = template_text (t ++ hour_folders) ->
    exists hourly, m_template M = template_text (t ++ sub hourly).
  Proof. intros [T|T]; [exists false; cbn [sub]; now rewrite app_nil_r|exists true; exact T]. Qed.

  Section Range.
    Context (t : list seg) (es : list (cevent (R:=value))) (os : list (result nat)) (c : cstate (R:=value)) (s0 : stored).
    Context (now : datetime) (rnd : str) (y m d hh mm ss y' m' d' hh' mm' ss' : Z).
    Notation start := (of_fields y m d hh mm ss).
    Notation stop := (of_fields y' m' d' hh' mm' ss').
    Notation returned := (returned_on M (within_days (y, m, d) (y', m', d')) es os).
    Notation raised := (raised_on M (within_days (y, m, d) (y', m', d')) es os).
    Notation reading hash loads n s1 := (records_read (read_selected parse unzstd other columns filters hash loads k now rnd t start stop n s1)).
    Hypothesis DT : daily_template t.
    Hypothesis CH : chronological t.
    Hypothesis P : proper_template (map Date t).
    Hypothesis T : m_template M = template_text t \/ m_template M = template_text (t ++ hour_folders).
    Hypothesis P0 : proper k s0.
    Hypothesis RUN : crun M new_collected es = (os, c).
    Hypothesis HC : forall r at_, In (Event (SAppend r at_)) es -> clock_time at_.
    Hypothesis CL : good_clock (m_base M) (attempts (world_of (c_stream c))).
    Hypothesis V1 : valid_date y m d.
    Hypothesis T1 : valid_time hh mm ss.
    Hypothesis V2 : valid_date y' m' d'.
    Hypothesis T2 : valid_time hh' mm' ss'.
    Hypothesis Y1 : 1000 <= y.
    Hypothesis Y2 : y' <= 9999.
    Hypothesis LE : start <= stop.
    Hypothesis HF : forall date, within (y, m, d) (y', m', d') date ->
      clean_folder (day_folder t date) /\ listing k rnd (range_hours now start stop) (day_folder t date) s0 = [].
    Hypothesis HA : forall r, In r (returned ++ raised) -> fits r /\ applies columns filters cf pf (image r).

    Lemma failing_stored : exists s1, stored_as k M (partition_appended M es) (puts (world_of (c_stream c))) s0 s1.
    Proof. destruct (either_hourly t T) as (hourly & T'). exact (failing_storable parse unzstd other fits image M HM k t hourly es os c s0 P T' RUN). Qed.

    Lemma selected_once hash loads n s1 :
      reading hash loads n s1 = records_read (read_records hash loads
        (fun _ => list_range None (fun p => dedup str_eqb (listing k rnd (range_hours now start stop) p s1)) now rnd (template_text t ++ $"/") start stop) 0
        (blob_records parse unzstd other (fun name => get_blob_bytes k name s1) columns filters None) NoCursor n).
    Proof. unfold read_selected. apply range_repeats. intros p x. now rewrite (dedup_In str_eqb str_eqb_eq). Qed.

    Lemma stored_at_most_once s1 : stored_as k M (partition_appended M es) (puts (world_of (c_stream c))) s0 s1 ->
      exists kept rest, Permutation (kept ++ rest) (returned ++ raised) /\
      forall hash loads n, reading hash loads n s1 = found kept n (filter pf (map cf (map image kept))).
    Proof.
      intros HS. destruct (either_hourly t T) as (hourly & T').
      pose proof (failing_ran_stored parse unzstd other fits image M HM k t hourly es os c s0 P T' P0 s1 HS RUN HC CL) as HR.
      destruct (FailingRead.read_at_most_once parse unzstd other _ fits image M columns filters cf pf es os c
        (fun p => dedup str_eqb (listing k rnd (range_hours now start stop) p s1)) HM HR t hourly now rnd
        y m d hh mm ss y' m' d' hh' mm' ss' DT CH P T' V1 T1 V2 T2 Y1 Y2 LE) as (kept & rest & Q & G).
      - intros date W. destruct (HF date W) as [C L]. split; [exact C|].
        exact (failing_nothing parse unzstd other fits image M HM k t hourly es c s0 P T' P0 s1 HS rnd now start stop date LE L).
      - exact HA.
      - exists kept, rest. split; [exact Q|]. intros hash loads n. rewrite selected_once. apply gives_found, G.
    Qed.
    Lemma stored_collected es0 ns s1 : stored_as k M (partition_appended M es) (puts (world_of (c_stream c))) s0 s1 ->
      es = es0 ++ Event SFinalize :: map Collect ns -> c_dropped c = [] -> destructors_succeed es os ->
      exists kept some rest, Permutation kept (returned ++ some) /\ Permutation (some ++ rest) raised /\
      forall hash loads n, reading hash loads n s1 = found kept n (filter pf (map cf (map image kept))).
    Proof.
      intros HS Ee D N. destruct (either_hourly t T) as (hourly & T').
      pose proof (failing_ran_stored parse unzstd other fits image M HM k t hourly es os c s0 P T' P0 s1 HS RUN HC CL) as HR.
      destruct (FailingRead.read_collected parse unzstd other _ fits image M columns filters cf pf es os c
        (fun p => dedup str_eqb (listing k rnd (range_hours now start stop) p s1)) HM HR t hourly now rnd
        y m d hh mm ss y' m' d' hh' mm' ss' DT CH P T' V1 T1 V2 T2 Y1 Y2 LE) with (es0 := es0) (ns := ns) as (kept & some & rest & Q1 & Q2 & G).
      - intros date W. destruct (HF date W) as [C L]. split; [exact C|].
        exact (failing_nothing parse unzstd other fits image M HM k t hourly es c s0 P T' P0 s1 HS rnd now start stop date LE L).
      - exact HA.
      - exact Ee.
      - exact D.
      - exact N.
      - exists kept, some, rest. split; [exact Q1|]. split; [exact Q2|]. intros hash loads n. rewrite selected_once. apply gives_found, G.
    Qed.
  End Range.
End Stated.
