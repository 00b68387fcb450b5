(** Streams with fields in the names of folders, in the storage of the adapters. *)
From Coq Require Import Lia Sorted.
From Verif.Base Require Import Py PyFacts Value.
From Verif.Model Require Import Storage Paths Dates Frames ReadRange Cursor Writers Stream Adapters Reader.
From Verif.Spec Require Import Paths Dates Writers Stream Reader StreamRead StreamField StreamLevels.
From Verif.Spec Require Adapters.
From Verif.Spec Require Import System StreamStore.
From Verif.Proofs Require Import Paths Adapters AdaptersUse StreamPaths StreamPool Stream StreamRead StreamStore StreamLevels FieldStore.
From Verif.Proofs Require RoundTrip System Repeats StreamRange.

Lemma fill_place u (P : proper_template (map Date u)) {R V} (M : streaming R V) (PE : plain (m_ext M)) at_ r :
  let id := fill u at_ ++ suffix_of M r in
  exists b fs, folder (b :: fs) /\ relative id /\ components_of id = b :: fs /\
    forall x, blob_name (s_filename (m_writer M id)) (s_node (m_base M)) x
              = join $"/" (b :: fs) ++ $"/" ++ blob_file (s_format (m_base M)) (m_ext M) (s_node (m_base M)) x.
Proof.
  cbv zeta. unfold suffix_of. destruct (m_valid M r).
  - rewrite app_nil_r. pose proof (fill_is_folder u P at_) as F. pose proof (solid_split _ (fill_solid u P at_)) as E.
    pose proof (fun x => fill_name u P M PE at_ x) as N. pose proof (join_split "/"%char (fill u at_)) as J.
    destruct (split "/"%char (fill u at_)) as [|b fs]; [destruct F as (L & _); cbn in L; lia|].
    exists b, fs. split; [exact F|]. split; [apply (fill_relative u P)|]. split; [exact E|].
    intros x. rewrite N. change $"/" with ["/"%char]. rewrite J. reflexivity.
  - pose proof (backout_is_folder u P at_) as F. pose proof (fun x => backout_name u P M PE at_ x) as N.
    pose proof (join_split "/"%char (fill u at_)) as J. pose proof (split_nonempty "/"%char (fill u at_)) as NE.
    assert (E : components_of (fill u at_ ++ $"/BACKOUT/") = split "/"%char (fill u at_) ++ [$"BACKOUT"]).
    { change $"/BACKOUT/" with ($"/" ++ $"BACKOUT/"). rewrite components_app_slash, solid_split by (apply fill_solid; auto). reflexivity. }
    assert (J2 : join $"/" (split "/"%char (fill u at_) ++ [$"BACKOUT"]) = fill u at_ ++ $"/BACKOUT").
    { change $"/" with ["/"%char]. rewrite join_app by (try discriminate; auto). rewrite J. reflexivity. }
    destruct (split "/"%char (fill u at_) ++ [$"BACKOUT"]) as [|b fs] eqn:Es; [destruct (split "/"%char (fill u at_)); discriminate|].
    exists b, fs. split; [exact F|]. split; [|split; [exact E|]].
    + intros z Q. pose proof (fill_relative u P at_) as Rl. pose proof (fill_depth u P at_) as D. destruct (fill u at_) as [|c0 f0] eqn:Ef.
      * cbn in D. lia.
      * injection Q as -> _. now apply (Rl f0).
    + intros x. rewrite N, J2. rewrite <- !app_assoc. reflexivity.
Qed.

Section Written.
  Context (parse : str -> result value) (unzstd : str -> result str) (other : str -> str -> generator value).
  Context (fits : value -> Prop) (image : value -> value).
  Context {V : Type} (M : streaming value V).
  Context (columns : value -> result value) (filters : value -> result bool) (cf : value -> value) (pf : value -> bool).
  Notation selected l := (filter pf (map cf (map image l))).
  Context (k : kind) (hash : str -> Z) (loads : str -> result cdict).
  Hypothesis HM : stream_settings parse unzstd other fits image M.
  Notation read now rnd t a b n s := (records_read (read_asked parse unzstd other columns filters hash loads k now rnd t None a b n s)).

  Context (ls : list level) (es : list (event (R:=value))) (os : list (result nat)) (s : sstate (R:=value)) (s0 : stored).
  Hypothesis OK : levels_ok ls.
  Hypothesis T : m_template M = stream_template (levels_template ls).
  Hypothesis RUN : srun M new_stream (es ++ [SFinalize]) = (os, s).
  Hypothesis HN : forall r at_, In (SAppend r at_) es -> names_folders M ls r.

  Lemma levels_fine id : partition_written M es id -> exists b fs, folder (b :: fs) /\ relative id /\ components_of id = b :: fs /\
    forall x, blob_name (s_filename (m_writer M id)) (s_node (m_base M)) x
              = join $"/" (b :: fs) ++ $"/" ++ blob_file (s_format (m_base M)) (m_ext M) (s_node (m_base M)) x.
  Proof.
    destruct HM as (_ & _ & PE & SM & _). intros (r & at_ & Ha & Hi).
    destruct (level_targets ls OK M SM T r at_ (HN r at_ Ha)) as (names & combos & _ & _ & _ & _ & HO & E). rewrite E in Hi.
    apply in_map_iff in Hi as (c & <- & Hc). apply (fill_place _ (levels_proper ls OK _ (HO c Hc)) M PE).
  Qed.
  Notation fit := (fit_stream parse unzstd other fits image M HM).
  Lemma levels_storable : exists s1, stored_as k M (partition_written M es) (puts (world_of s)) s0 s1.
  Proof.
    destruct HM as (_ & _ & _ & _ & RE). destruct (all_timed M RE _ _ _ RUN) as (blobs & TM & ST).
    apply (stored_exists k M _ fit levels_fine). eapply timed_partitions; eauto.
    intros b Hb Nb. apply (stored_sent M es os blobs b Hb Nb). intros id. exists []. now rewrite app_nil_r.
  Qed.

  Hypothesis P0 : proper k s0.
  Hypothesis HC : forall r at_, In (SAppend r at_) es -> clock_time at_.
  Hypothesis CL : good_clock (m_base M) (attempts (world_of s)).
  Context (values : str -> str).
  Notation t := (levels_of values ls).
  Hypothesis VO : values_ok ls values.
  Hypothesis DT : daily_template t.
  Let P : proper_template (map Date t) := levels_proper ls OK values VO.

  Section Read.
    Context (s1 : stored) (now : datetime) (rnd : str) (a b : datetime).
    Hypothesis HS : stored_as k M (partition_written M es) (puts (world_of s)) s0 s1.
    Hypothesis LE : (a <= b)%Z.
    Notation store := (fun p => dedup str_eqb (listing k rnd (range_hours now a b) p s1)).
    Lemma levels_nothing date : listing k rnd (range_hours now a b) (day_folder t date) s0 = [] ->
      lists_folder store (puts (world_of s)) (day_folder t date).
    Proof.
      rewrite (day_folder_fill t P date).
      pose proof (join_split "/"%char (fill t (midnight date))) as J. change ["/"%char] with $"/" in J. rewrite <- J.
      intros L0. apply (stored_listing k M (partition_written M es) fit levels_fine _ s0 s1); auto.
      - apply (fill_is_folder t P).
      - intros _. now apply System.some_hours.
    Qed.
    Lemma levels_ran : stream_ran (fun name => get_blob_bytes k name s1) M es os s.
    Proof.
      split; [exact RUN|]. split; [exact HC|]. split; [exact CL|].
      pose proof (stored_facts k M _ fit levels_fine _ s0 s1 HS P0) as (_ & _ & _ & RL & _). exact RL.
    Qed.
    Lemma levels_once n :
      read now rnd t a b n s1 = records_read (read_records hash loads
        (fun _ => list_range None store now rnd (template_text t ++ $"/") a b) 0
        (blob_records parse unzstd other (fun name => get_blob_bytes k name s1) columns filters None) NoCursor n).
    Proof. unfold read_asked. apply asked_repeats. intros p x. now rewrite (dedup_In str_eqb str_eqb_eq). Qed.
  End Read.
  Notation wanted_on date := (filter (has_texts M ls values) (accepted_on M (on_day date) es os)).

  Lemma stored_levels_range now rnd y m d hh mm ss y' m' d' hh' mm' ss' n s1 :
    chronological t ->
    valid_date y m d -> valid_time hh mm ss -> valid_date y' m' d' -> valid_time hh' mm' ss' -> (1000 <= y)%Z -> (y' <= 9999)%Z ->
    let start := of_fields y m d hh mm ss in let stop := of_fields y' m' d' hh' mm' ss' in
    (start <= stop)%Z ->
    (forall date, within (y, m, d) (y', m', d') date ->
       clean_folder (day_folder t date) /\ listing k rnd (range_hours now start stop) (day_folder t date) s0 = []) ->
    stored_as k M (partition_written M es) (puts (world_of s)) s0 s1 ->
    exists days, consecutive days /\ hd_error days = Some (y, m, d) /\ last days (y', m', d') = (y', m', d') /\
    let wanted := flat_map (fun date => wanted_on date) days in
    ((forall r, In r wanted -> fits r /\ applies columns filters cf pf (image r)) ->
     read now rnd t start stop n s1 = found wanted n (selected wanted)).
  Proof.
    intros CH V1 T1 V2 T2 Y1 Y2 start stop LE HF HS.
    destruct (levels_range parse unzstd other _ fits image M ls values columns filters cf pf HM OK VO DT T es os s
      (fun p => dedup str_eqb (listing k rnd (range_hours now start stop) p s1)) (levels_ran s1 HS) HN
      now rnd y m d hh mm ss y' m' d' hh' mm' ss' hash loads n CH V1 T1 V2 T2 Y1 Y2 LE) as (days & C1 & C2 & C3 & Q).
    - intros date Hw. destruct (HF date Hw) as [C L]. split; [exact C|]. now apply levels_nothing.
    - exists days. repeat (split; [assumption|]). intros wanted HW. rewrite levels_once. apply gives_found. exact (Q HW).
  Qed.
  Lemma stored_levels_day now rnd y m d hh mm ss hh' mm' ss' n s1 :
    valid_date y m d -> valid_time hh mm ss -> valid_time hh' mm' ss' ->
    let start := of_fields y m d hh mm ss in let stop := of_fields y m d hh' mm' ss' in
    (start <= stop)%Z -> clean_folder (day_folder t (y, m, d)) ->
    listing k rnd (range_hours now start stop) (day_folder t (y, m, d)) s0 = [] ->
    stored_as k M (partition_written M es) (puts (world_of s)) s0 s1 ->
    let wanted := wanted_on (y, m, d) in
    (forall r, In r wanted -> fits r /\ applies columns filters cf pf (image r)) ->
    read now rnd t start stop n s1 = found wanted n (selected wanted).
  Proof.
    intros V1 T1 T2 start stop LE C L HS wanted HW. rewrite levels_once. apply gives_found.
    apply (levels_day parse unzstd other _ fits image M ls values columns filters cf pf HM OK VO DT T es os s
      (fun p => dedup str_eqb (listing k rnd (range_hours now start stop) p s1)) (levels_ran s1 HS) HN); auto.
    now apply levels_nothing.
  Qed.
End Written.
