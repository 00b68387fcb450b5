(** Stream writers with fields in the names of folders, one after the other. *)
From Coq Require Import Lia Sorted.
From Verif.Base Require Import Py PyFacts Value.
From Verif.Model Require Import Storage Paths Dates Frames ReadRange Cursor Writers Stream Adapters Reader.
From Verif.Spec Require Import Paths Dates Writers Stream Reader StreamRead StreamField StreamLevels.
From Verif.Spec Require Adapters.
From Verif.Spec Require Import System StreamStore.
From Verif.Proofs Require Import Paths Dates Adapters AdaptersUse StreamPaths StreamPool Stream StreamRead StreamRange StreamStore StreamLevels FieldStore LevelsStore.
From Verif.Proofs Require ReadRange System Sessions.

Section Sessions.
  Context (parse : str -> result value) (unzstd : str -> result str) (other : str -> str -> generator value).
  Context (fits : value -> Prop) (image : value -> value).
  Context {V : Type} (M : streaming value V).
  Hypothesis HM : stream_settings parse unzstd other fits image M.
  Context (ls : list level) (xs : list session) (w : world) (s0 : stored) (k : kind).
  Hypothesis OK : levels_ok ls.
  Hypothesis T : m_template M = stream_template (levels_template ls).
  Hypothesis RUN : sessions_ran M (mkWorld 0 []) xs w.
  Notation es := (flat_map asked_of xs).
  Hypothesis HN : forall r at_, In (SAppend r at_) es -> names_folders M ls r.
  Notation fine := (levels_fine parse unzstd other fits image M HM ls es OK T HN).
  Notation fit := (fit_stream parse unzstd other fits image M HM).

  Lemma from_session new news : Forall2 (Sessions.left_by M) xs news -> In new news -> exists x, In x xs /\ Sessions.left_by M x new.
  Proof.
    intros F Hn. clear - F Hn. induction F as [|x a xs l H F IH]; [destruct Hn|]. destruct Hn as [<-|Hn].
    - exists x. split; [left; auto|exact H].
    - destruct (IH Hn) as (x' & I & Q). exists x'. split; [right; auto|exact Q].
  Qed.
  Lemma asked_in x (r : value) at_ : In x xs -> In (SAppend r at_) (asked_of x) -> In (SAppend r at_) es.
  Proof. intros Hx Hr. apply in_flat_map. eauto. Qed.

  Lemma levels_sessions_storable : exists s1, stored_as k M (partition_written M es) (puts w) s0 s1.
  Proof.
    destruct HM as (_ & _ & _ & _ & RE). destruct (Sessions.sessions_timed M RE _ _ _ RUN [] (timed_nothing M)) as (news & TM & FL).
    cbn [app] in TM. apply (stored_exists k M _ fit fine). eapply timed_partitions; eauto.
    intros b Hb Nb. apply in_concat in Hb as (new & Hn & Hb). destruct (from_session new news FL Hn) as (x & Hx & L).
    assert (Q : partition_written M (asked_of x) (fst b)).
    { destruct x as [e o|e o]; cbn [asked_of Sessions.left_by] in *.
      - apply (stored_sent M e o new b Hb Nb). intros id. exists []. now rewrite app_nil_r.
      - apply (stored_sent M e o new b Hb Nb). exact L. }
    destruct Q as (r & at_ & A & B). exists r, at_. split; [|exact B]. now apply (asked_in x).
  Qed.

  Context (columns : value -> result value) (filters : value -> result bool) (cf : value -> value) (pf : value -> bool).
  Notation selected l := (filter pf (map cf (map image l))).
  Context (hash : str -> Z) (loads : str -> result cdict).
  Notation read now rnd t a b n s := (records_read (read_asked parse unzstd other columns filters hash loads k now rnd t None a b n s)).
  Hypothesis P0 : proper k s0.
  Hypothesis HC : forall r at_, In (SAppend r at_) es -> clock_time at_.
  Hypothesis CL : good_clock (m_base M) (attempts w).
  Context (values : str -> str).
  Notation t := (levels_of values ls).
  Hypothesis VO : values_ok ls values.
  Hypothesis DT : daily_template t.
  Let P : proper_template (map Date t) := levels_proper ls OK values VO.

  Lemma levels_sessions_days now rnd y m d hh mm ss y' m' d' hh' mm' ss' n s1 :
    valid_date y m d -> valid_time hh mm ss -> valid_date y' m' d' -> valid_time hh' mm' ss' ->
    let start := of_fields y m d hh mm ss in let stop := of_fields y' m' d' hh' mm' ss' in
    (start <= stop)%Z ->
    (forall date, within (y, m, d) (y', m', d') date ->
       clean_folder (day_folder t date) /\ listing k rnd (range_hours now start stop) (day_folder t date) s0 = []) ->
    (forall a b, within (y, m, d) (y', m', d') a -> within (y, m, d) (y', m', d') b ->
       length (day_folder t a) = length (day_folder t b) /\
       (day_lt a b -> str_compare (day_folder t a) (day_folder t b) = Lt)) ->
    stored_as k M (partition_written M es) (puts w) s0 s1 ->
    exists days kept, consecutive days /\ hd_error days = Some (y, m, d) /\ last days (y', m', d') = (y', m', d') /\
    Forall2 (fun x of_day => forall date, In date days -> remains_of M (has_texts M ls values) x date (of_day date)) xs kept /\
    let wanted := flat_map (fun date => flat_map (fun of_day => of_day date) kept) days in
    ((forall r, In r wanted -> fits r /\ applies columns filters cf pf (image r)) ->
     read now rnd t start stop n s1 = found wanted n (selected wanted)).
  Proof.
    intros V1 T1 V2 T2 start stop L HF HO HS.
    set (store := fun p => dedup str_eqb (listing k rnd (range_hours now start stop) p s1)).
    destruct (ReadRange.range_each_day_once None store now rnd t y m d hh mm ss y' m' d' hh' mm' ss' DT V1 T1 V2 T2 L)
      as (days & C & Hd & Hl & _ & E).
    assert (Hl' : last days (y', m', d') = (y', m', d')).
    { rewrite <- Hl at 2. apply last_any. intros ->. discriminate. }
    apply valid_date_spec in V1.
    pose proof (consecutive_valid days C _ Hd V1) as HV.
    assert (HI : forall x, In x days -> within (y, m, d) (y', m', d') x).
    { intros x Hx. split; [specialize (HV x Hx); destruct x as [[? ?] ?]; now apply valid_date_spec|].
      apply (consecutive_all days C (y, m, d) (y', m', d') Hd V1 x (HV x Hx)) in Hx. rewrite Hl' in Hx.
      now apply andb_prop in Hx. }
    pose proof (stored_facts k M _ fit fine _ s0 s1 HS P0) as (_ & _ & _ & RL & _).
    destruct HM as (A1 & A2 & A3 & A4 & A5).
    destruct (Sessions.sessions_timed M A5 _ _ _ RUN [] (timed_nothing M)) as (news & TM & F). cbn [app] in TM.
    exists days, (map (fun new date => stored_for (day_folder t date) new) news).
    split; [exact C|]. split; [exact Hd|]. split; [exact Hl'|].
    assert (HX : forall x, In x xs -> forall r at_, In (SAppend r at_) (asked_of x) -> clock_time at_ /\ names_folders M ls r).
    { intros x Hx r at_ Ha. pose proof (asked_in x r at_ Hx Ha) as I. split; [now apply (HC r)|now apply (HN r at_)]. }
    assert (SA : forall date x es os, In date days -> In x xs -> asked_of x = es ->
       sent M (es ++ [SFinalize]) os (day_folder t date) = filter (has_texts M ls values) (accepted_on M (on_day date) es os)).
    { intros date x e o Hdate Hx <-. apply (sent_levels ls OK M A4 T values VO DT); [exact (HV date Hdate)|exact (HX x Hx)]. }
    split.
    { clear -F SA. revert SA. induction F as [|x new xs news H F IH]; intros SA; cbn [map]; constructor.
      - intros date Hdate. destruct x as [e o|e o]; cbn [Sessions.left_by remains_of] in *.
        + rewrite H. apply (SA date (Finished e o) e o Hdate (or_introl eq_refl) eq_refl).
        + destruct (H (day_folder t date)) as (lost & Q). exists lost. rewrite Q. apply (SA date (Killed e o) e o Hdate (or_introl eq_refl) eq_refl).
      - apply IH. intros date x' e o Hdt Hx Ea. apply (SA date x' e o Hdt (or_intror Hx) Ea). }
    intros wanted HR.
    assert (W : wanted = flat_map (fun date => stored_for (day_folder t date) (concat news)) days).
    { unfold wanted. apply flat_map_same. intros date _. rewrite Sessions.stored_for_concat, !flat_map_concat_map, map_map. reflexivity. }
    rewrite W in *. clear wanted W.
    assert (EO : read now rnd t start stop n s1 = records_read (read_records hash loads
        (fun _ => list_range None store now rnd (template_text t ++ $"/") start stop) 0
        (blob_records parse unzstd other (fun name => get_blob_bytes k name s1) columns filters None) NoCursor n)).
    { unfold read_asked. apply asked_repeats. intros p x. unfold store. now rewrite (dedup_In str_eqb str_eqb_eq). }
    rewrite EO. clear EO.
    apply gives_found. unfold start, stop. rewrite E.
    apply (levels_stored parse unzstd other (fun name => get_blob_bytes k name s1) fits image M ls values columns filters cf pf) with (w := w); auto.
    - intros b Hb Nb. apply in_concat in Hb as (new & Hn & Hb). destruct (from_session new news F Hn) as (x & Hx & Q).
      destruct (snd b) as [|r g] eqn:Eg; [congruence|].
      pose proof (in_stored_for b new r Hb) as I. rewrite Eg in I. specialize (I (or_introl eq_refl)).
      assert (G : exists os, In r (sent M (asked_of x ++ [SFinalize]) os (fst b))).
      { destruct x as [e o|e o]; cbn [Sessions.left_by asked_of] in *; exists o.
        - now rewrite <- Q.
        - destruct (Q (fst b)) as (lost & Q'). rewrite <- Q'. apply in_app_iff. auto. }
      destruct G as (o & G).
      destruct (sent_level ls OK M A4 T (asked_of x) o (fst b) r G (HX x Hx)) as (at_ & v & B1 & B2 & B3). eauto 6.
    - intros date Hdate. destruct (HF date (HI date Hdate)) as [Cl L0]. split; [now apply HV|]. split; [exact Cl|].
      rewrite (day_folder_fill t P date) in *.
      pose proof (join_split "/"%char (fill t (midnight date))) as J. change ["/"%char] with $"/" in J. rewrite <- J in L0 |- *.
      apply (stored_listing k M (partition_written M es) (fit_stream parse unzstd other fits image M (conj A1 (conj A2 (conj A3 (conj A4 A5)))))
               (levels_fine parse unzstd other fits image M (conj A1 (conj A2 (conj A3 (conj A4 A5)))) ls es OK T HN) _ s0 s1); auto.
      + apply (fill_is_folder t P).
      + intros _. now apply System.some_hours.
    - apply (sorted_map _ day_lt); [|now apply consecutive_sorted]. intros a b Ha Hb. apply HO; now apply HI.
    - intros a b Ha Hb. apply HO; now apply HI.
  Qed.

  Lemma levels_sessions_range now rnd y m d hh mm ss y' m' d' hh' mm' ss' n s1 :
    chronological t ->
    valid_date y m d -> valid_time hh mm ss -> valid_date y' m' d' -> valid_time hh' mm' ss' -> (1000 <= y)%Z -> (y' <= 9999)%Z ->
    let start := of_fields y m d hh mm ss in let stop := of_fields y' m' d' hh' mm' ss' in
    (start <= stop)%Z ->
    (forall date, within (y, m, d) (y', m', d') date ->
       clean_folder (day_folder t date) /\ listing k rnd (range_hours now start stop) (day_folder t date) s0 = []) ->
    stored_as k M (partition_written M es) (puts w) s0 s1 ->
    exists days kept, consecutive days /\ hd_error days = Some (y, m, d) /\ last days (y', m', d') = (y', m', d') /\
    Forall2 (fun x of_day => forall date, In date days -> remains_of M (has_texts M ls values) x date (of_day date)) xs kept /\
    let wanted := flat_map (fun date => flat_map (fun of_day => of_day date) kept) days in
    ((forall r, In r wanted -> fits r /\ applies columns filters cf pf (image r)) ->
     read now rnd t start stop n s1 = found wanted n (selected wanted)).
  Proof.
    intros CH V1 T1 V2 T2 Y1 Y2 start stop L HF HS. apply levels_sessions_days; auto.
    intros a b Ha Hb. destruct (within_four _ _ _ _ _ _ a Y1 Y2 Ha) as [Va Fa]. destruct (within_four _ _ _ _ _ _ b Y1 Y2 Hb) as [Vb Fb].
    rewrite !day_folder_fill by exact P. now apply fills_lt.
  Qed.
End Sessions.
