(** Proofs: streams partitioned by a field of their records, with storage that fails now and then. *)
From Coq Require Import Lia Sorted Permutation.
From Verif.Base Require Import Py PyFacts Value.
From Verif.Model Require Import Storage Paths Dates Frames ReadRange Cursor Writers Stream Adapters Reader Collector.
From Verif.Spec Require Import Paths Dates Writers Stream Reader StreamRead StreamField Collector FailingSessions FailingLevels.
From Verif.Spec Require Adapters.
From Verif.Spec Require Import System StreamStore FailingStore.
From Verif.Proofs Require Import StreamStore.
From Verif.Proofs Require Import Paths Dates Adapters AdaptersUse StreamPaths StreamPool Stream StreamRead StreamRange StreamField Collector FailingRead FailingSessions FailingLevels.
From Verif.Proofs Require ReadRange System StreamStore FieldStore FailingStore.
Local Open Scope Z_scope.

Section Field.
  Context (t : list seg) (F : str) (x : str).
  Hypothesis DT : daily_template t.
  Hypothesis P : proper_template (map Date t).
  Hypothesis FN : field_name F.
  Context {V : Type} (M : streaming value V).
  Hypothesis SM : sets_ok M.
  Hypothesis T : m_template M = stream_template (field_template t F).
  Hypothesis VX : forall c, In c x -> valid_character c = true.
  Notation wanted := (has_text M F x).
  Notation part p := (id_of p (value_key F x)).

  Lemma one_value date r at_ : valid_day date -> clock_time at_ -> texts_differ M F r ->
    map (fun _ => r) (filter (str_eqb (part (day_folder t date))) (targets M r at_))
    = if m_valid M r && on_day date at_ then filter wanted [r] else [].
  Proof.
    intros Vd Ca TD.
    pose proof (sent_values t F DT P FN M SM T (fun y q => if has_text M F y q then 1%nat else 0%nat) date x Vd VX [SAppend r at_] [Ok 0%nat]) as Q.
    rewrite (copies_once F M) in Q. cbn [sent app accepted_on] in Q. rewrite !app_nil_r in Q. rewrite Q.
    - now destruct (m_valid M r && on_day date at_).
    - intros q a [[= -> ->]|[]]. exact Ca.
    - intros q a [[= -> ->]|[]]. apply (differ_once F M), TD.
  Qed.
  Lemma meant_value f date : valid_day date ->
    forall es os, (forall r at_, In (Event (SAppend r at_)) es -> clock_time at_ /\ texts_differ M F r) ->
    meant_for M f es os (part (day_folder t date)) = filter wanted (appended_on M f (on_day date) es os).
  Proof.
    intros Vd. induction es as [|e es IH]; intros os HC.
    - destruct os; reflexivity.
    - destruct os as [|o os]; [destruct e as [[]|]; reflexivity|].
      assert (HC' : forall r at_, In (Event (SAppend r at_)) es -> clock_time at_ /\ texts_differ M F r) by (intros r a H; apply (HC r a); right; exact H).
      destruct e as [[r at_| |]|n]; cbn [meant_for appended_on]; auto.
      destruct (HC r at_ (or_introl eq_refl)) as [Ca TD].
      rewrite filter_app, IH by exact HC'. f_equal. destruct (f o); [|reflexivity]. cbn [andb].
      rewrite (one_value date r at_ Vd Ca TD). now destruct (m_valid M r && on_day date at_).
  Qed.
  Lemma value_meant f days a z es os :
    consecutive days -> hd_error days = Some a -> last days z = z -> valid_day a ->
    (forall r at_, In (Event (SAppend r at_)) es -> clock_time at_ /\ texts_differ M F r) ->
    Permutation (flat_map (fun date => meant_for M f es os (part (day_folder t date))) days)
                (filter wanted (appended_on M f (within_days a z) es os)).
  Proof.
    intros C Ha Hz Va HC.
    assert (HC' : forall r at_, In (Event (SAppend r at_)) es -> clock_time at_) by (intros r at_ H; now apply (HC r)).
    rewrite <- (filter_permuted wanted _ _ (appended_together M f false days a z es os C Ha Hz Va HC')), filter_flat.
    erewrite (flat_map_same _ _ days); [reflexivity|]. intros date Hd.
    rewrite (meant_value f date (consecutive_valid days C a Ha Va date Hd) es os HC). cbn [conds flat_map]. rewrite app_nil_r.
    rewrite !appended_on_pairs. f_equal. f_equal. apply filter_ext. intros e. cbn beta. now rewrite ?andb_true_r.
  Qed.
  Definition value_kept (days : list (Z * Z * Z)) (bl : list (str * list value)) : list value :=
    flat_map (fun date => stored_for (part (day_folder t date)) bl) days.
  Lemma left_value days a z y bl :
    consecutive days -> hd_error days = Some a -> last days z = z -> valid_day a ->
    (forall r at_, In (Event (SAppend r at_)) (history_of y) -> clock_time at_ /\ texts_differ M F r) ->
    spell_left M y bl -> wanted_kept M wanted (within_days a z) y (value_kept days bl).
  Proof.
    intros C Hd Hl Va HC S. unfold spell_left in S. unfold wanted_kept, value_kept. destruct y as [es ns os|es os].
    - cbn [history_of answers_of] in *.
      destruct (flat_all (fun date => stored_for (part (day_folder t date)) bl) _ _ days (fun date _ => S (part (day_folder t date)))) as (some & rest & Q1 & Q2).
      unfold accepted_for in Q1. unfold refused_for in Q2.
      rewrite (value_meant _ days a z _ os C Hd Hl Va HC) in Q1. rewrite (value_meant _ days a z _ os C Hd Hl Va HC) in Q2.
      exists some, rest. split; [exact Q1|exact Q2].
    - cbn [history_of answers_of] in *.
      destruct (flat_some (fun date => stored_for (part (day_folder t date)) bl) _ _ days (fun date _ => S (part (day_folder t date)))) as (rest & Q).
      unfold accepted_for, refused_for in Q. rewrite !(value_meant _ days a z es os C Hd Hl Va HC) in Q. exists rest. exact Q.
  Qed.
  Lemma value_concat days news : Permutation (value_kept days (concat news)) (concat (map (value_kept days) news)).
  Proof.
    unfold value_kept. induction news as [|bl news IH]; cbn [concat map].
    - induction days as [|id l IH]; [reflexivity|exact IH].
    - rewrite <- IH. clear IH. induction days as [|id l IH]; [reflexivity|]. cbn [flat_map].
      rewrite IH, stored_for_app, <- !app_assoc. apply Permutation_app_head. rewrite !app_assoc. apply Permutation_app_tail, Permutation_app_comm.
  Qed.
End Field.

Section Stated.
  Context (parse : str -> result value) (unzstd : str -> result str) (other : str -> str -> generator value).
  Context (fits : value -> Prop) (image : value -> value).
  Context {V : Type} (M : streaming value V).
  Hypothesis HM : failing_settings parse unzstd other fits image M.
  Context (t : list seg) (F : str).
  Hypothesis DT : daily_template t.
  Hypothesis CH : chronological t.
  Hypothesis P : proper_template (map Date t).
  Hypothesis FN : field_name F.
  Hypothesis T : m_template M = stream_template (field_template t F).
  Context (xs : list spell) (w : world).
  Hypothesis RUN : spells_ran M (mkWorld 0 []) xs w.
  Hypothesis HN : forall x r at_, In x xs -> In (Event (SAppend r at_)) (history_of x) -> clock_time at_ /\ texts_differ M F r.

  Section Read.
    Hypothesis CL : good_clock (m_base M) (attempts w).
    Context (op v : str).
    Hypothesis Hop : In op [$"="; $"=="].
    Hypothesis HB : contains $"BACKOUT" (kept_text v) = false.
    Context (now : datetime) (rnd : str) (y m d hh mm ss y' m' d' hh' mm' ss' : Z).
    Notation start := (of_fields y m d hh mm ss).
    Notation stop := (of_fields y' m' d' hh' mm' ss').
    Notation asked := (within_days (y, m, d) (y', m', d')).
    Hypothesis V1 : valid_date y m d.
    Hypothesis T1 : valid_time hh mm ss.
    Hypothesis V2 : valid_date y' m' d'.
    Hypothesis T2 : valid_time hh' mm' ss'.
    Hypothesis Y1 : 1000 <= y.
    Hypothesis Y2 : y' <= 9999.
    Hypothesis LE : start <= stop.

    Lemma value_spells_read read_blob store : reads_log read_blob (puts w) ->
      (forall date, within (y, m, d) (y', m', d') date ->
         clean_folder (day_folder t date) /\ lists_folder store (puts w) (day_folder t date)) ->
      exists kept stored, Forall2 (wanted_kept M (has_text M F (kept_text v)) asked) xs kept /\ Permutation stored (concat kept) /\
      (forall columns filters cf pf, (forall r, In r stored -> fits r /\ applies columns filters cf pf (image r)) ->
       forall hash loads n, gives stored (firstn n (filter pf (map cf (map image stored)))) (read_records hash loads
         (fun _ => list_range (Some (F, op, v)) store now rnd (template_text t ++ $"/") start stop)
         0 (blob_records parse unzstd other read_blob columns filters None) NoCursor n)).
    Proof.
      intros RL HF. pose proof HM as (A1 & A2 & A3 & A4 & A5).
      destruct (spells_rowed M A5 _ _ _ RUN) as (news & RW & FF). apply rowed_new in RW.
      destruct (ReadRange.range_each_day_once (Some (F, op, v)) store now rnd t y m d hh mm ss y' m' d' hh' mm' ss' DT V1 T1 V2 T2 LE)
        as (days & C & Hd & Hl & _ & E).
      assert (Hl' : last days (y', m', d') = (y', m', d')).
      { rewrite <- Hl at 2. apply last_any. intros ->. discriminate. }
      assert (Va : valid_day (y, m, d)) by (apply valid_date_spec; exact V1).
      pose proof (consecutive_valid days C _ Hd Va) as HV.
      assert (HI : forall x, In x days -> within (y, m, d) (y', m', d') x).
      { intros x Hx. split; [specialize (HV x Hx); destruct x as [[? ?] ?]; now apply valid_date_spec|].
        apply (consecutive_all days C (y, m, d) (y', m', d') Hd Va x (HV x Hx)) in Hx. rewrite Hl' in Hx.
        now apply andb_prop in Hx. }
      assert (HO : forall a b, In a days -> In b days -> length (day_folder t a) = length (day_folder t b) /\
                     (day_lt a b -> str_compare (day_folder t a) (day_folder t b) = Lt)).
      { intros a b Ha Hb. apply HI in Ha, Hb. destruct (within_four _ _ _ _ _ _ a Y1 Y2 Ha) as [Va' Fa]. destruct (within_four _ _ _ _ _ _ b Y1 Y2 Hb) as [Vb Fb].
        rewrite !day_folder_fill by exact P. now apply fills_lt. }
      assert (KV : forall c, In c (kept_text v) -> valid_character c = true) by (intros c; apply kept_chars).
      exists (map (value_kept t F (kept_text v) days) news), (value_kept t F (kept_text v) days (concat news)).
      split; [|split; [apply value_concat|]].
      - clear - FF HN DT P FN KV A4 T C Hd Hl' Va. induction FF as [|x bl xs news S FF IH]; [constructor|]. cbn [map]. constructor.
        + apply (left_value t F (kept_text v) DT P FN M A4 T KV days (y, m, d) (y', m', d') x bl C Hd Hl' Va); [|exact S].
          intros r at_ Ha. apply (HN x r at_); [left; reflexivity|exact Ha].
        + apply IH. intros x' r at_ Hx. apply HN. right. exact Hx.
      - assert (EK : forall bl, flat_map (fun date => flat_map (fun x => stored_for (id_of (day_folder t date) (value_key F x)) bl) [kept_text v]) days
                              = value_kept t F (kept_text v) days bl).
        { intros bl. apply flat_map_same. intros date _. cbn [flat_map]. apply app_nil_r. }
        rewrite <- EK. intros columns filters cf pf HA hash loads n. rewrite E. destruct RW as (rows & R1 & R2 & R3 & R4).
        apply (field_rowed parse unzstd other read_blob fits image M t F columns filters cf pf store A1 A2 A3 P FN
                 days [kept_text v] (Some (F, op, v)) (concat news) w hash loads n rows R1 R2 R3 R4 CL RL).
        + intros b Hb Nb. destruct (spells_blobs M xs news b FF Hb Nb) as (x & r & at_ & Hx & Ha & Ht).
          destruct (HN x r at_ Hx Ha) as [Ca _]. destruct (field_targets t F P FN M A4 T r at_) as (vs & _ & _ & Et).
          rewrite Et in Ht. apply in_map_iff in Ht as (u & <- & Hu). exists at_, (kept_text (m_show M u)), r.
          split; [exact Ca|]. split; [intros c; apply kept_chars|reflexivity].
        + intros date Hdt. split; [now apply HV|]. now apply HF, HI.
        + apply (sorted_map _ day_lt); [|now apply consecutive_sorted]. intros a b Ha Hb. now apply HO.
        + intros a b Ha Hb. now apply HO.
        + intros x [<-|[]]. split; [exact KV|exact HB].
        + repeat constructor.
        + intros p Hp HBL. apply in_map_iff in Hp as (date & Ep & Hdate). destruct (HF date (HI date Hdate)) as [PC _]. rewrite Ep in PC.
          destruct (cycle_value p F PC (name_chars F FN) (store p) op v Hop) as (out & EO & O).
          * apply FN.
          * intros b Hb. destruct (HBL b Hb) as (x & file & Hv & _). eauto.
          * exists out. split; [exact EO|]. intros b. rewrite O. split.
            -- intros [Hb (file & Hv)]. split; [exact Hb|]. exists (kept_text v), file. split; [left; reflexivity|exact Hv].
            -- intros [Hb (x & file & [<-|[]] & Hv)]. split; [exact Hb|]. exists file. exact Hv.
        + exact HA.
    Qed.
  End Read.

  (** in the storage of the adapters *)
  Context (k : kind) (s0 : stored).
  Notation part := (partition_appended M (flat_map history_of xs)).
  Lemma failing_parts_fine id : part id -> exists b fs, folder (b :: fs) /\ relative id /\ components_of id = b :: fs /\
    forall x, blob_name (s_filename (m_writer M id)) (s_node (m_base M)) x
              = join $"/" (b :: fs) ++ $"/" ++ blob_file (s_format (m_base M)) (m_ext M) (s_node (m_base M)) x.
  Proof.
    destruct HM as (_ & _ & PE & SM & _). intros (r & at_ & Ha & Hi).
    apply (FieldStore.partitions_field t F P FN M SM T PE [SAppend r at_]). exists r, at_. split; [left; reflexivity|exact Hi].
  Qed.
  Notation fit := (FailingStore.fit_failing parse unzstd other fits image M HM).
  Lemma value_spells_storable : exists s1, stored_as k M part (puts w) s0 s1.
  Proof.
    pose proof HM as (A1 & A2 & A3 & A4 & A5).
    destruct (spells_rowed M A5 _ _ _ RUN) as (news & C & FF). apply rowed_new in C as (rows & R1 & R2 & R3 & R4).
    apply (StreamStore.stored_exists k M _ fit failing_parts_fine).
    rewrite R1. apply Forall_forall. intros e He. apply in_map_iff in He as (x & <- & Hx). rewrite Forall_forall in R4.
    destruct (R4 x Hx) as (_ & _ & Nx). destruct x as [[n [id g]] data]. cbn [fst snd] in *. exists id, (s_clock (m_base M) n). split; [|reflexivity].
    destruct (spells_blobs M xs news (id, g) FF) as (x & r & at_ & Hx' & Ha & Ht).
    - rewrite R2. apply in_map_iff. eexists; split; [|exact Hx]. reflexivity.
    - exact Nx.
    - exists r, at_. split; [|exact Ht]. apply in_flat_map. exists x. auto.
  Qed.

  Hypothesis CL : good_clock (m_base M) (attempts w).
  Hypothesis P0 : Verif.Spec.Adapters.proper k s0.
  Lemma value_spells_stored op v now rnd y m d hh mm ss y' m' d' hh' mm' ss' s1 :
    let start := of_fields y m d hh mm ss in let stop := of_fields y' m' d' hh' mm' ss' in
    In op [$"="; $"=="] -> contains $"BACKOUT" (kept_text v) = false ->
    valid_date y m d -> valid_time hh mm ss -> valid_date y' m' d' -> valid_time hh' mm' ss' -> 1000 <= y -> y' <= 9999 -> start <= stop ->
    (forall date, within (y, m, d) (y', m', d') date ->
       clean_folder (day_folder t date) /\ listing k rnd (range_hours now start stop) (day_folder t date) s0 = []) ->
    stored_as k M part (puts w) s0 s1 ->
    exists kept stored, Forall2 (wanted_kept M (has_text M F (kept_text v)) (within_days (y, m, d) (y', m', d'))) xs kept /\ Permutation stored (concat kept) /\
    (forall columns filters cf pf, (forall r, In r stored -> fits r /\ applies columns filters cf pf (image r)) ->
     forall hash loads n, records_read (read_asked parse unzstd other columns filters hash loads k now rnd t (Some (F, op, v)) start stop n s1)
                          = found stored n (filter pf (map cf (map image stored)))).
  Proof.
    intros start stop Hop HB V1 T1 V2 T2 Y1 Y2 LE HF HS.
    pose proof (StreamStore.stored_facts k M _ fit failing_parts_fine (puts w) s0 s1 HS P0) as (_ & _ & _ & RL & _).
    destruct (value_spells_read CL op v Hop HB now rnd y m d hh mm ss y' m' d' hh' mm' ss' V1 T1 V2 T2 Y1 Y2 LE (fun name => get_blob_bytes k name s1)
      (fun p => dedup str_eqb (listing k rnd (range_hours now start stop) p s1)) RL) as (kept & stored & FF & Q & G).
    - intros date W. destruct (HF date W) as [Cc L]. split; [exact Cc|]. revert L. rewrite (day_folder_fill t P date).
      pose proof (join_split "/"%char (fill t (midnight date))) as J. change ["/"%char] with $"/" in J. rewrite <- J. clear J. intros L.
      apply (StreamStore.stored_listing k M part fit failing_parts_fine (puts w) s0 s1); auto.
      + apply (StreamStore.fill_is_folder t P).
      + intros _. now apply System.some_hours.
    - exists kept, stored. split; [exact FF|]. split; [exact Q|]. intros columns filters cf pf HA hash loads n.
      assert (EO : records_read (read_asked parse unzstd other columns filters hash loads k now rnd t (Some (F, op, v)) start stop n s1)
        = records_read (read_records hash loads
          (fun _ => list_range (Some (F, op, v)) (fun p => dedup str_eqb (listing k rnd (range_hours now start stop) p s1)) now rnd (template_text t ++ $"/") start stop) 0
          (blob_records parse unzstd other (fun name => get_blob_bytes k name s1) columns filters None) NoCursor n)).
      { unfold read_asked. apply FieldStore.asked_repeats. intros p x. now rewrite (dedup_In str_eqb str_eqb_eq). }
      rewrite EO. apply StreamStore.gives_found, (G columns filters cf pf HA).
  Qed.
End Stated.
