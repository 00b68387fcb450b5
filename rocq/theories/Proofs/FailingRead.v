(** Proofs: reading what a stream writer stored although its storage failed now and then. *)
From Coq Require Import Sorted Permutation.
From Verif.Base Require Import Py PyFacts Value ValueFacts.
From Verif.Model Require Import Paths Dates Frames ReadRange Cursor Storage Writers Stream Reader Collector.
From Verif.Spec Require Import Paths Dates Frames Cursor Json Writers Stream Reader StreamRead Collector.
From Verif.Proofs Require Import Paths Dates Writers Json Cursor Batch Reader RoundTrip Stream StreamPaths StreamPool StreamRead StreamRange.
From Verif.Proofs Require Frames ReadRange Collector.
Local Open Scope Z_scope.

(** ** Lists *)
Lemma flat_some {A B} (f g h : A -> list B) l : (forall x, In x l -> exists rest, Permutation (f x ++ rest) (g x ++ h x)) ->
  exists rest, Permutation (flat_map f l ++ rest) (flat_map g l ++ flat_map h l).
Proof.
  induction l as [|x l IH]; intros H; [exists []; reflexivity|].
  destruct (H x (or_introl eq_refl)) as (r1 & P1). destruct IH as (r2 & P2); [intros; apply H; right; auto|].
  exists (r1 ++ r2). cbn [flat_map].
  transitivity ((f x ++ r1) ++ (flat_map f l ++ r2)).
  - rewrite <- !app_assoc. apply Permutation_app_head. rewrite !app_assoc. apply Permutation_app_tail, Permutation_app_comm.
  - rewrite P1, P2, <- !app_assoc. apply Permutation_app_head. rewrite !app_assoc. apply Permutation_app_tail, Permutation_app_comm.
Qed.
Lemma flat_all {A B} (f g h : A -> list B) l :
  (forall x, In x l -> exists some rest, Permutation (f x) (g x ++ some) /\ Permutation (some ++ rest) (h x)) ->
  exists some rest, Permutation (flat_map f l) (flat_map g l ++ some) /\ Permutation (some ++ rest) (flat_map h l).
Proof.
  induction l as [|x l IH]; intros H; [exists [], []; split; reflexivity|].
  destruct (H x (or_introl eq_refl)) as (s1 & r1 & P1 & Q1). destruct IH as (s2 & r2 & P2 & Q2); [intros; apply H; right; auto|].
  exists (s1 ++ s2), (r1 ++ r2). cbn [flat_map]. split.
  - rewrite P1, P2, <- !app_assoc. apply Permutation_app_head. rewrite !app_assoc. apply Permutation_app_tail, Permutation_app_comm.
  - rewrite <- Q1, <- Q2, <- !app_assoc. apply Permutation_app_head. rewrite !app_assoc. apply Permutation_app_tail, Permutation_app_comm.
Qed.
Lemma classes_together {A} (cs : list (A -> bool)) (L : list A) :
  StronglySorted (fun c c' => forall a, In a L -> c a = true -> c' a = true -> False) cs ->
  Permutation (flat_map (fun c : A -> bool => filter c L) cs) (filter (fun x => existsb (fun c : A -> bool => c x) cs) L).
Proof.
  induction 1 as [|c cs S IH F].
  - cbn. induction L; cbn; auto. 
  - cbn [flat_map existsb]. rewrite IH. clear IH S. induction L as [|x L IH]; [reflexivity|]. cbn [filter].
    rewrite Forall_forall in F.
    assert (F' : Forall (fun c' => forall a, In a L -> c a = true -> c' a = true -> False) cs).
    { apply Forall_forall. intros c' Hc a Ha. apply (F c' Hc). right. exact Ha. }
    specialize (IH F'). destruct (existsb (fun c0 => c0 x) cs) eqn:E.
    + apply existsb_exists in E as (c' & Hc' & E).
      assert (Nx : c x = false) by (apply not_true_iff_false; intros C; apply (F c' Hc' x); [left; reflexivity|exact C|exact E]).
      rewrite Nx. cbn [orb]. rewrite <- IH. symmetry. apply Permutation_middle.
    + rewrite orb_false_r. destruct (c x); cbn [app]; [constructor|]; exact IH.
Qed.

(** ** Appends by their moments *)
Section Pairs.
  Context {R V : Type} (M : streaming R V) (f : result nat -> bool).
  Fixpoint appended_pairs (es : list (cevent (R:=R))) (os : list (result nat)) : list (R * moment) :=
    match es, os with
    | Event (SAppend r at_) :: es', o :: os' => (if f o && m_valid M r then [(r, at_)] else []) ++ appended_pairs es' os'
    | _ :: es', _ :: os' => appended_pairs es' os'
    | _, _ => []
    end.
  Lemma appended_on_pairs asked es : forall os,
    appended_on M f asked es os = map fst (filter (fun x => asked (snd x)) (appended_pairs es os)).
  Proof.
    induction es as [|e es IH]; intros [|o os]; try (destruct e as [[]|]; reflexivity); try reflexivity.
    destruct e as [[r at_| |]|n]; cbn [appended_on appended_pairs]; auto. rewrite IH, filter_app, map_app. f_equal.
    destruct (f o), (m_valid M r); cbn [andb filter snd]; try reflexivity. destruct (asked at_); reflexivity.
  Qed.
  Lemma appended_moment es : forall os x, In x (appended_pairs es os) -> In (Event (SAppend (fst x) (snd x))) es.
  Proof.
    induction es as [|e es IH]; intros [|o os] x H; try (destruct e as [[]|]; destruct H); try destruct H.
    destruct e as [[r at_| |]|n]; cbn [appended_pairs] in H; try (right; eapply IH; eassumption).
    apply in_app_iff in H as [H|H]; [|right; eapply IH; eassumption].
    destruct (f o && m_valid M r); [|destruct H]. destruct H as [<-|[]]. left. reflexivity.
  Qed.
  Lemma meant_In es : forall os id r, In r (meant_for M f es os id) -> exists at_, In (Event (SAppend r at_)) es /\ In id (targets M r at_).
  Proof.
    induction es as [|e es IH]; intros [|o os] id r H; try (destruct e as [[]|]; destruct H); try destruct H.
    destruct e as [[r' at_| |]|n]; cbn [meant_for] in H;
      try (destruct (IH _ _ _ H) as (a & Ha & Hi); exists a; split; [right; exact Ha|exact Hi]).
    apply in_app_iff in H as [H|H]; [|destruct (IH _ _ _ H) as (a & Ha & Hi); exists a; split; [right; exact Ha|exact Hi]].
    destruct (f o); [|destruct H]. apply in_map_iff in H as (i & -> & H). apply filter_In in H as [H E]. apply str_eqb_eq in E. subst i.
    exists at_. split; [left; reflexivity|exact H].
  Qed.
  Lemma appended_together hourly days a z es os :
    consecutive days -> hd_error days = Some a -> last days z = z -> valid_day a ->
    (forall r at_, In (Event (SAppend r at_)) es -> clock_time at_) ->
    Permutation
      (flat_map (fun date => flat_map (fun c => appended_on M f (fun at_ => on_day date at_ && c at_) es os) (conds hourly)) days)
      (appended_on M f (within_days a z) es os).
  Proof.
    intros C Ha Hz Va HC.
    assert (E : flat_map (fun date => flat_map (fun c => appended_on M f (fun at_ => on_day date at_ && c at_) es os) (conds hourly)) days
      = flat_map (fun c => appended_on M f c es os) (parts hourly days)).
    { unfold parts. rewrite flat_map_flat. apply flat_map_same. intros date _. now rewrite flat_map_map. }
    rewrite E. clear E.
    rewrite (flat_map_same _ (fun c => map fst (filter (fun x => c (snd x)) (appended_pairs es os)))) by (intros; apply appended_on_pairs).
    rewrite appended_on_pairs, <- map_flat_map. apply Permutation_map.
    assert (HM : forall x, In x (appended_pairs es os) -> clock_time (snd x)) by (intros x Hx; eapply HC, appended_moment, Hx).
    pose proof (classes_together (map (fun (c : moment -> bool) x => c (snd x)) (parts hourly days)) (appended_pairs es os)) as Q.
    rewrite flat_map_map in Q. rewrite Q.
    - erewrite filter_ext_in; [reflexivity|]. intros x Hx. cbv beta. rewrite existsb_map. apply (parts_within hourly days a z (snd x)); auto.
    - apply (sorted_map _ (fun c c' : moment -> bool => forall a b, clock_time a -> clock_time b -> c a = true -> c' b = true -> before a b)).
      + intros c c' _ _ H x Hx H1 H2. apply (before_irrefl (snd x)). apply H; auto.
      + apply parts_sorted; [now apply consecutive_sorted|]. intros x Hx. eapply consecutive_valid; eauto.
  Qed.
End Pairs.

Section Days.
  Context (t : list seg) (hourly : bool).
  Notation u := (t ++ sub hourly).
  Hypothesis DT : daily_template t.
  Hypothesis P : proper_template (map Date t).
  Context {R V : Type} (M : streaming R V).
  Hypothesis SM : sets_ok M.
  Hypothesis T : m_template M = template_text u.
  Lemma meant_appended f date k c : valid_day date -> In (k, c) (combine (keys_of hourly) (conds hourly)) ->
    forall es os, (forall r at_, In (Event (SAppend r at_)) es -> clock_time at_) ->
    meant_for M f es os (id_of (day_folder t date) k) = appended_on M f (fun at_ => on_day date at_ && c at_) es os.
  Proof.
    intros Vd Hk. assert (Hk' : In k (keys_of hourly)) by (apply in_combine_l in Hk; exact Hk).
    pose proof (proper_sub t hourly P) as PU.
    destruct (part_fill t hourly DT P date k Hk') as (at' & Ef).
    induction es as [|e es IH]; intros os HC.
    - destruct os; reflexivity.
    - destruct os as [|o os]; [destruct e as [[]|]; reflexivity|].
      assert (HC' : forall r at_, In (Event (SAppend r at_)) es -> clock_time at_) by (intros r a H; apply (HC r a); right; exact H).
      destruct e as [[r at_| |]|n]; cbn [meant_for appended_on]; auto.
      rewrite IH by exact HC'. f_equal. destruct (f o); [|reflexivity]. rewrite (targets_dates u PU M SM T). cbn [filter]. unfold suffix_of.
      destruct (m_valid M r); cbn [andb].
      + rewrite app_nil_r, (same_part t hourly DT P date at_ k c Vd (HC r at_ (or_introl eq_refl)) Hk). destruct (on_day date at_ && c at_); reflexivity.
      + replace (str_eqb _ _) with false; [reflexivity|]. symmetry. apply str_eqb_neq. rewrite Ef. intros E.
        pose proof (fill_solid u PU at') as S. rewrite E in S.
        destruct (S []) as (a & [] & _). change $"/BACKOUT/" with ($"/" ++ $"BACKOUT" ++ $"/"). change $"/" with ["/"%char].
        rewrite split_app_sep. apply in_app_iff. right. right. left. reflexivity.
  Qed.
  Lemma all_meant f days a z es os :
    consecutive days -> hd_error days = Some a -> last days z = z -> valid_day a ->
    (forall r at_, In (Event (SAppend r at_)) es -> clock_time at_) ->
    Permutation (flat_map (fun id => meant_for M f es os id) (ids (map (day_folder t) days) (keys_of hourly)))
                (appended_on M f (within_days a z) es os).
  Proof.
    intros C Ha Hz Va HC. rewrite <- (appended_together M f hourly days a z es os C Ha Hz Va HC).
    unfold ids. rewrite flat_map_flat, flat_map_map.
    erewrite (flat_map_same _ _ days); [reflexivity|]. intros date Hd. rewrite flat_map_map. apply flat_parts.
    intros k c Hk. apply meant_appended; auto. eapply consecutive_valid; eauto.
  Qed.
End Days.

(** ** Blobs of ascending attempts are read day by day *)
Section Rows.
  Context (parse : str -> result value) (unzstd : str -> result str)
          (other : str -> str -> generator value) (read_blob : str -> result str).
  Context (fits : value -> Prop) (image : value -> value).
  Context {V : Type} (M : streaming value V).
  Context (w : world) (store : str -> list str).
  Hypothesis HM : failing_settings parse unzstd other fits image M.
  Hypothesis CL : good_clock (m_base M) (attempts w).
  Hypothesis RL : reads_log read_blob (puts w).

  Lemma rowed_days t hourly now rnd y m d hh mm ss y' m' d' hh' mm' ss' blobs :
    Collector.rowed M blobs w ->
    (forall b, In b blobs -> snd b <> [] -> exists r at_, clock_time at_ /\ In (fst b) (targets M r at_)) ->
    daily_template t -> chronological t -> proper_template (map Date t) -> m_template M = template_text (t ++ sub hourly) ->
    valid_date y m d -> valid_time hh mm ss -> valid_date y' m' d' -> valid_time hh' mm' ss' -> 1000 <= y -> y' <= 9999 ->
    of_fields y m d hh mm ss <= of_fields y' m' d' hh' mm' ss' ->
    (forall date, within (y, m, d) (y', m', d') date ->
       clean_folder (day_folder t date) /\ lists_folder store (puts w) (day_folder t date)) ->
    exists days, consecutive days /\ hd_error days = Some (y, m, d) /\ last days (y', m', d') = (y', m', d') /\
    let wanted := flat_map (fun id => stored_for id blobs) (ids (map (day_folder t) days) (keys_of hourly)) in
    forall columns filters cf pf, (forall r, In r wanted -> fits r /\ applies columns filters cf pf (image r)) ->
    forall hash loads n, gives wanted (firstn n (filter pf (map cf (map image wanted)))) (read_records hash loads
      (fun _ => list_range None store now rnd (template_text t ++ $"/") (of_fields y m d hh mm ss) (of_fields y' m' d' hh' mm' ss'))
      0 (blob_records parse unzstd other read_blob columns filters None) NoCursor n).
  Proof.
    intros RW SP DT CH P T V1 T1 V2 T2 Y1 Y2 L HF.
    destruct (ReadRange.range_each_day_once None store now rnd t y m d hh mm ss y' m' d' hh' mm' ss' DT V1 T1 V2 T2 L)
      as (days & C & Hd & Hl & _ & E).
    assert (Hl' : last days (y', m', d') = (y', m', d')).
    { rewrite <- Hl at 2. apply last_any. intros ->. discriminate. }
    exists days. split; [exact C|]. split; [exact Hd|]. split; [exact Hl'|]. intros wanted columns filters cf pf HA hash loads n.
    apply valid_date_spec in V1.
    pose proof (consecutive_valid days C _ Hd V1) as HV.
    assert (HI : forall x, In x days -> within (y, m, d) (y', m', d') x).
    { intros x Hx. split; [specialize (HV x Hx); destruct x as [[? ?] ?]; now apply valid_date_spec|].
      apply (consecutive_all days C (y, m, d) (y', m', d') Hd V1 x (HV x Hx)) in Hx. rewrite Hl' in Hx.
      now apply andb_prop in Hx. }
    assert (HO : forall a b, In a days -> In b days -> length (day_folder t a) = length (day_folder t b) /\
                   (day_lt a b -> str_compare (day_folder t a) (day_folder t b) = Lt)).
    { intros a b Ha Hb. apply HI in Ha, Hb. destruct (within_four _ _ _ _ _ _ a Y1 Y2 Ha) as [Va Fa]. destruct (within_four _ _ _ _ _ _ b Y1 Y2 Hb) as [Vb Fb].
      rewrite !day_folder_fill by exact P. now apply fills_lt. }
    destruct HM as (A1 & A2 & A3 & A4 & A5).
    destruct RW as (rows & R1 & R2 & R3 & R4).
    rewrite E.
    apply (days_rowed parse unzstd other read_blob M t hourly columns filters cf pf fits image A1 A2 A3 DT P T days blobs w store hash loads n rows); auto.
    - intros b Hb Nb. destruct (SP b Hb Nb) as (r & at_ & Ha & Ht).
      pose proof (proper_sub t hourly P) as PU. rewrite (targets_dates _ PU M A4 T) in Ht. destruct Ht as [<-|[]]. exists at_, r. split; [exact Ha|reflexivity].
    - apply (sorted_map _ day_lt); [|now apply consecutive_sorted]. intros a b Ha Hb. now apply HO.
    - intros a b Ha Hb. now apply HO.
  Qed.
End Rows.

Section Read.
  Context (parse : str -> result value) (unzstd : str -> result str)
          (other : str -> str -> generator value) (read_blob : str -> result str).
  Context (fits : value -> Prop) (image : value -> value).
  Context {V : Type} (M : streaming value V).
  Context (columns : value -> result value) (filters : value -> result bool) (cf : value -> value) (pf : value -> bool).
  Notation records := (blob_records parse unzstd other read_blob columns filters None).
  Notation selected l := (filter pf (map cf (map image l))).
  Context (es : list (cevent (R:=value))) (os : list (result nat)) (c : cstate (R:=value)) (store : str -> list str).
  Notation w := (world_of (c_stream c)).
  Hypothesis HM : failing_settings parse unzstd other fits image M.
  Hypothesis HR : failing_ran read_blob M es os c.

  Lemma rowed_range t hourly now rnd y m d hh mm ss y' m' d' hh' mm' ss' blobs :
    Collector.rowed M blobs w ->
    (forall id, exists rest, Permutation (stored_for id blobs ++ rest) (accepted_for M es os id ++ refused_for M es os id)) ->
    daily_template t -> chronological t -> proper_template (map Date t) -> m_template M = template_text (t ++ sub hourly) ->
    valid_date y m d -> valid_time hh mm ss -> valid_date y' m' d' -> valid_time hh' mm' ss' -> 1000 <= y -> y' <= 9999 ->
    of_fields y m d hh mm ss <= of_fields y' m' d' hh' mm' ss' ->
    (forall date, within (y, m, d) (y', m', d') date ->
       clean_folder (day_folder t date) /\ lists_folder store (puts w) (day_folder t date)) ->
    (forall r, In r (returned_on M (within_days (y, m, d) (y', m', d')) es os ++ raised_on M (within_days (y, m, d) (y', m', d')) es os) ->
       fits r /\ applies columns filters cf pf (image r)) ->
    exists days, consecutive days /\ hd_error days = Some (y, m, d) /\ last days (y', m', d') = (y', m', d') /\
    let wanted := flat_map (fun id => stored_for id blobs) (ids (map (day_folder t) days) (keys_of hourly)) in
    forall hash loads n, gives wanted (firstn n (selected wanted)) (read_records hash loads
      (fun _ => list_range None store now rnd (template_text t ++ $"/") (of_fields y m d hh mm ss) (of_fields y' m' d' hh' mm' ss'))
      0 records NoCursor n).
  Proof.
    intros RW SP DT CH P T V1 T1 V2 T2 Y1 Y2 L HF HA. pose proof HM as (A1 & A2 & A3 & A4 & A5). pose proof HR as (B1 & B2 & B3 & B4).
    destruct (rowed_days parse unzstd other read_blob fits image M w store HM B3 B4
                t hourly now rnd y m d hh mm ss y' m' d' hh' mm' ss' blobs RW) as (days & C & Hd & Hl & G); auto.
    - intros b Hb Nb. destruct (snd b) as [|r g] eqn:Eg; [congruence|].
      assert (Hr : In r (stored_for (fst b) blobs)) by (apply in_stored_for; [exact Hb|rewrite Eg; left; reflexivity]).
      destruct (SP (fst b)) as (rest & Pm).
      assert (Hm : In r (accepted_for M es os (fst b) ++ refused_for M es os (fst b))).
      { eapply Permutation_in; [exact Pm|]. apply in_app_iff. auto. }
      apply in_app_iff in Hm as [Hm|Hm]; destruct (meant_In M _ es os _ r Hm) as (at_ & Ha & Ht); exists r, at_; (split; [eapply B2; eauto|exact Ht]).
    - exists days. split; [exact C|]. split; [exact Hd|]. split; [exact Hl|]. apply (G columns filters cf pf). apply valid_date_spec in V1.
      intros r Hr. apply HA.
      destruct (flat_some (fun id => stored_for id blobs) (accepted_for M es os) (refused_for M es os)
                  (ids (map (day_folder t) days) (keys_of hourly)) (fun id _ => SP id)) as (rest & Q).
      unfold accepted_for, refused_for in Q. rewrite !(all_meant t hourly DT P M A4 T _ days _ _ es os C Hd Hl V1 B2) in Q.
      eapply Permutation_in; [exact Q|]. apply in_app_iff. auto.
  Qed.

  Section Range.
    Context (t : list seg) (hourly : bool) (now : datetime) (rnd : str) (y m d hh mm ss y' m' d' hh' mm' ss' : Z).
    Notation asked := (within_days (y, m, d) (y', m', d')).
    Notation reading n hash loads := (read_records hash loads
      (fun _ => list_range None store now rnd (template_text t ++ $"/") (of_fields y m d hh mm ss) (of_fields y' m' d' hh' mm' ss'))
      0 records NoCursor n).
    Hypothesis DT : daily_template t.
    Hypothesis CH : chronological t.
    Hypothesis P : proper_template (map Date t).
    Hypothesis T : m_template M = template_text (t ++ sub hourly).
    Hypothesis V1 : valid_date y m d.
    Hypothesis T1 : valid_time hh mm ss.
    Hypothesis V2 : valid_date y' m' d'.
    Hypothesis T2 : valid_time hh' mm' ss'.
    Hypothesis Y1 : 1000 <= y.
    Hypothesis Y2 : y' <= 9999.
    Hypothesis L : of_fields y m d hh mm ss <= of_fields y' m' d' hh' mm' ss'.
    Hypothesis HF : forall date, within (y, m, d) (y', m', d') date ->
       clean_folder (day_folder t date) /\ lists_folder store (puts w) (day_folder t date).
    Hypothesis HA : forall r, In r (returned_on M asked es os ++ raised_on M asked es os) ->
       fits r /\ applies columns filters cf pf (image r).

    Lemma read_at_most_once : exists stored rest,
      Permutation (stored ++ rest) (returned_on M asked es os ++ raised_on M asked es os) /\
      forall hash loads n, gives stored (firstn n (selected stored)) (reading n hash loads).
    Proof.
      pose proof HM as (_ & _ & _ & A4 & A5). pose proof HR as (B1 & B2 & _).
      destruct (Collector.at_most_rowed M A5 es os c B1) as (blobs & RW & SP).
      destruct (rowed_range t hourly now rnd y m d hh mm ss y' m' d' hh' mm' ss' blobs RW SP DT CH P T V1 T1 V2 T2 Y1 Y2 L HF HA)
        as (days & C & Hd & Hl & G).
      destruct (flat_some (fun id => stored_for id blobs) (accepted_for M es os) (refused_for M es os)
                  (ids (map (day_folder t) days) (keys_of hourly)) (fun id _ => SP id)) as (rest & Q).
      eexists _, rest. split; [|exact G]. unfold accepted_for, refused_for in Q. rewrite Q.
      apply valid_date_spec in V1. rewrite !(all_meant t hourly DT P M A4 T _ days _ _ es os C Hd Hl V1 B2). reflexivity.
    Qed.
    Lemma read_collected es0 ns : es = es0 ++ Event SFinalize :: map Collect ns -> c_dropped c = [] -> destructors_succeed es os ->
      exists stored some rest,
      Permutation stored (returned_on M asked es os ++ some) /\ Permutation (some ++ rest) (raised_on M asked es os) /\
      forall hash loads n, gives stored (firstn n (selected stored)) (reading n hash loads).
    Proof.
      intros Ee D N. pose proof HM as (_ & _ & _ & A4 & A5). pose proof HR as (B1 & B2 & _).
      assert (K : exists blobs, Collector.rowed M blobs w /\ forall id, exists some rest,
                  Permutation (stored_for id blobs) (accepted_for M es os id ++ some) /\ Permutation (some ++ rest) (refused_for M es os id)).
      { rewrite Ee in *. exact (Collector.collected_rowed M A5 es0 ns os c B1 D N). }
      destruct K as (blobs & RW & SP).
      assert (SP' : forall id, exists rest, Permutation (stored_for id blobs ++ rest) (accepted_for M es os id ++ refused_for M es os id)).
      { intros id. destruct (SP id) as (some & rest & P1 & P2). exists rest. rewrite P1, <- P2, <- app_assoc. reflexivity. }
      destruct (rowed_range t hourly now rnd y m d hh mm ss y' m' d' hh' mm' ss' blobs RW SP' DT CH P T V1 T1 V2 T2 Y1 Y2 L HF HA)
        as (days & C & Hd & Hl & G).
      destruct (flat_all (fun id => stored_for id blobs) (accepted_for M es os) (refused_for M es os)
                  (ids (map (day_folder t) days) (keys_of hourly)) (fun id _ => SP id)) as (some & rest & Q1 & Q2).
      unfold accepted_for in Q1. unfold refused_for in Q2.
      apply valid_date_spec in V1. rewrite (all_meant t hourly DT P M A4 T _ days _ _ es os C Hd Hl V1 B2) in Q1.
      rewrite (all_meant t hourly DT P M A4 T _ days _ _ es os C Hd Hl V1 B2) in Q2.
      eexists _, some, rest. split; [exact Q1|]. split; [exact Q2|exact G].
    Qed.
  End Range.
End Read.
