(** Proofs: stream writers one after the other, with storage that fails now and then. *)
From Coq Require Import Lia Sorted Permutation.
From Verif.Base Require Import Py PyFacts Value.
From Verif.Model Require Import Storage Paths Dates Frames ReadRange Cursor Writers Stream Adapters Reader Collector.
From Verif.Spec Require Import Paths Dates Writers Stream Reader StreamRead Collector FailingSessions.
From Verif.Spec Require Adapters.
From Verif.Spec Require Import System StreamStore FailingStore.
From Verif.Proofs Require Import Paths Dates StreamPaths StreamPool Stream StreamRead StreamRange Collector FailingRead.
From Verif.Proofs Require System StreamStore FailingStore.
Local Open Scope Z_scope.

(** ** Blobs of ascending attempts, one run after the other *)
Lemma sorted_join l1 l2 k : StronglySorted Peano.lt l1 -> StronglySorted Peano.lt l2 ->
  (forall x, In x l1 -> (x < k)%nat) -> (forall x, In x l2 -> (k <= x)%nat) -> StronglySorted Peano.lt (l1 ++ l2).
Proof.
  intros S1 S2 H1 H2. induction S1 as [|a l S IH F]; [exact S2|]. cbn [app]. constructor.
  - apply IH. intros x Hx. apply H1. right. exact Hx.
  - apply Forall_app. split; [exact F|]. apply Forall_forall. intros x Hx. specialize (H1 a (or_introl eq_refl)). specialize (H2 x Hx). lia.
Qed.
Lemma sorted_firstn {A} (Q : A -> A -> Prop) n : forall l, StronglySorted Q l -> StronglySorted Q (firstn n l).
Proof.
  induction n as [|n IH]; intros l S; [constructor|]. destruct S as [|a l S F]; [constructor|]. cbn [firstn]. constructor; [auto|].
  rewrite Forall_forall in *. intros x Hx. apply F. now apply In_firstn in Hx.
Qed.
Section Rows.
  Context {R V : Type} (M : streaming R V).
  Lemma from_same w : rowed_from M w [] w.
  Proof. exists []. cbn. rewrite app_nil_r. repeat split; constructor. Qed.
  Lemma from_trans a bl b bl' c : rowed_from M a bl b -> rowed_from M b bl' c -> rowed_from M a (bl ++ bl') c.
  Proof.
    intros (r1 & P1 & B1 & S1 & A1 & F1) (r2 & P2 & B2 & S2 & A2 & F2). exists (r1 ++ r2).
    split; [rewrite map_app, P2, P1, <- app_assoc; reflexivity|]. split; [now rewrite map_app, B1, B2|].
    rewrite Forall_forall in F1, F2. split; [|split; [lia|]].
    - rewrite map_app. apply sorted_join with (attempts b); auto.
      + intros x Hx. apply in_map_iff in Hx as (y & <- & Hy). apply F1 in Hy. tauto.
      + intros x Hx. apply in_map_iff in Hx as (y & <- & Hy). apply F2 in Hy. tauto.
    - apply Forall_forall. intros x Hx. apply in_app_iff in Hx as [Hx|Hx]; [apply F1 in Hx|apply F2 in Hx];
        destruct Hx as (X1 & X2 & X3); (split; [lia|]); (split; [lia|exact X3]).
  Qed.
  Lemma from_cut a bl b n : rowed_from M a bl b -> (length (puts a) <= n)%nat ->
    exists m, rowed_from M a (firstn m bl) (mkWorld (attempts b) (firstn n (puts b))).
  Proof.
    intros (rows & P & B & S & A & F) L. exists (n - length (puts a))%nat. exists (firstn (n - length (puts a)) rows).
    cbn [puts attempts]. split; [|split; [|split; [|split; [exact A|]]]].
    - rewrite P, firstn_app, firstn_all2 by lia. f_equal. now rewrite firstn_map.
    - now rewrite B, firstn_map.
    - rewrite <- firstn_map. now apply sorted_firstn.
    - rewrite Forall_forall in *. intros x Hx. apply F. now apply In_firstn in Hx.
  Qed.
  Lemma stored_for_firstn id m (bl : list (str * list R)) : exists rest, stored_for id (firstn m bl) ++ rest = stored_for id bl.
  Proof. exists (stored_for id (skipn m bl)). rewrite <- stored_for_app. now rewrite firstn_skipn. Qed.
End Rows.

Section Spells.
  Context {V : Type} (M : streaming value V).
  Hypothesis Clean : clean_failures (m_base M).
  (** what a writer left in a folder *)
  Definition spell_left (x : spell) (bl : list (str * list value)) : Prop := forall id,
    let returned := accepted_for M (history_of x) (answers_of x) id in
    let raised := refused_for M (history_of x) (answers_of x) id in
    match x with
    | Complete _ _ _ => exists some rest, Permutation (stored_for id bl) (returned ++ some) /\ Permutation (some ++ rest) raised
    | Broken _ _ => exists rest, Permutation (stored_for id bl ++ rest) (returned ++ raised)
    end.
  Lemma spells_rowed w xs w' : spells_ran M w xs w' ->
    exists news, rowed_from M w (concat news) w' /\ Forall2 spell_left xs news.
  Proof.
    induction 1 as [w|w k es ns os c xs w' RUN D N _ (news & C & F)|w k es os c n xs w' RUN L _ (news & C & F)].
    - exists []. split; [apply from_same|constructor].
    - destruct (collected_from M Clean w k es ns os c RUN D N) as (bl & C1 & S1). exists (bl :: news).
      split; [cbn [concat]; eapply from_trans; eauto|]. constructor; [exact S1|exact F].
    - destruct (at_most_from M Clean w k es os c RUN) as (bl & C1 & S1).
      destruct (from_cut M _ _ _ n C1 L) as (m & C2). exists (firstn m bl :: news).
      split; [cbn [concat]; eapply from_trans; eauto|]. constructor; [|exact F].
      intros id. cbn [history_of answers_of]. destruct (S1 id) as (rest & P1). destruct (stored_for_firstn id m bl) as (cut & E).
      exists (cut ++ rest). rewrite app_assoc, E. exact P1.
  Qed.
  Lemma left_In x bl b : spell_left x bl -> In b bl -> snd b <> [] ->
    exists r at_, In (Event (SAppend r at_)) (history_of x) /\ In (fst b) (targets M r at_).
  Proof.
    intros S Hb Nb. destruct (snd b) as [|r g] eqn:Eg; [congruence|].
    assert (Hr : In r (stored_for (fst b) bl)) by (apply in_stored_for; [exact Hb|rewrite Eg; left; reflexivity]).
    assert (Hm : In r (accepted_for M (history_of x) (answers_of x) (fst b) ++ refused_for M (history_of x) (answers_of x) (fst b))).
    { specialize (S (fst b)). destruct x as [es ns os|es os].
      - destruct S as (some & rest & P1 & P2). eapply Permutation_in in Hr; [|exact P1]. apply in_app_iff in Hr as [Hr|Hr]; apply in_app_iff; [auto|].
        right. eapply Permutation_in; [exact P2|]. apply in_app_iff. auto.
      - destruct S as (rest & P1). eapply Permutation_in; [exact P1|]. apply in_app_iff. auto. }
    apply in_app_iff in Hm as [Hm|Hm]; destruct (meant_In M _ _ _ _ r Hm) as (at_ & Ha & Ht); exists r, at_; auto.
  Qed.
  Lemma spells_blobs xs news b : Forall2 spell_left xs news -> In b (concat news) -> snd b <> [] ->
    exists x r at_, In x xs /\ In (Event (SAppend r at_)) (history_of x) /\ In (fst b) (targets M r at_).
  Proof.
    induction 1 as [|x bl xs news S F IH]; [intros []|]. cbn [concat]. intros Hb Nb. apply in_app_iff in Hb as [Hb|Hb].
    - destruct (left_In x bl b S Hb Nb) as (r & at_ & Ha & Ht). exists x, r, at_. split; [left; reflexivity|auto].
    - destruct (IH Hb Nb) as (x' & r & at_ & Hx & Ha). exists x', r, at_. split; [right; exact Hx|exact Ha].
  Qed.

  Section Kept.
    Context (t : list seg) (hourly : bool).
    Hypothesis DT : daily_template t.
    Hypothesis P : proper_template (map Date t).
    Hypothesis SM : sets_ok M.
    Hypothesis T : m_template M = template_text (t ++ sub hourly).
    Context (days : list (Z * Z * Z)) (a z : Z * Z * Z).
    Hypothesis C : consecutive days.
    Hypothesis Hd : hd_error days = Some a.
    Hypothesis Hl : last days z = z.
    Hypothesis Va : valid_day a.
    Notation folders := (ids (map (day_folder t) days) (keys_of hourly)).
    Definition kept_in (bl : list (str * list value)) : list value := flat_map (fun id => stored_for id bl) folders.
    Lemma left_kept x bl : (forall r at_, In (Event (SAppend r at_)) (history_of x) -> clock_time at_) ->
      spell_left x bl -> spell_kept M (within_days a z) x (kept_in bl).
    Proof.
      intros HC S. unfold spell_left in S. unfold spell_kept, kept_in. destruct x as [es ns os|es os].
      - cbn [history_of answers_of] in *.
        destruct (flat_all (fun id => stored_for id bl) _ _ folders (fun id _ => S id)) as (some & rest & Q1 & Q2).
        unfold accepted_for in Q1. unfold refused_for in Q2.
        rewrite (all_meant t hourly DT P M SM T _ days _ _ _ os C Hd Hl Va HC) in Q1.
        rewrite (all_meant t hourly DT P M SM T _ days _ _ _ os C Hd Hl Va HC) in Q2.
        exists some, rest. split; [exact Q1|exact Q2].
      - cbn [history_of answers_of] in *.
        destruct (flat_some (fun id => stored_for id bl) _ _ folders (fun id _ => S id)) as (rest & Q).
        unfold accepted_for, refused_for in Q. rewrite !(all_meant t hourly DT P M SM T _ days _ _ es os C Hd Hl Va HC) in Q.
        exists rest. exact Q.
    Qed.
    Lemma kept_concat news : Permutation (kept_in (concat news)) (concat (map kept_in news)).
    Proof.
      unfold kept_in. induction news as [|bl news IH]; cbn [concat map].
      - generalize folders. intros l. induction l as [|id l IH]; [reflexivity|exact IH].
      - rewrite <- IH. clear IH. generalize folders. intros l. induction l as [|id l IH]; [reflexivity|]. cbn [flat_map].
        rewrite IH, stored_for_app, <- !app_assoc. apply Permutation_app_head. rewrite !app_assoc. apply Permutation_app_tail, Permutation_app_comm.
    Qed.
  End Kept.
End Spells.

Section Stated.
  Context (parse : str -> result value) (unzstd : str -> result str) (other : str -> str -> generator value).
  Context (fits : value -> Prop) (image : value -> value).
  Context {V : Type} (M : streaming value V).
  Hypothesis HM : failing_settings parse unzstd other fits image M.
  Context (xs : list spell) (w : world).
  Hypothesis RUN : spells_ran M (mkWorld 0 []) xs w.
  Hypothesis HC : forall x r at_, In x xs -> In (Event (SAppend r at_)) (history_of x) -> clock_time at_.
  Hypothesis CL : good_clock (m_base M) (attempts w).
  Context (t : list seg).
  Hypothesis DT : daily_template t.
  Hypothesis CH : chronological t.
  Hypothesis P : proper_template (map Date t).
  Hypothesis T : m_template M = template_text t \/ m_template M = template_text (t ++ hour_folders).
  Context (now : datetime) (rnd : str) (y m d hh mm ss y' m' d' hh' mm' ss' : Z).
  Notation start := (of_fields y m d hh mm ss).
  Notation stop := (of_fields y' m' d' hh' mm' ss').
  Notation asked := (within_days (y, m, d) (y', m', d')).
  Hypothesis V1 : valid_date y m d.
  Hypothesis T1 : valid_time hh mm ss.
  Hypothesis V2 : valid_date y' m' d'.
  Hypothesis T2 : valid_time hh' mm' ss'.
  Hypothesis Y1 : 1000 <= y.
  Hypothesis Y2 : y' <= 9999.
  Hypothesis LE : start <= stop.

  Lemma spells_read read_blob store : reads_log read_blob (puts w) ->
    (forall date, within (y, m, d) (y', m', d') date ->
       clean_folder (day_folder t date) /\ lists_folder store (puts w) (day_folder t date)) ->
    exists kept stored, Forall2 (spell_kept M asked) xs kept /\ Permutation stored (concat kept) /\
    (forall columns filters cf pf, (forall r, In r stored -> fits r /\ applies columns filters cf pf (image r)) ->
     forall hash loads n, gives stored (firstn n (filter pf (map cf (map image stored)))) (read_records hash loads
       (fun _ => list_range None store now rnd (template_text t ++ $"/") start stop)
       0 (blob_records parse unzstd other read_blob columns filters None) NoCursor n)).
  Proof.
    intros RL HF. pose proof HM as (A1 & A2 & A3 & A4 & A5).
    destruct (FailingStore.either_hourly M t T) as (hourly & T').
    destruct (spells_rowed M A5 _ _ _ RUN) as (news & C & F). apply rowed_new in C.
    destruct (rowed_days parse unzstd other read_blob fits image M w store HM CL RL
                t hourly now rnd y m d hh mm ss y' m' d' hh' mm' ss' (concat news) C) as (days & Cd & Hd & Hl & G); auto.
    - intros b Hb Nb. destruct (spells_blobs M xs news b F Hb Nb) as (x & r & at_ & Hx & Ha & Ht). exists r, at_. split; [eapply HC; eauto|exact Ht].
    - exists (map (kept_in t hourly days) news), (kept_in t hourly days (concat news)). split; [|split; [apply kept_concat|exact G]].
      assert (Va : valid_day (y, m, d)) by (apply valid_date_spec; exact V1).
      clear - F HC DT P A4 T' Cd Hd Hl Va. induction F as [|x bl xs news S F IH]; [constructor|]. cbn [map]. constructor.
      + apply (left_kept M t hourly DT P A4 T' days (y, m, d) (y', m', d') Cd Hd Hl Va x bl); [|exact S].
        intros r at_ Ha. apply (HC x r at_); [left; reflexivity|exact Ha].
      + apply IH. intros x' r at_ Hx. apply HC. right. exact Hx.
  Qed.

  (** in the storage of the adapters *)
  Context (k : kind) (s0 : stored).
  Notation part := (partition_appended M (flat_map history_of xs)).
  Lemma spells_storable : exists s1, stored_as k M part (puts w) s0 s1.
  Proof.
    pose proof HM as (A1 & A2 & A3 & A4 & A5). destruct (FailingStore.either_hourly M t T) as (hourly & T').
    destruct (spells_rowed M A5 _ _ _ RUN) as (news & C & F). apply rowed_new in C as (rows & R1 & R2 & R3 & R4).
    apply (StreamStore.stored_exists k M _ (FailingStore.fit_failing parse unzstd other fits image M HM)
             (FailingStore.failing_partitions parse unzstd other fits image M HM t hourly _ P T')).
    rewrite R1. apply Forall_forall. intros e He. apply in_map_iff in He as (x & <- & Hx). rewrite Forall_forall in R4.
    destruct (R4 x Hx) as (_ & _ & Nx). destruct x as [[n [id g]] data]. cbn [fst snd] in *. exists id, (s_clock (m_base M) n). split; [|reflexivity].
    destruct (spells_blobs M xs news (id, g) F) as (x & r & at_ & Hx' & Ha & Ht).
    - rewrite R2. apply in_map_iff. eexists; split; [|exact Hx]. reflexivity.
    - exact Nx.
    - exists r, at_. split; [|exact Ht]. apply in_flat_map. exists x. auto.
  Qed.
  Lemma spells_stored s1 : Adapters.proper k s0 ->
    (forall date, within (y, m, d) (y', m', d') date ->
       clean_folder (day_folder t date) /\ listing k rnd (range_hours now start stop) (day_folder t date) s0 = []) ->
    stored_as k M part (puts w) s0 s1 ->
    exists kept stored, Forall2 (spell_kept M asked) xs kept /\ Permutation stored (concat kept) /\
    (forall columns filters cf pf, (forall r, In r stored -> fits r /\ applies columns filters cf pf (image r)) ->
     forall hash loads n, records_read (read_selected parse unzstd other columns filters hash loads k now rnd t start stop n s1)
                          = found stored n (filter pf (map cf (map image stored)))).
  Proof.
    intros P0 HF HS. destruct (FailingStore.either_hourly M t T) as (hourly & T').
    pose proof (StreamStore.stored_facts k M _ (FailingStore.fit_failing parse unzstd other fits image M HM)
      (FailingStore.failing_partitions parse unzstd other fits image M HM t hourly _ P T') (puts w) s0 s1 HS P0) as (_ & _ & _ & RL & _).
    destruct (spells_read (fun name => get_blob_bytes k name s1)
      (fun p => dedup str_eqb (listing k rnd (range_hours now start stop) p s1)) RL) as (kept & stored & F & Q & G).
    - intros date W. destruct (HF date W) as [Cc L]. split; [exact Cc|]. revert L. rewrite (day_folder_fill t P date).
      pose proof (join_split "/"%char (fill t (midnight date))) as J. change ["/"%char] with $"/" in J. rewrite <- J. clear J. intros L.
      apply (StreamStore.stored_listing k M part (FailingStore.fit_failing parse unzstd other fits image M HM)
        (FailingStore.failing_partitions parse unzstd other fits image M HM t hourly _ P T') (puts w) s0 s1); auto.
      + apply (StreamStore.fill_is_folder t P).
      + intros _. now apply System.some_hours.
    - exists kept, stored. split; [exact F|]. split; [exact Q|]. intros columns filters cf pf HA hash loads n.
      rewrite (FailingStore.selected_once parse unzstd other columns filters k t now rnd). apply StreamStore.gives_found, (G columns filters cf pf HA).
  Qed.
End Stated.
