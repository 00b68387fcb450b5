(** Streams in the storage of the adapters. *)
From Coq Require Import Lia Sorted.
From Verif.Base Require Import Py PyFacts Value.
From Verif.Model Require Import Storage Paths Dates Frames ReadRange Cursor Writers Stream Adapters Reader.
From Verif.Spec Require Import Paths Dates Writers Stream Reader StreamRead.
From Verif.Spec Require Adapters.
From Verif.Spec Require Import System StreamStore.
From Verif.Proofs Require Import Paths Adapters AdaptersUse StreamPaths StreamPool Stream StreamRead.
From Verif.Proofs Require RoundTrip System Repeats StreamRange Sessions.
Notation folder := Adapters.folder.
Notation proper := Adapters.proper.
Notation fit_names := Adapters.fit_names.
Notation blob_file := Adapters.blob_file.
Notation holds_at := Adapters.holds.

Section Bridge.
  Context {R V : Type} (k : kind) (M : streaming R V) (partition : str -> Prop).
  Notation node := (s_node (m_base M)).
  Notation f := (s_format (m_base M)).
  Notation ext := (m_ext M).
  Hypothesis Fit : fit_names f ext node.
  Hypothesis HI : forall id, partition id -> exists b fs, folder (b :: fs) /\ relative id /\ components_of id = b :: fs /\
    forall t, blob_name (s_filename (m_writer M id)) node t = join $"/" (b :: fs) ++ $"/" ++ blob_file f ext node t.

  Lemma inner_at id b fs i : folder (b :: fs) -> relative id -> components_of id = b :: fs -> inner_of k M id i ->
    writer_at b fs k (extension f ext) i.
  Proof.
    intros F R_ C. induction 1 as [i H|i t data s name i' s' H IH E].
    - destruct (new_writer_at b fs F k f ext id R_ C) as (i0 & E0 & W & _). rewrite H in E0. injection E0 as <-. exact W.
    - destruct (commit_at b fs F k f ext i node t data s Fit IH) as (nm & i1 & E1 & W & _). rewrite E in E1. injection E1 as _ -> _. exact W.
  Qed.

  (** one commit *)
  Lemma one_commit id i t data s : partition id -> inner_of k M id i ->
    exists b fs name i', folder (b :: fs) /\
      Adapters.commit k i None node t data s = Ok (name, i', put (place_in b fs k (blob_file f ext node t)) data s) /\
      blob_name (s_filename (m_writer M id)) node t = join $"/" (b :: fs) ++ $"/" ++ blob_file f ext node t.
  Proof.
    intros Hp Hi. destruct (HI id Hp) as (b & fs & F & R_ & C & N).
    destruct (commit_at b fs F k f ext i node t data s Fit (inner_at id b fs i F R_ C Hi)) as (nm & i1 & E1 & _).
    exists b, fs, nm, i1. auto.
  Qed.

  Lemma stored_exists log : Forall (fun e : str * str => exists id t, partition id /\ fst e = blob_name (s_filename (m_writer M id)) node t) log ->
    forall s, exists s', stored_as k M partition log s s'.
  Proof.
    induction 1 as [|[n d] log (id & t & Hp & E) _ IH]; intros s; [exists s; constructor|]. cbn [fst] in E. subst n.
    destruct (HI id Hp) as (b & fs & F & R_ & C & _).
    destruct (new_writer_at b fs F k f ext id R_ C) as (i & Hi & _).
    destruct (one_commit id i t d s Hp (opened k M id i Hi)) as (b' & fs' & nm & i' & _ & Ec & _).
    destruct (IH (put (place_in b' fs' k (blob_file f ext node t)) d s)) as (s' & H). exists s'.
    eapply blob_stored; eauto using opened.
  Qed.

  (** names as they are written *)
  Definition written_name (n : str) : Prop := exists b fs t, folder (b :: fs) /\ n = join $"/" (b :: fs) ++ $"/" ++ blob_file f ext node t.
  Lemma written_components n : written_name n -> components_of n <> [] /\ n = join $"/" (components_of n).
  Proof.
    intros (b & fs & t & F & ->). rewrite (named b fs), components_join; [split; [discriminate|reflexivity]|].
    apply (named_comp b fs F). now apply blob_file_good.
  Qed.
  Lemma written_same n m : written_name n -> written_name m -> components_of n = components_of m -> n = m.
  Proof.
    intros Hn Hm E. apply written_components in Hn as [_ Hn], Hm as [_ Hm]. rewrite Hn, Hm, E. reflexivity.
  Qed.

  Lemma stored_facts log s s' : stored_as k M partition log s s' -> proper k s ->
    proper k s' /\ Forall (fun e => written_name (fst e)) log /\
    (forall n, (exists data, holds_at k s' n data) <-> (exists data, holds_at k s n data) \/ In n (map fst log)) /\
    (forall n data, content_of log n = Some data -> get_blob_bytes k n s' = Ok data) /\
    (forall n, (forall m, In m (map fst log) -> components_of n <> components_of m) ->
               get_blob_bytes k n s' = get_blob_bytes k n s).
  Proof.
    induction 1 as [s|id i t data name i' s s' log s'' Hp Hi Ec H IH]; intros P.
    - split; [auto|]. split; [constructor|]. split; [intros n; cbn; tauto|]. split; [discriminate|auto].
    - destruct (one_commit id i t data s Hp Hi) as (b & fs & nm & i1 & F & E1 & N). rewrite Ec in E1. injection E1 as _ _ ->.
      rewrite N. clear Ec name nm i1 i' N. destruct (blob_file_good f ext node t Fit) as [C X].
      set (file := blob_file f ext node t) in *.
      pose proof (proper_put b fs F k file data s C P) as P1.
      destruct (IH P1) as (P2 & FW & HH & RL & RO). clear IH.
      assert (W0 : written_name (join $"/" (b :: fs) ++ $"/" ++ file)) by (exists b, fs, t; auto).
      split; [exact P2|]. split; [constructor; auto|]. split; [|split].
      + intros n. rewrite HH, (holds_put b fs F k file data s n C P). cbn [map fst In]. split.
        * intros [[->|Hn]|Hn]; auto.
        * intros [Hn|[<-|Hn]]; auto.
      + intros n d. cbn [content_of]. destruct (content_of log n) as [d'|] eqn:Ed; [intros [= <-]; auto|].
        destruct (str_eqb _ n) eqn:En; [|discriminate]. intros [= <-]. apply str_eqb_eq in En. subst n.
        rewrite RO.
        * rewrite (read_named b fs F) by auto. rewrite lookup_put. reflexivity.
        * intros m Hm Q. apply in_map_iff in Hm as ([m' d'] & Em & Hm). cbn [fst] in Em. subst m'.
          rewrite Forall_forall in FW. pose proof (FW _ Hm) as Wm. cbn [fst] in Wm. apply written_same in Q; auto.
          rewrite Q in Ed. clear - Ed Hm. induction log as [|[n c] log IH]; [destruct Hm|]. cbn [content_of] in Ed.
          destruct (content_of log m) eqn:E1; [discriminate|]. destruct Hm as [[= -> ->]|Hm]; [rewrite str_eqb_refl in Ed; discriminate|auto].
      + intros n Hn. rewrite RO by (intros m Hm; apply Hn; right; auto). apply (read_other b fs F); auto. apply Hn. left. auto.
  Qed.

  Lemma written_listed n : written_name n -> endswith $"/" n = false.
  Proof.
    intros (b & fs & t & F & ->). apply named_listed. now apply blob_file_good.
  Qed.

  (** a folder in which there was nothing *)
  Lemma stored_listing log s s' rnd hours cs : stored_as k M partition log s s' -> proper k s -> folder cs ->
    (k = MinIo -> hours <> []) -> listing k rnd hours (join $"/" cs) s = [] ->
    lists_folder (fun p => dedup str_eqb (listing k rnd hours p s')) log (join $"/" cs).
  Proof.
    intros H P F Hh L0. destruct (stored_facts log s s' H P) as (P' & FW & HH & _).
    destruct (listed_folder k rnd hours cs s F P Hh) as (out & Eo & I & _).
    destruct (listed_folder k rnd hours cs s' F P' Hh) as (out' & Eo' & I' & _).
    unfold lists_folder, listing in *. rewrite Eo in L0. rewrite Eo'. subst out.
    split; [apply dedup_NoDup, str_eqb_eq|]. intros m. rewrite (dedup_In str_eqb str_eqb_eq), I', HH. split.
    - intros (A & B & [C|C]); [exfalso; apply (I m); auto|auto].
    - intros (A & B). split; [auto|]. split; [|auto].
      apply in_map_iff in A as (e & <- & He). rewrite Forall_forall in FW. apply written_listed. auto.
  Qed.
End Bridge.

(** ** The folders of a stream partitioned by date *)
Section Dates.
  Context (u : list seg).
  Hypothesis P : proper_template (map Date u).
  Lemma fill_split_ok now c : In c (split "/"%char (fill u now)) -> component c /\ no_braces c.
  Proof.
    intros H. destruct (fill_solid u P now c H) as (x & Hx & Nx).
    assert (I : forall z, In z c -> In z (fill u now)).
    { intros z Hz. rewrite <- (join_split "/"%char (fill u now)). revert H. generalize (split "/"%char (fill u now)).
      intros l. induction l as [|w l IH]; [intros []|]. destruct l as [|w' l].
      - intros [->|[]]. exact Hz.
      - rewrite join_cons by discriminate. intros [->|H]; apply in_app_iff; [auto|]. right. apply in_app_iff. right. auto. }
    split; [split; [|split]|split].
    - intros ->. destruct Hx.
    - intros ->. destruct Hx as [<-|[]]. congruence.
    - eapply split_no_sep; eauto.
    - intros B. now apply (fill_no_brace u P now), I.
    - intros B. apply I in B. apply (fill_chars u) in B as [B|(s & Hs & Hc)]; [discriminate|].
      destruct P as ((P1 & _) & _). destruct (P1 s (in_map Date _ _ Hs)). auto.
  Qed.
  Lemma fill_is_folder now : folder (split "/"%char (fill u now)).
  Proof.
    split; [|split].
    - rewrite <- solid_split by apply (fill_solid u P). apply (fill_depth u P).
    - apply fill_split_ok.
    - intros D. apply (fill_no_dot u P now).
      assert (N : split "/"%char (fill u now) <> []) by apply split_nonempty.
      destruct (exists_last N) as (l & z & E). rewrite E, last_last in D.
      rewrite <- (join_split "/"%char (fill u now)), E. destruct l as [|w l]; [exact D|].
      rewrite join_app by discriminate. apply in_app_iff. right. apply in_app_iff. right. exact D.
  Qed.
  Lemma backout_is_folder now : folder (split "/"%char (fill u now) ++ [$"BACKOUT"]).
  Proof.
    destruct (fill_is_folder now) as (L & C & _). split; [|split].
    - rewrite app_length. lia.
    - intros c Hc. apply in_app_iff in Hc as [Hc|[<-|[]]]; [auto|].
      repeat split; try discriminate; cbv; intuition discriminate.
    - rewrite last_last. cbv. intuition discriminate.
  Qed.

  Context {R V : Type} (M : streaming R V).
  Hypothesis SM : sets_ok M.
  Hypothesis T : m_template M = template_text u.
  Hypothesis PE : plain (m_ext M).
  Lemma partitions_ok es id : partition_written M es id -> exists b fs, folder (b :: fs) /\ relative id /\ components_of id = b :: fs /\
    forall t, blob_name (s_filename (m_writer M id)) (s_node (m_base M)) t
              = join $"/" (b :: fs) ++ $"/" ++ blob_file (s_format (m_base M)) (m_ext M) (s_node (m_base M)) t.
  Proof.
    intros (r & at_ & _ & Hi). rewrite (targets_dates u P M SM T) in Hi. destruct Hi as [<-|[]]. unfold suffix_of.
    destruct (m_valid M r).
    - rewrite app_nil_r. pose proof (fill_is_folder at_) as F. pose proof (solid_split _ (fill_solid u P at_)) as E.
      pose proof (fun t => fill_name u P M PE at_ t) as N. pose proof (join_split "/"%char (fill u at_)) as J.
      destruct (split "/"%char (fill u at_)) as [|b fs]; [destruct F as (L & _); cbn in L; lia|].
      exists b, fs. split; [exact F|]. split; [apply (fill_relative u P)|]. split; [exact E|].
      intros t. rewrite N. change $"/" with ["/"%char]. rewrite J. reflexivity.
    - pose proof (backout_is_folder at_) as F. pose proof (fun t => backout_name u P M PE at_ t) as N.
      pose proof (join_split "/"%char (fill u at_)) as J. pose proof (split_nonempty "/"%char (fill u at_)) as NE.
      assert (E : components_of (fill u at_ ++ $"/BACKOUT/") = split "/"%char (fill u at_) ++ [$"BACKOUT"]).
      { change $"/BACKOUT/" with ($"/" ++ $"BACKOUT/"). rewrite components_app_slash, solid_split by apply (fill_solid u P). reflexivity. }
      assert (J2 : join $"/" (split "/"%char (fill u at_) ++ [$"BACKOUT"]) = fill u at_ ++ $"/BACKOUT").
      { change $"/" with ["/"%char]. rewrite join_app by (try discriminate; auto). rewrite J. reflexivity. }
      destruct (split "/"%char (fill u at_) ++ [$"BACKOUT"]) as [|b fs] eqn:Es; [destruct (split "/"%char (fill u at_)); discriminate|].
      exists b, fs. split; [exact F|]. split; [|split; [exact E|]].
      + intros z Q. pose proof (fill_relative u P at_) as Rl. pose proof (fill_depth u P at_) as D. destruct (fill u at_) as [|c0 f0] eqn:Ef.
        * cbn in D. lia.
        * injection Q as -> _. now apply (Rl f0).
      + intros t. rewrite N, J2. rewrite <- !app_assoc. reflexivity.
  Qed.
End Dates.

(** ** From the log to storage *)
Lemma timed_partitions {R V} (M : streaming R V) (partition : str -> Prop) blobs w : timed M blobs w ->
  (forall b, In b blobs -> snd b <> [] -> partition (fst b)) ->
  Forall (fun e : str * str => exists id t, partition id /\ fst e = blob_name (s_filename (m_writer M id)) (s_node (m_base M)) t) (puts w).
Proof.
  intros (_ & F & N) HB.
  assert (NE : forall b, In b blobs -> snd b <> []).
  { clear - F. induction F as [|b e bl log [_ H] F IH]; [intros b []|]. intros b' [<-|Hb]; auto. }
  apply Forall_forall. intros e He. apply (in_map fst) in He. rewrite N in He.
  apply in_map_iff in He as ([b n] & E & Hb). apply in_combine_l in Hb.
  exists (fst b), (s_clock (m_base M) n). split; [auto|]. symmetry. exact E.
Qed.
Lemma stored_sent {R V} (M : streaming R V) es os (blobs : list (str * list R)) b : In b blobs -> snd b <> [] ->
  (forall id, exists lost, stored_for id blobs ++ lost = sent M (es ++ [SFinalize]) os id) -> partition_written M es (fst b).
Proof.
  intros Hb Nb HS. destruct (snd b) as [|r g] eqn:Eg; [congruence|].
  destruct (HS (fst b)) as (lost & E). assert (Hr : In r (stored_for (fst b) blobs)).
  { unfold stored_for. apply in_concat. exists (snd b). split; [|rewrite Eg; now left].
    apply in_map. apply filter_In. split; auto. apply str_eqb_refl. }
  assert (Hs : In r (sent M (es ++ [SFinalize]) os (fst b))) by (rewrite <- E; apply in_app_iff; auto).
  apply sent_In in Hs as (at_ & Ha & Ht). exists r, at_. split; auto.
  apply in_app_iff in Ha as [Ha|[Ha|[]]]; [auto|discriminate].
Qed.

Lemma range_repeats hash loads (records : str -> list value) (store1 store2 : str -> list str) now rnd ds a b n :
  (forall p name, In name (store1 p) <-> In name (store2 p)) ->
  records_read (read_records hash loads (fun _ => list_range None store1 now rnd ds a b) 0 records NoCursor n) =
  records_read (read_records hash loads (fun _ => list_range None store2 now rnd ds a b) 0 records NoCursor n).
Proof.
  intros H. apply Repeats.read_set. unfold list_range. destruct (date_range now (BDatetime a) (BDatetime b)) as [hs|e]; cbn [bind]; [|reflexivity].
  destruct (mapM _ hs) as [ps|e]; cbn [bind]; [|reflexivity]. apply Repeats.get_list_same. intros p _ x. apply H.
Qed.
Lemma gives_found (wanted rows : list value) n (r : result (list value * saved)) : gives wanted (firstn n rows) r -> records_read r = found wanted n rows.
Proof. destruct wanted; cbn; [now intros ->|intros (c & ->); reflexivity]. Qed.

Section Written.
  Context (parse : str -> result value) (unzstd : str -> result str) (other : str -> str -> generator value).
  Context (fits : value -> Prop) (image : value -> value).
  Context {V : Type} (M : streaming value V).
  Context (columns : value -> result value) (filters : value -> result bool) (cf : value -> value) (pf : value -> bool).
  Notation selected l := (filter pf (map cf (map image l))).
  Context (k : kind) (hash : str -> Z) (loads : str -> result cdict).
  Hypothesis HM : stream_settings parse unzstd other fits image M.
  Notation read now rnd t a b n s := (records_read (read_selected parse unzstd other columns filters hash loads k now rnd t a b n s)).

  Lemma fit_stream : fit_names (s_format (m_base M)) (m_ext M) (s_node (m_base M)).
  Proof.
    destruct HM as (HB & PN & PE & _).
    split; [apply plain_no; auto|]. split; [apply plain_no; auto|]. split; [split; apply plain_no; auto|].
    pose proof (RoundTrip.read_as_extension _ _ _ _ _ _ _ HB) as (e & z & Q & Dz).
    destruct (RoundTrip.data_extension_facts z Dz) as (_ & v & Hv & N1 & N2 & _).
    exists e, v. rewrite Q, Hv. auto.
  Qed.

  Section Bridged.
    Context (t : list seg) (hourly : bool) (es : list (event (R:=value))) (s0 s1 : stored) (log : list (str * str)).
    Hypothesis DT : daily_template t.
    Hypothesis P : proper_template (map Date t).
    Hypothesis T : m_template M = template_text (t ++ sub hourly).
    Hypothesis P0 : proper k s0.

    Lemma partitions_fine id : partition_written M es id -> exists b fs, folder (b :: fs) /\ relative id /\ components_of id = b :: fs /\
      forall x, blob_name (s_filename (m_writer M id)) (s_node (m_base M)) x
                = join $"/" (b :: fs) ++ $"/" ++ blob_file (s_format (m_base M)) (m_ext M) (s_node (m_base M)) x.
    Proof.
      destruct HM as (_ & _ & PE & SM & _). apply (partitions_ok (t ++ sub hourly) (proper_sub t hourly P) M SM T PE).
    Qed.
    Lemma day_nothing rnd now a b date : stored_as k M (partition_written M es) log s0 s1 -> (a <= b)%Z ->
      listing k rnd (range_hours now a b) (day_folder t date) s0 = [] ->
      lists_folder (fun p => dedup str_eqb (listing k rnd (range_hours now a b) p s1)) log (day_folder t date).
    Proof.
      intros H L. rewrite (day_folder_fill t P date).
      pose proof (join_split "/"%char (fill t (midnight date))) as J. change ["/"%char] with $"/" in J. rewrite <- J.
      intros L0. apply (stored_listing k M (partition_written M es) fit_stream partitions_fine log s0 s1); auto.
      - apply (fill_is_folder t P).
      - intros _. now apply System.some_hours.
    Qed.
    Lemma storage_exists blobs w : timed M blobs w -> (forall b, In b blobs -> snd b <> [] -> partition_written M es (fst b)) ->
      exists s', stored_as k M (partition_written M es) (puts w) s0 s'.
    Proof.
      intros TM HB. apply (stored_exists k M _ fit_stream partitions_fine). eapply timed_partitions; eauto.
    Qed.
    Lemma storage_reads : stored_as k M (partition_written M es) log s0 s1 -> reads_log (fun name => get_blob_bytes k name s1) log.
    Proof. intros H. pose proof (stored_facts k M _ fit_stream partitions_fine log s0 s1 H P0) as (_ & _ & _ & RL & _). exact RL. Qed.
    Lemma read_once now rnd a b n :
      read now rnd t a b n s1 = records_read (read_records hash loads
        (fun _ => list_range None (fun p => dedup str_eqb (listing k rnd (range_hours now a b) p s1)) now rnd (template_text t ++ $"/") a b) 0
        (blob_records parse unzstd other (fun name => get_blob_bytes k name s1) columns filters None) NoCursor n).
    Proof. unfold read_selected. apply range_repeats. intros p x. now rewrite (dedup_In str_eqb str_eqb_eq). Qed.
  End Bridged.

  Section Streams.
    Context (t : list seg) (hourly : bool) (es : list (event (R:=value))) (os : list (result nat)) (s : sstate (R:=value)) (s0 : stored).
    Hypothesis DT : daily_template t.
    Hypothesis P : proper_template (map Date t).
    Hypothesis T : m_template M = template_text (t ++ sub hourly).
    Hypothesis P0 : proper k s0.
    Hypothesis RUN : srun M new_stream (es ++ [SFinalize]) = (os, s).
    Hypothesis HC : forall r at_, In (SAppend r at_) es -> clock_time at_.
    Hypothesis CL : good_clock (m_base M) (attempts (world_of s)).

    Lemma stream_storable : exists s1, stored_as k M (partition_written M es) (puts (world_of s)) s0 s1.
    Proof.
      destruct HM as (_ & _ & _ & _ & RE). destruct (all_timed M RE _ _ _ RUN) as (blobs & TM & ST).
      apply (storage_exists t hourly es s0 P T blobs); auto.
      intros b Hb Nb. apply (stored_sent M es os blobs b Hb Nb). intros id. exists []. now rewrite app_nil_r.
    Qed.
    Lemma stored_in_order now rnd y m d hh mm ss y' m' d' hh' mm' ss' n :
      chronological t -> in_order es ->
      valid_date y m d -> valid_time hh mm ss -> valid_date y' m' d' -> valid_time hh' mm' ss' -> (1000 <= y)%Z -> (y' <= 9999)%Z ->
      let start := of_fields y m d hh mm ss in let stop := of_fields y' m' d' hh' mm' ss' in
      (start <= stop)%Z ->
      (forall date, within (y, m, d) (y', m', d') date ->
         clean_folder (day_folder t date) /\ listing k rnd (range_hours now start stop) (day_folder t date) s0 = []) ->
      let wanted := accepted_on M (within_days (y, m, d) (y', m', d')) es os in
      (forall r, In r wanted -> fits r /\ applies columns filters cf pf (image r)) ->
      forall s1, stored_as k M (partition_written M es) (puts (world_of s)) s0 s1 ->
      read now rnd t start stop n s1 = found wanted n (selected wanted).
    Proof.
      intros CH IO V1 T1 V2 T2 Y1 Y2 start stop LE HF wanted HR s1 HS. rewrite read_once. apply gives_found.
      apply (StreamRange.range_in_order parse unzstd other _ fits image M columns filters cf pf es os s _ HM) with (hourly := hourly); auto.
      - split; [exact RUN|]. split; [exact HC|]. split; [exact CL|]. eapply (storage_reads t hourly es s0 s1); eauto.
      - intros date Hd. destruct (HF date Hd) as [C L]. split; [exact C|]. apply (day_nothing t hourly es s0 s1) with (now := now); auto.
    Qed.
    Lemma stored_day now rnd y m d hh mm ss hh' mm' ss' n :
      hourly = false -> valid_date y m d -> valid_time hh mm ss -> valid_time hh' mm' ss' ->
      let start := of_fields y m d hh mm ss in let stop := of_fields y m d hh' mm' ss' in
      (start <= stop)%Z -> clean_folder (day_folder t (y, m, d)) ->
      listing k rnd (range_hours now start stop) (day_folder t (y, m, d)) s0 = [] ->
      let wanted := accepted_on M (on_day (y, m, d)) es os in
      (forall r, In r wanted -> fits r /\ applies columns filters cf pf (image r)) ->
      forall s1, stored_as k M (partition_written M es) (puts (world_of s)) s0 s1 ->
      read now rnd t start stop n s1 = found wanted n (selected wanted).
    Proof.
      intros -> V1 T1 T2 start stop LE C L wanted HR s1 HS. rewrite read_once. apply gives_found.
      apply (StreamRange.one_day_read parse unzstd other _ fits image M columns filters cf pf es os s _ HM); auto.
      - split; [exact RUN|]. split; [exact HC|]. split; [exact CL|]. eapply (storage_reads t false es s0 s1); eauto.
      - rewrite T. cbn [sub]. now rewrite app_nil_r.
      - apply (day_nothing t false es s0 s1) with (now := now); auto.
    Qed.
  End Streams.

  Section After.
    Context (t : list seg) (xs : list session) (w : world) (s0 : stored).
    Hypothesis DT : daily_template t.
    Hypothesis P : proper_template (map Date t).
    Hypothesis T : m_template M = template_text t.
    Hypothesis P0 : proper k s0.
    Hypothesis RUN : sessions_ran M (mkWorld 0 []) xs w.
    Hypothesis HC : forall x r at_, In x xs -> In (SAppend r at_) (asked_of x) -> clock_time at_.
    Hypothesis CL : good_clock (m_base M) (attempts w).
    Let es := flat_map asked_of xs.
    Let T' : m_template M = template_text (t ++ sub false).
    Proof. cbn [sub]. now rewrite app_nil_r. Qed.

    Lemma sessions_storable : exists s1, stored_as k M (partition_written M es) (puts w) s0 s1.
    Proof.
      destruct HM as (_ & _ & _ & _ & RE). destruct (Sessions.sessions_timed M RE _ _ _ RUN [] (timed_nothing M)) as (news & TM & FL).
      cbn [app] in TM. apply (storage_exists t false es s0 P T' (concat news)); auto.
      intros b Hb Nb. apply in_concat in Hb as (new & Hn & Hb).
      assert (G : exists x, In x xs /\ Sessions.left_by M x new).
      { clear - FL Hn. induction FL as [|x n xs news L F IH]; [destruct Hn|]. destruct Hn as [->|Hn]; [exists x; split; [left|]; auto|].
        destruct (IH Hn) as (x' & A & B). exists x'. split; [right|]; auto. }
      destruct G as (x & Hx & L).
      assert (Q : partition_written M (asked_of x) (fst b)).
      { destruct x as [e o|e o]; cbn [asked_of Sessions.left_by] in *.
        - apply (stored_sent M e o new b Hb Nb). intros id. exists []. now rewrite app_nil_r.
        - apply (stored_sent M e o new b Hb Nb). exact L. }
      destruct Q as (r & at_ & A & B). exists r, at_. split; [|exact B]. unfold es. apply in_flat_map. eauto.
    Qed.
    Lemma sessions_stored_day now rnd y m d hh mm ss hh' mm' ss' :
      valid_date y m d -> valid_time hh mm ss -> valid_time hh' mm' ss' ->
      let start := of_fields y m d hh mm ss in let stop := of_fields y m d hh' mm' ss' in
      (start <= stop)%Z -> clean_folder (day_folder t (y, m, d)) ->
      listing k rnd (range_hours now start stop) (day_folder t (y, m, d)) s0 = [] ->
      forall s1, stored_as k M (partition_written M es) (puts w) s0 s1 ->
      exists kept, Forall2 (fun x => remains M x (y, m, d)) xs kept /\
      let wanted := concat kept in
      ((forall r, In r wanted -> fits r /\ applies columns filters cf pf (image r)) ->
       forall n, read now rnd t start stop n s1 = found wanted n (selected wanted)).
    Proof.
      intros V1 T1 T2 start stop LE C L s1 HS.
      pose proof (storage_reads t false es s0 s1 (puts w) P T' P0 HS) as RL.
      destruct (Sessions.sessions_one_day parse unzstd other _ fits image M columns filters cf pf xs w
                  (fun p => dedup str_eqb (listing k rnd (range_hours now start stop) p s1)) HM RUN HC CL RL
                  t now rnd y m d hh mm ss hh' mm' ss' DT P T V1 T1 T2 LE C) as (kept & F & G).
      { apply (day_nothing t false es s0 s1) with (now := now); auto. }
      exists kept. split; [exact F|]. intros wanted HR n. rewrite read_once. apply gives_found. now apply G.
    Qed.
  End After.
End Written.

(** ** As stated *)
Section Stated.
  Context (parse : str -> result value) (unzstd : str -> result str) (other : str -> str -> generator value).
  Context (fits : value -> Prop) (image : value -> value).
  Context {V : Type} (M : streaming value V).
  Context (columns : value -> result value) (filters : value -> result bool) (cf : value -> value) (pf : value -> bool).
  Context (k : kind) (hash : str -> Z) (loads : str -> result cdict).
  Hypothesis HM : stream_settings parse unzstd other fits image M.

  Lemma stored_either t es os s s0 : daily_template t -> proper_template (map Date t) ->
    m_template M = template_text t \/ m_template M = template_text (t ++ hour_folders) -> chronological t ->
    forall now rnd y m d hh mm ss y' m' d' hh' mm' ss' n,
    proper k s0 -> srun M new_stream (es ++ [SFinalize]) = (os, s) ->
    (forall r at_, In (SAppend r at_) es -> clock_time at_) -> in_order es ->
    good_clock (m_base M) (attempts (world_of s)) ->
    valid_date y m d -> valid_time hh mm ss -> valid_date y' m' d' -> valid_time hh' mm' ss' -> (1000 <= y)%Z -> (y' <= 9999)%Z ->
    let start := of_fields y m d hh mm ss in let stop := of_fields y' m' d' hh' mm' ss' in
    (start <= stop)%Z ->
    (forall date, within (y, m, d) (y', m', d') date ->
       clean_folder (day_folder t date) /\ listing k rnd (range_hours now start stop) (day_folder t date) s0 = []) ->
    let wanted := accepted_on M (within_days (y, m, d) (y', m', d')) es os in
    (forall r, In r wanted -> fits r /\ applies columns filters cf pf (image r)) ->
    (exists s1, stored_as k M (partition_written M es) (puts (world_of s)) s0 s1) /\
    forall s1, stored_as k M (partition_written M es) (puts (world_of s)) s0 s1 ->
    records_read (read_selected parse unzstd other columns filters hash loads k now rnd t start stop n s1)
    = found wanted n (filter pf (map cf (map image wanted))).
  Proof.
    intros DT P T CH now rnd y m d hh mm ss y' m' d' hh' mm' ss' n P0 RUN HC IO CL V1 T1 V2 T2 Y1 Y2 start stop LE HF wanted HR.
    assert (T' : exists hourly, m_template M = template_text (t ++ sub hourly)).
    { destruct T as [T|T]; [exists false; cbn [sub]; now rewrite app_nil_r|exists true; exact T]. }
    destruct T' as (hourly & T'). split.
    - apply (stream_storable parse unzstd other fits image M k HM t hourly es os s s0 P T' RUN).
    - apply (stored_in_order parse unzstd other fits image M columns filters cf pf k hash loads HM t hourly es os s s0 DT P T' P0 RUN HC CL); auto.
  Qed.

  Lemma stored_one_day t es os s s0 : daily_template t -> proper_template (map Date t) -> m_template M = template_text t ->
    forall now rnd y m d hh mm ss hh' mm' ss' n,
    proper k s0 -> srun M new_stream (es ++ [SFinalize]) = (os, s) ->
    (forall r at_, In (SAppend r at_) es -> clock_time at_) ->
    good_clock (m_base M) (attempts (world_of s)) ->
    valid_date y m d -> valid_time hh mm ss -> valid_time hh' mm' ss' ->
    let start := of_fields y m d hh mm ss in let stop := of_fields y m d hh' mm' ss' in
    (start <= stop)%Z -> clean_folder (day_folder t (y, m, d)) ->
    listing k rnd (range_hours now start stop) (day_folder t (y, m, d)) s0 = [] ->
    let wanted := accepted_on M (on_day (y, m, d)) es os in
    (forall r, In r wanted -> fits r /\ applies columns filters cf pf (image r)) ->
    (exists s1, stored_as k M (partition_written M es) (puts (world_of s)) s0 s1) /\
    forall s1, stored_as k M (partition_written M es) (puts (world_of s)) s0 s1 ->
    records_read (read_selected parse unzstd other columns filters hash loads k now rnd t start stop n s1)
    = found wanted n (filter pf (map cf (map image wanted))).
  Proof.
    intros DT P T now rnd y m d hh mm ss hh' mm' ss' n P0 RUN HC CL V1 T1 T2 start stop LE C L wanted HR.
    assert (T' : m_template M = template_text (t ++ sub false)) by (cbn [sub]; now rewrite app_nil_r).
    split.
    - apply (stream_storable parse unzstd other fits image M k HM t false es os s s0 P T' RUN).
    - apply (stored_day parse unzstd other fits image M columns filters cf pf k hash loads HM t false es os s s0 DT P T' P0 RUN HC CL); auto.
  Qed.

  Lemma stored_sessions t xs w s0 : daily_template t -> proper_template (map Date t) -> m_template M = template_text t ->
    proper k s0 -> sessions_ran M (mkWorld 0 []) xs w ->
    (forall x r at_, In x xs -> In (SAppend r at_) (asked_of x) -> clock_time at_) ->
    good_clock (m_base M) (attempts w) ->
    forall now rnd y m d hh mm ss hh' mm' ss',
    valid_date y m d -> valid_time hh mm ss -> valid_time hh' mm' ss' ->
    let start := of_fields y m d hh mm ss in let stop := of_fields y m d hh' mm' ss' in
    (start <= stop)%Z -> clean_folder (day_folder t (y, m, d)) ->
    listing k rnd (range_hours now start stop) (day_folder t (y, m, d)) s0 = [] ->
    let written := partition_written M (flat_map asked_of xs) in
    (exists s1, stored_as k M written (puts w) s0 s1) /\
    forall s1, stored_as k M written (puts w) s0 s1 ->
    exists kept, Forall2 (fun x => remains M x (y, m, d)) xs kept /\
    let wanted := concat kept in
    ((forall r, In r wanted -> fits r /\ applies columns filters cf pf (image r)) ->
     forall n, records_read (read_selected parse unzstd other columns filters hash loads k now rnd t start stop n s1)
               = found wanted n (filter pf (map cf (map image wanted)))).
  Proof.
    intros DT P T P0 RUN HC CL now rnd y m d hh mm ss hh' mm' ss' V1 T1 T2 start stop LE C L written. split.
    - exact (sessions_storable parse unzstd other fits image M k HM t xs w s0 P T RUN).
    - exact (sessions_stored_day parse unzstd other fits image M columns filters cf pf k hash loads HM t xs w s0 DT P T P0 RUN HC CL
               now rnd y m d hh mm ss hh' mm' ss' V1 T1 T2 LE C L).
  Qed.

  Lemma stored_others t (es : list event) log s0 s1 : proper_template (map Date t) ->
    m_template M = template_text t \/ m_template M = template_text (t ++ hour_folders) -> proper k s0 ->
    stored_as k M (partition_written M es) log s0 s1 ->
    proper k s1 /\
    (forall name, (exists data, holds_at k s1 name data) <-> (exists data, holds_at k s0 name data) \/ In name (map fst log)) /\
    (forall name, (forall stored, In stored (map fst log) -> components_of name <> components_of stored) ->
       get_blob_bytes k name s1 = get_blob_bytes k name s0).
  Proof.
    intros P T P0 HS.
    assert (T' : exists hourly, m_template M = template_text (t ++ sub hourly)).
    { destruct T as [T|T]; [exists false; cbn [sub]; now rewrite app_nil_r|exists true; exact T]. }
    destruct T' as (hourly & T').
    pose proof (stored_facts k M _ (fit_stream parse unzstd other fits image M HM)
      (partitions_fine parse unzstd other fits image M HM t hourly es P T') log s0 s1 HS P0) as (A & _ & B & _ & C). auto.
  Qed.
End Stated.
