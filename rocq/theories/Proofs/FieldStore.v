(** Streams partitioned by a field, in the storage of the adapters. *)
From Coq Require Import Lia Sorted.
From Verif.Base Require Import Py PyFacts Value.
From Verif.Model Require Import Storage Paths Dates Frames ReadRange Cursor Writers Stream Adapters Reader.
From Verif.Spec Require Import Paths Dates Writers Stream Reader StreamRead StreamField.
From Verif.Spec Require Adapters.
From Verif.Spec Require Import System StreamStore.
From Verif.Proofs Require Import Paths Adapters AdaptersUse StreamPaths StreamPool Stream StreamRead StreamStore StreamField.
From Verif.Proofs Require RoundTrip System Repeats StreamRange.

Lemma asked_repeats pf hash loads (records : str -> list value) (store1 store2 : str -> list str) now rnd ds a b n :
  (forall p name, In name (store1 p) <-> In name (store2 p)) ->
  records_read (read_records hash loads (fun _ => list_range pf store1 now rnd ds a b) 0 records NoCursor n) =
  records_read (read_records hash loads (fun _ => list_range pf store2 now rnd ds a b) 0 records NoCursor n).
Proof.
  intros H. apply Repeats.read_set. unfold list_range. destruct (date_range now (BDatetime a) (BDatetime b)) as [hs|e]; cbn [bind]; [|reflexivity].
  destruct (mapM _ hs) as [ps|e]; cbn [bind]; [|reflexivity]. apply Repeats.get_list_same. intros p _ x. apply H.
Qed.

(** ** Partitions *)
Section Parts.
  Context (t : list seg) (F : str).
  Hypothesis P : proper_template (map Date t).
  Hypothesis FN : field_name F.
  Notation part p x := (id_of p (value_key F x)).
  Notation valid_text x := (forall c, In c x -> valid_character c = true).
  Lemma valid_no_braces x : valid_text x -> no_braces x.
  Proof. intros H. split; intros C; apply H in C; discriminate. Qed.
  Lemma part_is_folder now x : valid_text x -> folder (split "/"%char (part (fill t now) x)).
  Proof.
    intros Hx. pose proof (fill_is_folder t P now) as (L & C & _). rewrite (part_split F FN) by auto.
    pose proof (name_chars F FN) as HF. split; [|split].
    - rewrite app_length. cbn [length]. lia.
    - intros c Hc. apply in_app_iff in Hc as [Hc|[<-|[<-|[]]]]; [auto| |].
      + split; [split; [discriminate|split; [discriminate|]]|split]; intros H; apply in_app_iff in H as [H|H];
          try (apply HF in H; discriminate); simpl in H; intuition discriminate.
      + split; [split; [|split]|split].
        * intros H. apply app_eq_nil in H as [_ H]. discriminate.
        * intros H. destruct F as [|f0 F']; [discriminate|]. injection H as _ H. apply app_eq_nil in H as [_ H]. discriminate.
        * intros H. apply in_app_iff in H as [H|H]; [apply HF in H; discriminate|]. cbn in H. destruct H as [H|H]; [discriminate|]. apply Hx in H. discriminate.
        * intros H. apply in_app_iff in H as [H|H]; [apply HF in H; discriminate|]. cbn in H. destruct H as [H|H]; [discriminate|]. apply Hx in H. discriminate.
        * intros H. apply in_app_iff in H as [H|H]; [apply HF in H; discriminate|]. cbn in H. destruct H as [H|H]; [discriminate|]. apply Hx in H. discriminate.
    - replace (split "/"%char (fill t now) ++ [$"by_" ++ F; F ++ $"=" ++ x])
        with ((split "/"%char (fill t now) ++ [$"by_" ++ F]) ++ [F ++ $"=" ++ x]) by (rewrite <- app_assoc; reflexivity).
      rewrite last_last. intros H. apply in_app_iff in H as [H|H]; [apply HF in H; discriminate|]. cbn in H. destruct H as [H|H]; [discriminate|]. apply Hx in H. discriminate.
  Qed.
  Lemma part_backout_is_folder now x : valid_text x -> folder (split "/"%char (part (fill t now) x) ++ [$"BACKOUT"]).
  Proof.
    intros Hx. destruct (part_is_folder now x Hx) as (L & C & _). split; [|split].
    - rewrite app_length. lia.
    - intros c Hc. apply in_app_iff in Hc as [Hc|[<-|[]]]; [auto|].
      repeat split; try discriminate; cbv; intuition discriminate.
    - rewrite last_last. cbv. intuition discriminate.
  Qed.

  Context {R V : Type} (M : streaming R V).
  Hypothesis SM : sets_ok M.
  Hypothesis T : m_template M = stream_template (field_template t F).
  Hypothesis PE : plain (m_ext M).
  Lemma partitions_field es id : partition_written M es id -> exists b fs, folder (b :: fs) /\ relative id /\ components_of id = b :: fs /\
    forall x, blob_name (s_filename (m_writer M id)) (s_node (m_base M)) x
              = join $"/" (b :: fs) ++ $"/" ++ blob_file (s_format (m_base M)) (m_ext M) (s_node (m_base M)) x.
  Proof.
    intros (r & at_ & _ & Hi). destruct (field_targets t F P FN M SM T r at_) as (vs & _ & _ & E). rewrite E in Hi. clear E.
    apply in_map_iff in Hi as (v & <- & _). assert (Hx : valid_text (kept_text (m_show M v))) by (intros c; apply kept_chars).
    revert Hx. generalize (kept_text (m_show M v)). intros x Hx. unfold suffix_of. destruct (m_valid M r).
    - rewrite app_nil_r. pose proof (part_is_folder at_ x Hx) as G. pose proof (solid_split _ (part_solid t F P FN at_ x Hx)) as E.
      pose proof (fun z => part_name t F P FN M PE at_ x z Hx) as N. pose proof (join_split "/"%char (part (fill t at_) x)) as J.
      destruct (split "/"%char (part (fill t at_) x)) as [|b fs]; [destruct G as (L & _); cbn in L; lia|].
      exists b, fs. split; [exact G|]. split; [apply (part_relative t F P)|]. split; [exact E|].
      intros z. rewrite N. change $"/" with ["/"%char]. rewrite J. reflexivity.
    - pose proof (part_backout_is_folder at_ x Hx) as G. pose proof (fun z => part_backout t F P FN M PE at_ x z Hx) as N.
      pose proof (join_split "/"%char (part (fill t at_) x)) as J. pose proof (split_nonempty "/"%char (part (fill t at_) x)) as NE.
      assert (E : components_of (part (fill t at_) x ++ $"/BACKOUT/") = split "/"%char (part (fill t at_) x) ++ [$"BACKOUT"]).
      { change $"/BACKOUT/" with ($"/" ++ $"BACKOUT/"). rewrite components_app_slash, solid_split by (apply part_solid; auto). reflexivity. }
      assert (J2 : join $"/" (split "/"%char (part (fill t at_) x) ++ [$"BACKOUT"]) = part (fill t at_) x ++ $"/BACKOUT").
      { change $"/" with ["/"%char]. rewrite join_app by (try discriminate; auto). rewrite J. reflexivity. }
      destruct (split "/"%char (part (fill t at_) x) ++ [$"BACKOUT"]) as [|b fs] eqn:Es; [destruct (split "/"%char (part (fill t at_) x)); discriminate|].
      exists b, fs. split; [exact G|]. split; [|split; [exact E|]].
      + intros z Q. pose proof (part_relative t F P at_ x) as Rl. destruct (part (fill t at_) x) as [|c0 f0] eqn:Ef.
        * pose proof (part_split F FN (fill t at_) x Hx) as PS. rewrite Ef in PS. apply (f_equal (@length str)) in PS. rewrite app_length in PS. cbn in PS. lia.
        * injection Q as -> _. now apply (Rl f0).
      + intros z. rewrite N, J2. rewrite <- !app_assoc. reflexivity.
  Qed.
End Parts.

(** ** From the log to storage, and what readers get *)
Section Written.
  Context (parse : str -> result value) (unzstd : str -> result str) (other : str -> str -> generator value).
  Context (fits : value -> Prop) (image : value -> value).
  Context {V : Type} (M : streaming value V).
  Context (columns : value -> result value) (filters : value -> result bool) (cf : value -> value) (pf : value -> bool).
  Notation selected l := (filter pf (map cf (map image l))).
  Context (k : kind) (hash : str -> Z) (loads : str -> result cdict).
  Hypothesis HM : stream_settings parse unzstd other fits image M.
  Notation read now rnd t asked a b n s := (records_read (read_asked parse unzstd other columns filters hash loads k now rnd t asked a b n s)).

  Context (t : list seg) (F : str) (es : list (event (R:=value))) (os : list (result nat)) (s : sstate (R:=value)) (s0 : stored).
  Hypothesis DT : daily_template t.
  Hypothesis P : proper_template (map Date t).
  Hypothesis FN : field_name F.
  Hypothesis T : m_template M = stream_template (field_template t F).
  Hypothesis P0 : proper k s0.
  Hypothesis RUN : srun M new_stream (es ++ [SFinalize]) = (os, s).
  Hypothesis HC : forall r at_, In (SAppend r at_) es -> clock_time at_.
  Hypothesis CL : good_clock (m_base M) (attempts (world_of s)).
  Context (times : str -> value -> nat).
  Hypothesis TD : forall x r at_, In (SAppend r at_) es -> members_with M F x r (times x r).

  Lemma parts_fine id : partition_written M es id -> exists b fs, folder (b :: fs) /\ relative id /\ components_of id = b :: fs /\
    forall x, blob_name (s_filename (m_writer M id)) (s_node (m_base M)) x
              = join $"/" (b :: fs) ++ $"/" ++ blob_file (s_format (m_base M)) (m_ext M) (s_node (m_base M)) x.
  Proof. destruct HM as (_ & _ & PE & SM & _). apply (partitions_field t F P FN M SM T PE). Qed.
  Notation fit := (fit_stream parse unzstd other fits image M HM).

  Lemma field_storable : exists s1, stored_as k M (partition_written M es) (puts (world_of s)) s0 s1.
  Proof.
    destruct HM as (_ & _ & _ & _ & RE). destruct (all_timed M RE _ _ _ RUN) as (blobs & TM & ST).
    apply (stored_exists k M _ fit parts_fine). eapply timed_partitions; eauto.
    intros b Hb Nb. apply (stored_sent M es os blobs b Hb Nb). intros id. exists []. now rewrite app_nil_r.
  Qed.
  Section Read.
    Context (s1 : stored) (now : datetime) (rnd : str) (a b : datetime).
    Hypothesis HS : stored_as k M (partition_written M es) (puts (world_of s)) s0 s1.
    Hypothesis LE : (a <= b)%Z.
    Notation store := (fun p => dedup str_eqb (listing k rnd (range_hours now a b) p s1)).
    Lemma field_nothing date : listing k rnd (range_hours now a b) (day_folder t date) s0 = [] ->
      lists_folder store (puts (world_of s)) (day_folder t date).
    Proof.
      rewrite (day_folder_fill t P date).
      pose proof (join_split "/"%char (fill t (midnight date))) as J. change ["/"%char] with $"/" in J. rewrite <- J.
      intros L0. apply (stored_listing k M (partition_written M es) fit parts_fine _ s0 s1); auto.
      - apply (fill_is_folder t P).
      - intros _. now apply System.some_hours.
    Qed.
    Lemma field_ran : stream_ran (fun name => get_blob_bytes k name s1) M es os s.
    Proof.
      split; [exact RUN|]. split; [exact HC|]. split; [exact CL|].
      pose proof (stored_facts k M _ fit parts_fine _ s0 s1 HS P0) as (_ & _ & _ & RL & _). exact RL.
    Qed.
    Lemma asked_once asked n :
      read now rnd t asked a b n s1 = records_read (read_records hash loads
        (fun _ => list_range asked store now rnd (template_text t ++ $"/") a b) 0
        (blob_records parse unzstd other (fun name => get_blob_bytes k name s1) columns filters None) NoCursor n).
    Proof. unfold read_asked. apply asked_repeats. intros p x. now rewrite (dedup_In str_eqb str_eqb_eq). Qed.
  End Read.

  Lemma stored_value_range op v now rnd y m d hh mm ss y' m' d' hh' mm' ss' n s1 :
    chronological t -> In op [$"="; $"=="] -> contains $"BACKOUT" (kept_text v) = false ->
    valid_date y m d -> valid_time hh mm ss -> valid_date y' m' d' -> valid_time hh' mm' ss' -> (1000 <= y)%Z -> (y' <= 9999)%Z ->
    let start := of_fields y m d hh mm ss in let stop := of_fields y' m' d' hh' mm' ss' in
    (start <= stop)%Z ->
    (forall date, within (y, m, d) (y', m', d') date ->
       clean_folder (day_folder t date) /\ listing k rnd (range_hours now start stop) (day_folder t date) s0 = []) ->
    stored_as k M (partition_written M es) (puts (world_of s)) s0 s1 ->
    exists days, consecutive days /\ hd_error days = Some (y, m, d) /\ last days (y', m', d') = (y', m', d') /\
    let wanted := flat_map (fun date => day_copies M times date es os (kept_text v)) days in
    ((forall r, In r wanted -> fits r /\ applies columns filters cf pf (image r)) ->
     read now rnd t (Some (F, op, v)) start stop n s1 = found wanted n (selected wanted)).
  Proof.
    intros CH Hop HB V1 T1 V2 T2 Y1 Y2 start stop LE HF HS.
    destruct (copies_value_range parse unzstd other _ fits image M t F columns filters cf pf es os s
      (fun p => dedup str_eqb (listing k rnd (range_hours now start stop) p s1)) HM (field_ran s1 HS) DT P FN T times TD
      op v now rnd y m d hh mm ss y' m' d' hh' mm' ss' hash loads n CH Hop HB V1 T1 V2 T2 Y1 Y2 LE) as (days & C1 & C2 & C3 & Q).
    - intros date Hw. destruct (HF date Hw) as [C L]. split; [exact C|]. now apply field_nothing.
    - exists days. repeat (split; [assumption|]). intros wanted HW. rewrite asked_once. apply gives_found. exact (Q HW).
  Qed.
  Lemma stored_value_day op v now rnd y m d hh mm ss hh' mm' ss' n s1 :
    In op [$"="; $"=="] -> contains $"BACKOUT" (kept_text v) = false ->
    valid_date y m d -> valid_time hh mm ss -> valid_time hh' mm' ss' ->
    let start := of_fields y m d hh mm ss in let stop := of_fields y m d hh' mm' ss' in
    (start <= stop)%Z -> clean_folder (day_folder t (y, m, d)) ->
    listing k rnd (range_hours now start stop) (day_folder t (y, m, d)) s0 = [] ->
    stored_as k M (partition_written M es) (puts (world_of s)) s0 s1 ->
    let wanted := day_copies M times (y, m, d) es os (kept_text v) in
    (forall r, In r wanted -> fits r /\ applies columns filters cf pf (image r)) ->
    read now rnd t (Some (F, op, v)) start stop n s1 = found wanted n (selected wanted).
  Proof.
    intros Hop HB V1 T1 T2 start stop LE C L HS wanted HW. rewrite asked_once. apply gives_found.
    apply (copies_value_day parse unzstd other _ fits image M t F columns filters cf pf es os s
      (fun p => dedup str_eqb (listing k rnd (range_hours now start stop) p s1)) HM (field_ran s1 HS) DT P FN T times TD); auto.
    now apply field_nothing.
  Qed.
  Lemma stored_values_all texts now rnd y m d hh mm ss y' m' d' hh' mm' ss' n s1 :
    chronological t ->
    (forall x, In x texts -> (forall c, In c x -> valid_character c = true) /\ contains $"BACKOUT" x = false) ->
    StronglySorted (fun x y => str_ltb (x ++ $"/") (y ++ $"/") = true) texts ->
    (forall date r x, within (y, m, d) (y', m', d') date -> In r (accepted_on M (on_day date) es os) -> has_text M F x r = true -> contains $"BACKOUT" x = false -> In x texts) ->
    valid_date y m d -> valid_time hh mm ss -> valid_date y' m' d' -> valid_time hh' mm' ss' -> (1000 <= y)%Z -> (y' <= 9999)%Z ->
    let start := of_fields y m d hh mm ss in let stop := of_fields y' m' d' hh' mm' ss' in
    (start <= stop)%Z ->
    (forall date, within (y, m, d) (y', m', d') date ->
       clean_folder (day_folder t date) /\ listing k rnd (range_hours now start stop) (day_folder t date) s0 = []) ->
    stored_as k M (partition_written M es) (puts (world_of s)) s0 s1 ->
    exists days, consecutive days /\ hd_error days = Some (y, m, d) /\ last days (y', m', d') = (y', m', d') /\
    let wanted := flat_map (fun date => flat_map (day_copies M times date es os) texts) days in
    ((forall r, In r wanted -> fits r /\ applies columns filters cf pf (image r)) ->
     read now rnd t None start stop n s1 = found wanted n (selected wanted)).
  Proof.
    intros CH HX HO HT V1 T1 V2 T2 Y1 Y2 start stop LE HF HS.
    destruct (copies_all_range parse unzstd other _ fits image M t F columns filters cf pf es os s
      (fun p => dedup str_eqb (listing k rnd (range_hours now start stop) p s1)) HM (field_ran s1 HS) DT P FN T times TD
      texts now rnd y m d hh mm ss y' m' d' hh' mm' ss' hash loads n CH HX HO HT V1 T1 V2 T2 Y1 Y2 LE) as (days & C1 & C2 & C3 & Q).
    - intros date Hw. destruct (HF date Hw) as [C L]. split; [exact C|]. now apply field_nothing.
    - exists days. repeat (split; [assumption|]). intros wanted HW. rewrite asked_once. apply gives_found. exact (Q HW).
  Qed.
End Written.
