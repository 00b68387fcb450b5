(** Streams and ranges of days give their records to a query (C83). *)
From Verif.Base Require Import Py Value.
From Verif.Model Require Import Paths Dates ReadRange Cursor Tokens Evaluator Expression Storage Writers Stream Adapters Reader.
From Verif.Spec Require Import Paths Dates Cursor Writers Stream Reader StreamRead Expression.
From Verif.Spec Require Adapters.
From Verif.Spec Require Import System Query.
From Verif.Proofs Require Expression RangeDays BatchRange StreamRange.

Lemma always_comparable float_of date_of py_is matches t r : (forall c, In c (comparisons t) -> has_answer c) ->
  comparable float_of date_of py_is matches (Some t) r.
Proof. intros H t' c [= <-] Hc. apply Expression.answers_all. now apply H. Qed.

Lemma concat_nil_all {A} (l : list (list A)) : Forall (fun x => x = []) l -> concat l = [].
Proof. induction 1 as [|x l -> _ IH]; [reflexivity|exact IH]. Qed.

Lemma days_give parse unzstd other hash loads k now rnd names folders (s : Adapters.stored) y m d hh mm ss y' m' d' hh' mm' ss' :
  let t := dataset_template (join $"/" names) folders in
  folder_names names -> daily_partitions folders -> chronological t -> Spec.Adapters.proper k s ->
  valid_date y m d -> valid_time hh mm ss -> valid_date y' m' d' -> valid_time hh' mm' ss' ->
  (1000 <= y)%Z -> (y' <= 9999)%Z -> (of_fields y m d hh mm ss <= of_fields y' m' d' hh' mm' ss')%Z ->
  let read a b columns filters n := records_read (read_selected parse unzstd other columns filters hash loads k now rnd t a b n s) in
  let day date := let '(y, m, d) := date in read (of_fields y m d 0 0 0) (of_fields y m d 23 59 59) in
  exists days, consecutive days /\ hd_error days = Some (y, m, d) /\ last days (y', m', d') = (y', m', d') /\
  forall rows, Forall2 (fun date part => Query.gives (day date) part \/
                                         part = [] /\ forall columns filters n, day date columns filters n = Raise DataNotFoundError) days rows ->
    concat rows <> [] ->
    Query.gives (read (of_fields y m d hh mm ss) (of_fields y' m' d' hh' mm' ss')) (concat rows).
Proof.
  intros t HN HF CH P V1 T1 V2 T2 Y1 Y2 L read day.
  pose proof (fun columns filters n => RangeDays.stored_days parse unzstd other columns filters hash loads k now rnd names folders n s
       y m d hh mm ss y' m' d' hh' mm' ss' HN HF CH P V1 T1 V2 T2 Y1 Y2 L) as R.
  cbv zeta in R. destruct (R pass_thru pass_thru_filter 0) as (days & C & Hd & Hl & _).
  exists days. split; [exact C|]. split; [exact Hd|]. split; [exact Hl|]. intros rows F NE columns filters c p n HA.
  destruct (R columns filters n) as (days' & C' & Hd' & Hl' & H).
  assert (days' = days) as -> by (apply (BatchRange.days_unique days days' (y, m, d) (y', m', d') (y', m', d')); assumption).
  assert (HA' : forall part r, In part rows -> In r part -> applies columns filters c p r).
  { intros part r Hp Hr. apply HA. apply in_concat. eauto. }
  destruct (H (map (fun part => firstn n (filter p (map c part))) rows)) as [_ W].
  { clear - F HA'. induction F as [|date part ds ps [G|[-> N]] _ IH]; cbn [map]; constructor.
    - left. specialize (G columns filters c p n). destruct date as [[u v] w]. apply G. intros r Hr. eapply HA'; [now left|exact Hr].
    - apply IH. intros; eapply HA'; [right|]; eauto.
    - right. specialize (N columns filters n). destruct date as [[u v] w]. split; [exact N|]. now rewrite firstn_nil.
    - apply IH. intros; eapply HA'; [right|]; eauto. }
  unfold read. eapply eq_trans; [apply W|].
  - intros X. apply NE. apply concat_nil_all. clear - F X HA'. induction F as [|date part ds ps [G|[-> N]] _ IH]; constructor; auto.
    + exfalso. inversion X as [|? ? X1 _]; subst. specialize (G columns filters c p n). destruct date as [[u v] w].
      assert (Z : @Raise (list value) DataNotFoundError = Ok (firstn n (filter p (map c part)))).
      { eapply eq_trans; [symmetry; exact X1|]. apply G. intros r Hr. eapply HA'; [now left|exact Hr]. }
      discriminate Z.
    + apply IH; [|now inversion X]. intros; eapply HA'; [right|]; eauto.
    + apply IH; [|now inversion X]. intros; eapply HA'; [right|]; eauto.
  - f_equal. rewrite concat_map, <- (BatchRange.firstn_concat_same n (map (fun part => filter p (map c part)) rows)).
    + f_equal. clear. induction rows as [|a rows IH]; [reflexivity|]. cbn [map concat]. now rewrite filter_app, IH.
    + clear. induction rows as [|a rows IH]; cbn [map]; constructor; auto. rewrite firstn_firstn. now rewrite Nat.min_id.
Qed.

Lemma stream_gives (parse : str -> result value) (unzstd : str -> result str) (other : str -> str -> generator value) (read_blob : str -> result str)
    (fits : value -> Prop) (image : value -> value)
    (V : Type) (M : streaming value V) (es : list event) (os : list (result nat)) (s : sstate) (store : str -> list str)
    (t : list seg) (now : datetime) (rnd : str) (y m d hh mm ss y' m' d' hh' mm' ss' : Z)
    (hash : str -> Z) (loads : str -> result cdict) :
  stream_settings parse unzstd other fits image M -> stream_ran read_blob M es os s ->
  daily_template t -> chronological t -> proper_template (map Date t) ->
  m_template M = template_text t \/ m_template M = template_text (t ++ hour_folders) -> in_order es ->
  valid_date y m d -> valid_time hh mm ss -> valid_date y' m' d' -> valid_time hh' mm' ss' -> (1000 <= y)%Z -> (y' <= 9999)%Z ->
  (of_fields y m d hh mm ss <= of_fields y' m' d' hh' mm' ss')%Z ->
  (forall date, within (y, m, d) (y', m', d') date ->
     clean_folder (day_folder t date) /\ lists_folder store (puts (world_of s)) (day_folder t date)) ->
  let accepted := accepted_on M (within_days (y, m, d) (y', m', d')) es os in
  accepted <> [] -> (forall r, In r accepted -> fits r) ->
  Query.gives (fun columns filters n => records_read (read_records hash loads
      (fun _ => list_range None store now rnd (template_text t ++ $"/") (of_fields y m d hh mm ss) (of_fields y' m' d' hh' mm' ss'))
      0 (blob_records parse unzstd other read_blob columns filters None) NoCursor n)) (map image accepted).
Proof.
  intros S R DT CH P T IO V1 T1 V2 T2 Y1 Y2 L HS accepted NE HD columns filters c p n HA.
  assert (G : StreamRead.gives accepted (firstn n (filter p (map c (map image accepted)))) (read_records hash loads
      (fun _ => list_range None store now rnd (template_text t ++ $"/") (of_fields y m d hh mm ss) (of_fields y' m' d' hh' mm' ss'))
      0 (blob_records parse unzstd other read_blob columns filters None) NoCursor n)).
  { assert (HA' : forall r, In r accepted -> fits r /\ applies columns filters c p (image r)).
    { intros r Hr. split; [now apply HD|]. apply HA. now apply in_map. }
    destruct T as [T|T].
    - exact (StreamRange.range_in_order parse unzstd other read_blob fits image M columns filters c p es os s store S R false t now rnd y m d hh mm ss y' m' d' hh' mm' ss' hash loads n DT CH P (eq_trans T (f_equal template_text (eq_sym (app_nil_r t)))) IO V1 T1 V2 T2 Y1 Y2 L HS HA').
    - exact (StreamRange.range_in_order parse unzstd other read_blob fits image M columns filters c p es os s store S R true t now rnd y m d hh mm ss y' m' d' hh' mm' ss' hash loads n DT CH P T IO V1 T1 V2 T2 Y1 Y2 L HS HA'). }
  unfold StreamRead.gives in G. destruct accepted; [now elim NE|]. destruct G as [cursor ->]. reflexivity.
Qed.
