(** What failing writers left is given to a query (C83). *)
From Coq Require Import Permutation.
From Verif.Base Require Import Py Value.
From Verif.Model Require Import Paths Dates ReadRange Cursor Storage Writers Stream Adapters Reader Collector.
From Verif.Spec Require Import Paths Dates Writers Stream Reader StreamRead StreamField StreamLevels Collector FailingSessions FailingLevels.
From Verif.Spec Require Adapters.
From Verif.Spec Require Import System StreamStore FailingStore Query.
From Verif.Proofs Require FailingSessions FailingLevels FailingField.

Lemma appended_on_in {V} (M : streaming value V) wanted asked es os r :
  In r (appended_on M wanted asked es os) -> exists at_, In (Event (SAppend r at_)) es.
Proof.
  revert os. induction es as [|e es IH]; intros os H; [destruct os; contradiction|].
  destruct os as [|o os]; [destruct e as [[]|]; contradiction|].
  destruct e as [[r' at_| |]|n]; cbn in H.
  - apply in_app_iff in H. destruct H as [H|H].
    + destruct (wanted o && (m_valid M r' && asked at_))%bool; [|contradiction]. destruct H as [<-|[]]. exists at_. now left.
    + destruct (IH _ H) as [a Ha]. exists a. now right.
  - destruct (IH _ H) as [a Ha]. exists a. now right.
  - destruct (IH _ H) as [a Ha]. exists a. now right.
  - destruct (IH _ H) as [a Ha]. exists a. now right.
Qed.

Lemma kept_appended {V} (M : streaming value V) asked x kept r :
  spell_kept M asked x kept -> In r kept -> exists at_, In (Event (SAppend r at_)) (history_of x).
Proof.
  intros K Hr.
  assert (H : In r (returned_on M asked (history_of x) (answers_of x) ++ raised_on M asked (history_of x) (answers_of x))).
  { destruct x; cbn -[history_of answers_of] in K.
    - destruct K as (some & rest & P1 & P2). apply in_app_iff. apply (Permutation_in _ P1) in Hr. apply in_app_iff in Hr.
      destruct Hr as [Hr|Hr]; [now left|right]. apply (Permutation_in _ P2). apply in_app_iff. now left.
    - destruct K as (rest & P). apply (Permutation_in _ P). apply in_app_iff. now left. }
  apply in_app_iff in H. destruct H as [H|H]; eapply appended_on_in; exact H.
Qed.
Lemma wanted_appended {V} (M : streaming value V) wanted asked x kept r :
  wanted_kept M wanted asked x kept -> In r kept -> exists at_, In (Event (SAppend r at_)) (history_of x).
Proof.
  intros K Hr.
  assert (H : In r (filter wanted (returned_on M asked (history_of x) (answers_of x)) ++ filter wanted (raised_on M asked (history_of x) (answers_of x)))).
  { destruct x; cbn -[history_of answers_of] in K.
    - destruct K as (some & rest & P1 & P2). apply in_app_iff. apply (Permutation_in _ P1) in Hr. apply in_app_iff in Hr.
      destruct Hr as [Hr|Hr]; [now left|right]. apply (Permutation_in _ P2). apply in_app_iff. now left.
    - destruct K as (rest & P). apply (Permutation_in _ P). apply in_app_iff. now left. }
  apply in_app_iff in H. destruct H as [H|H]; apply filter_In in H; eapply appended_on_in; exact (proj1 H).
Qed.

Section Given.
  Context (fits : value -> Prop) (image : value -> value) (xs : list spell).
  Context (HF : forall x r at_, In x xs -> In (Event (SAppend r at_)) (history_of x) -> fits r).

  Lemma all_fit (K : spell -> list value -> Prop) kept stored :
    (forall x part r, K x part -> In r part -> exists at_, In (Event (SAppend r at_)) (history_of x)) ->
    Forall2 K xs kept -> Permutation stored (concat kept) -> forall r, In r stored -> fits r.
  Proof.
    intros HK F P r Hr. apply (Permutation_in _ P) in Hr. apply in_concat in Hr. destruct Hr as (part & Hp & Hr).
    clear P stored. revert HF part Hp Hr. induction F as [|x q l kept Hx _ IH]; intros HF part Hp Hr; [contradiction|].
    destruct Hp as [<-|Hp].
    - destruct (HK _ _ _ Hx Hr) as [at_ Ha]. exact (HF x r at_ (or_introl eq_refl) Ha).
    - apply (IH (fun x0 r0 at_ H => HF x0 r0 at_ (or_intror H)) part Hp Hr).
  Qed.

  Lemma found_given (read : (value -> result value) -> (value -> result bool) -> nat -> result (list value)) (stored : list value) :
    (forall columns filters c p, (forall r, In r stored -> fits r /\ applies columns filters c p (image r)) ->
       forall n, read columns filters n = found stored n (filter p (map c (map image stored)))) ->
    (forall r, In r stored -> fits r) -> stored <> [] -> Query.gives read (map image stored).
  Proof.
    intros H FT NE columns filters c p n HA. rewrite (H columns filters c p).
    - destruct stored; [now elim NE|reflexivity].
    - intros r Hr. split; [now apply FT|]. apply HA. now apply in_map.
  Qed.
End Given.

Local Open Scope Z_scope.
Section Failing.
  Context (parse : str -> result value) (unzstd : str -> result str) (other : str -> str -> generator value)
          (fits : value -> Prop) (image : value -> value) {V : Type} (M : streaming value V).
  Context (S : failing_settings parse unzstd other fits image M).

  Lemma spells_given xs w t :
    spells_ran M (mkWorld 0 []) xs w ->
    (forall x r at_, In x xs -> In (Event (SAppend r at_)) (history_of x) -> clock_time at_ /\ fits r) ->
    good_clock (m_base M) (attempts w) ->
    daily_template t -> chronological t -> proper_template (map Date t) ->
    m_template M = template_text t \/ m_template M = template_text (t ++ hour_folders) ->
    forall now rnd y m d hh mm ss y' m' d' hh' mm' ss',
    valid_date y m d -> valid_time hh mm ss -> valid_date y' m' d' -> valid_time hh' mm' ss' -> 1000 <= y -> y' <= 9999 ->
    let start := of_fields y m d hh mm ss in let stop := of_fields y' m' d' hh' mm' ss' in
    start <= stop ->
    forall k s0 s1, Adapters.proper k s0 ->
    (forall date, within (y, m, d) (y', m', d') date ->
       clean_folder (day_folder t date) /\ listing k rnd (range_hours now start stop) (day_folder t date) s0 = []) ->
    stored_as k M (partition_appended M (flat_map history_of xs)) (puts w) s0 s1 ->
    exists kept stored, Forall2 (spell_kept M (within_days (y, m, d) (y', m', d'))) xs kept /\ Permutation stored (concat kept) /\
    (stored <> [] -> forall hash loads, Query.gives (fun columns filters n =>
       records_read (read_selected parse unzstd other columns filters hash loads k now rnd t start stop n s1)) (map image stored)).
  Proof.
    intros RUN HC CL DT CH P T now rnd y m d hh mm ss y' m' d' hh' mm' ss' V1 T1 V2 T2 Y1 Y2 start stop LE k s0 s1 P0 HF ST.
    destruct (FailingSessions.spells_stored parse unzstd other fits image M S xs w RUN
       (fun x r at_ H1 H2 => proj1 (HC x r at_ H1 H2)) CL t DT CH P T
       now rnd y m d hh mm ss y' m' d' hh' mm' ss' V1 T1 V2 T2 Y1 Y2 LE k s0 s1 P0 HF ST) as (kept & stored & K & PM & R).
    exists kept, stored. split; [exact K|]. split; [exact PM|]. intros NE hash loads. apply (found_given fits); [|  |exact NE].
    - intros columns filters c p HA n. exact (R columns filters c p HA hash loads n).
    - refine (all_fit fits xs (fun x r at_ H1 H2 => proj2 (HC x r at_ H1 H2)) _ kept stored _ K PM).
      intros x part r. apply kept_appended.
  Qed.

  Lemma levels_given ls xs w :
    levels_ok ls -> m_template M = stream_template (levels_template ls) ->
    spells_ran M (mkWorld 0 []) xs w ->
    (forall x r at_, In x xs -> In (Event (SAppend r at_)) (history_of x) -> clock_time at_ /\ names_folders M ls r /\ fits r) ->
    good_clock (m_base M) (attempts w) ->
    forall k s0, Adapters.proper k s0 ->
    forall values now rnd y m d hh mm ss y' m' d' hh' mm' ss' s1,
    let t := levels_of values ls in let start := of_fields y m d hh mm ss in let stop := of_fields y' m' d' hh' mm' ss' in
    values_ok ls values -> daily_template t -> chronological t ->
    valid_date y m d -> valid_time hh mm ss -> valid_date y' m' d' -> valid_time hh' mm' ss' -> 1000 <= y -> y' <= 9999 ->
    start <= stop ->
    (forall date, within (y, m, d) (y', m', d') date ->
       clean_folder (day_folder t date) /\ listing k rnd (range_hours now start stop) (day_folder t date) s0 = []) ->
    stored_as k M (partition_appended M (flat_map history_of xs)) (puts w) s0 s1 ->
    exists kept stored, Forall2 (wanted_kept M (has_texts M ls values) (within_days (y, m, d) (y', m', d'))) xs kept /\ Permutation stored (concat kept) /\
    (stored <> [] -> forall hash loads, Query.gives (fun columns filters n =>
       records_read (read_asked parse unzstd other columns filters hash loads k now rnd t None start stop n s1)) (map image stored)).
  Proof.
    intros OK T RUN HC CL k s0 P0 values now rnd y m d hh mm ss y' m' d' hh' mm' ss' s1 t start stop VO DT CH V1 T1 V2 T2 Y1 Y2 LE HF ST.
    assert (HN : forall x r at_, In x xs -> In (Event (SAppend r at_)) (history_of x) -> clock_time at_ /\ names_folders M ls r).
    { intros x r at_ H1 H2. destruct (HC x r at_ H1 H2) as (A & B & _). now split. }
    destruct (FailingLevels.levels_spells_stored parse unzstd other fits image M S ls OK T xs w RUN HN k s0 CL P0
       values now rnd y m d hh mm ss y' m' d' hh' mm' ss' s1 VO DT CH V1 T1 V2 T2 Y1 Y2 LE HF ST) as (kept & stored & K & PM & R).
    exists kept, stored. split; [exact K|]. split; [exact PM|]. intros NE hash loads. apply (found_given fits); [|  |exact NE].
    - intros columns filters c p HA n. exact (R columns filters c p HA hash loads n).
    - refine (all_fit fits xs (fun x r at_ H1 H2 => proj2 (proj2 (HC x r at_ H1 H2))) _ kept stored _ K PM).
      intros x part r. apply wanted_appended.
  Qed.

  Lemma value_given t F xs w :
    daily_template t -> chronological t -> proper_template (map Date t) -> field_name F ->
    m_template M = stream_template (field_template t F) ->
    spells_ran M (mkWorld 0 []) xs w ->
    (forall x r at_, In x xs -> In (Event (SAppend r at_)) (history_of x) -> clock_time at_ /\ texts_differ M F r /\ fits r) ->
    good_clock (m_base M) (attempts w) ->
    forall k s0, Adapters.proper k s0 ->
    forall op v now rnd y m d hh mm ss y' m' d' hh' mm' ss' s1,
    let start := of_fields y m d hh mm ss in let stop := of_fields y' m' d' hh' mm' ss' in
    In op [$"="; $"=="] -> contains $"BACKOUT" (kept_text v) = false ->
    valid_date y m d -> valid_time hh mm ss -> valid_date y' m' d' -> valid_time hh' mm' ss' -> 1000 <= y -> y' <= 9999 ->
    start <= stop ->
    (forall date, within (y, m, d) (y', m', d') date ->
       clean_folder (day_folder t date) /\ listing k rnd (range_hours now start stop) (day_folder t date) s0 = []) ->
    stored_as k M (partition_appended M (flat_map history_of xs)) (puts w) s0 s1 ->
    exists kept stored, Forall2 (wanted_kept M (has_text M F (kept_text v)) (within_days (y, m, d) (y', m', d'))) xs kept /\ Permutation stored (concat kept) /\
    (stored <> [] -> forall hash loads, Query.gives (fun columns filters n =>
       records_read (read_asked parse unzstd other columns filters hash loads k now rnd t (Some (F, op, v)) start stop n s1)) (map image stored)).
  Proof.
    intros DT CH P FN T RUN HC CL k s0 P0 op v now rnd y m d hh mm ss y' m' d' hh' mm' ss' s1 start stop OP BO V1 T1 V2 T2 Y1 Y2 LE HF ST.
    assert (HN : forall x r at_, In x xs -> In (Event (SAppend r at_)) (history_of x) -> clock_time at_ /\ texts_differ M F r).
    { intros x r at_ H1 H2. destruct (HC x r at_ H1 H2) as (A & B & _). now split. }
    destruct (FailingField.value_spells_stored parse unzstd other fits image M S t F DT CH P FN T xs w RUN HN k s0 CL P0
       op v now rnd y m d hh mm ss y' m' d' hh' mm' ss' s1 OP BO V1 T1 V2 T2 Y1 Y2 LE HF ST) as (kept & stored & K & PM & R).
    exists kept, stored. split; [exact K|]. split; [exact PM|]. intros NE hash loads. apply (found_given fits); [|  |exact NE].
    - intros columns filters c p HA n. exact (R columns filters c p HA hash loads n).
    - refine (all_fit fits xs (fun x r at_ H1 H2 => proj2 (proj2 (HC x r at_ H1 H2))) _ kept stored _ K PM).
      intros x part r. apply wanted_appended.
  Qed.
End Failing.
