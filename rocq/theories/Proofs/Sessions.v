(** Proofs about stream writers one after the other. *)
From Coq Require Import Sorted.
From Verif.Base Require Import Py PyFacts Value.
From Verif.Model Require Import Paths Dates Frames ReadRange Cursor Storage Writers Stream Reader.
From Verif.Spec Require Import Paths Dates Frames Cursor Json Writers Stream Reader StreamRead.
From Verif.Proofs Require Import Dates Writers Stream StreamPaths StreamPool StreamRead StreamRange.
From Verif.Proofs Require ReadRange Reader.
Local Open Scope Z_scope.

Lemma Forall2_firstn {A B} (Q : A -> B -> Prop) n : forall a b, Forall2 Q a b -> Forall2 Q (firstn n a) (firstn n b).
Proof. induction n as [|n IH]; intros a b F; [constructor|]. destruct F; cbn; constructor; auto. Qed.
Lemma combine_firstn {A B} n : forall (a : list A) (b : list B), firstn n (combine a b) = combine (firstn n a) (firstn n b).
Proof. induction n as [|n IH]; intros [|x a] [|y b]; cbn; auto. now rewrite IH. Qed.
Lemma firstn_seq n : forall k m, firstn n (seq k m) = seq k (Nat.min n m).
Proof. induction n as [|n IH]; intros k [|m]; cbn; auto. now rewrite IH. Qed.

Section Sessions.
  Context {V : Type} (M : streaming value V).
  Hypothesis RE : reliable (m_base M).

  Lemma timed_cut blobs w n : timed M blobs w -> (n <= length (puts w))%nat ->
    timed M (firstn n blobs) (mkWorld n (firstn n (puts w))).
  Proof.
    intros (A & F & N) L. assert (LB : length blobs = length (puts w)).
    { clear -F. induction F; cbn; congruence. }
    split; [cbn; rewrite firstn_length; lia|]. split; [cbn; now apply Forall2_firstn|].
    cbn [puts]. rewrite <- firstn_map, N, firstn_map, combine_firstn, firstn_seq, firstn_length. reflexivity.
  Qed.

  Definition left_by (x : session) (new : list (str * list value)) : Prop :=
    match x with
    | Finished es os => forall id, stored_for id new = sent M (es ++ [SFinalize]) os id
    | Killed es os => forall id, exists lost, stored_for id new ++ lost = sent M (es ++ [SFinalize]) os id
    end.
  Lemma sessions_timed w xs w' : sessions_ran M w xs w' -> forall bl, timed M bl w ->
    exists news, timed M (bl ++ concat news) w' /\ Forall2 left_by xs news.
  Proof.
    induction 1 as [w|w k es os s xs w' E H IH|w k es os s n xs w' E L H IH]; intros bl TM.
    - exists []. cbn. rewrite app_nil_r. split; [exact TM|constructor].
    - destruct (timed_after M RE bl w k es os s TM E) as (new & T1 & S1).
      destruct (IH _ T1) as (news & T2 & F). exists (new :: news). cbn [concat]. rewrite app_assoc.
      split; [exact T2|constructor; auto].
    - destruct (timed_after M RE bl w k es os s TM E) as (new & T1 & S1).
      assert (LB : length bl = length (puts w)).
      { destruct TM as (_ & F & _). clear -F. induction F; cbn; congruence. }
      destruct (IH _ (timed_cut _ _ n T1 (proj2 L))) as (news & T2 & F).
      rewrite firstn_app, firstn_all2 in T2 by lia.
      exists (firstn (n - length bl) new :: news). cbn [concat]. rewrite app_assoc.
      split; [exact T2|]. constructor; auto. intros id.
      exists (stored_for id (skipn (n - length bl) new)).
      rewrite <- stored_for_app, firstn_skipn. apply S1.
  Qed.
End Sessions.

Section Read.
  Context (parse : str -> result value) (unzstd : str -> result str)
          (other : str -> str -> generator value) (read_blob : str -> result str).
  Context (fits : value -> Prop) (image : value -> value).
  Context {V : Type} (M : streaming value V).
  Context (columns : value -> result value) (filters : value -> result bool) (cf : value -> value) (pf : value -> bool).
  Notation records := (blob_records parse unzstd other read_blob columns filters None).
  Notation selected l := (filter pf (map cf (map image l))).
  Context (xs : list session) (w : world) (store : str -> list str).
  Hypothesis HM : stream_settings parse unzstd other fits image M.
  Hypothesis RN : sessions_ran M (mkWorld 0 []) xs w.
  Hypothesis HC : forall x r at_, In x xs -> In (SAppend r at_) (asked_of x) -> clock_time at_.
  Hypothesis CL : good_clock (m_base M) (attempts w).
  Hypothesis RL : reads_log read_blob (puts w).

  Lemma stored_for_concat (news : list (list (str * list value))) id : stored_for id (concat news) = concat (map (stored_for id) news).
  Proof. induction news as [|a l IH]; [reflexivity|]. cbn [concat map]. now rewrite stored_for_app, IH. Qed.

  Lemma sessions_days t now rnd y m d hh mm ss y' m' d' hh' mm' ss' :
    daily_template t -> proper_template (map Date t) -> m_template M = template_text t ->
    valid_date y m d -> valid_time hh mm ss -> valid_date y' m' d' -> valid_time hh' mm' ss' ->
    of_fields y m d hh mm ss <= of_fields y' m' d' hh' mm' ss' ->
    (forall date, within (y, m, d) (y', m', d') date ->
       clean_folder (day_folder t date) /\ lists_folder store (puts w) (day_folder t date)) ->
    (forall a b, within (y, m, d) (y', m', d') a -> within (y, m, d) (y', m', d') b ->
       length (day_folder t a) = length (day_folder t b) /\
       (day_lt a b -> str_compare (day_folder t a) (day_folder t b) = Lt)) ->
    exists days kept, consecutive days /\ hd_error days = Some (y, m, d) /\ last days (y', m', d') = (y', m', d') /\
    Forall2 (fun x of_day => forall date, In date days -> remains M x date (of_day date)) xs kept /\
    let wanted := flat_map (fun date => flat_map (fun of_day => of_day date) kept) days in
    ((forall r, In r wanted -> fits r /\ applies columns filters cf pf (image r)) ->
    forall hash loads n, gives wanted (firstn n (selected wanted)) (read_records hash loads
      (fun _ => list_range None store now rnd (template_text t ++ $"/") (of_fields y m d hh mm ss) (of_fields y' m' d' hh' mm' ss'))
      0 records NoCursor n)).
  Proof.
    intros DT P T V1 T1 V2 T2 L HF HO.
    destruct (ReadRange.range_each_day_once None store now rnd t y m d hh mm ss y' m' d' hh' mm' ss' DT V1 T1 V2 T2 L)
      as (days & C & Hd & Hl & _ & E).
    assert (Hl' : last days (y', m', d') = (y', m', d')).
    { rewrite <- Hl at 2. apply last_any. intros ->. discriminate. }
    apply valid_date_spec in V1.
    pose proof (consecutive_valid days C _ Hd V1) as HV.
    assert (HI : forall x, In x days -> within (y, m, d) (y', m', d') x).
    { intros x Hx. split; [specialize (HV x Hx); destruct x as [[? ?] ?]; now apply valid_date_spec|].
      apply (consecutive_all days C (y, m, d) (y', m', d') Hd V1 x (HV x Hx)) in Hx. rewrite Hl' in Hx.
      now apply andb_prop in Hx. }
    destruct HM as (A1 & A2 & A3 & A4 & A5).
    destruct (sessions_timed M A5 _ _ _ RN [] (timed_nothing M)) as (news & TM & F). cbn [app] in TM.
    assert (T' : m_template M = template_text (t ++ sub false)) by (cbn [sub]; now rewrite app_nil_r).
    exists days, (map (fun new date => stored_for (day_folder t date) new) news).
    split; [exact C|]. split; [exact Hd|]. split; [exact Hl'|].
    assert (SA : forall date es os, In date days -> (forall r at_, In (SAppend r at_) es -> clock_time at_) ->
       sent M (es ++ [SFinalize]) os (day_folder t date) = accepted_on M (on_day date) es os).
    { intros date es os Hdate HCe.
      pose proof (sent_accepted t false DT P M A4 T' date None (fun _ => true) (HV date Hdate)) as Q.
      unfold id_of in Q. rewrite app_nil_r in Q. rewrite Q.
      - rewrite !accepted_on_pairs. f_equal. apply filter_ext. intros x. apply andb_true_r.
      - left. reflexivity.
      - exact HCe. }
    split.
    { clear -F HC SA. revert HC SA. induction F as [|x new xs news H F IH]; intros HC SA; cbn [map]; constructor.
      - intros date Hdate. assert (HCx : forall r at_, In (SAppend r at_) (asked_of x) -> clock_time at_)
          by (intros r at_; apply (HC x); left; auto).
        destruct x as [es os|es os]; cbn [left_by remains asked_of] in *.
        + rewrite H. now apply SA.
        + destruct (H (day_folder t date)) as (lost & Q). exists lost. rewrite Q. now apply SA.
      - apply IH; auto. intros x' r at_ Hx. apply (HC x'). right; auto. }
    intros wanted HR hash loads n.
    assert (W : wanted = flat_map (fun id => stored_for id (concat news)) (ids (map (day_folder t) days) (keys_of false))).
    { unfold wanted, ids. cbn [keys_of]. rewrite flat_map_flat, flat_map_map. apply flat_map_same. intros date _.
      cbn [map flat_map]. unfold id_of. rewrite !app_nil_r, stored_for_concat, flat_map_concat_map, map_map. reflexivity. }
    rewrite W in *. clear wanted W.
    rewrite E. apply (days_stored parse unzstd other read_blob M t false columns filters cf pf fits image A1 A2 A3 DT P T'
                days (concat news) w store hash loads n); auto.
    - intros b Hb Nb. apply in_concat in Hb as (new & Hn & Hb).
      assert (G : exists x, In x xs /\ left_by M x new).
      { clear -F Hn. induction F as [|x a xs l H F IH]; [destruct Hn|]. destruct Hn as [<-|Hn].
        - exists x. split; [left; auto|exact H].
        - destruct (IH Hn) as (x' & I & Q). exists x'. split; [right; auto|exact Q]. }
      destruct G as (x & Hx & Q).
      apply (sent_places M t false A4 P T' (asked_of x) (match x with Finished _ os | Killed _ os => os end) b Nb).
      + intros r at_. now apply HC.
      + intros r Hr. pose proof (in_stored_for b new r Hb Hr) as I. destruct x as [es os|es os]; cbn [left_by asked_of] in *.
        * now rewrite <- Q.
        * destruct (Q (fst b)) as (lost & Q'). rewrite <- Q'. apply in_app_iff. auto.
    - apply (sorted_map _ day_lt); [|now apply consecutive_sorted]. intros a b Ha Hb. apply HO; now apply HI.
    - intros a b Ha Hb. apply HO; now apply HI.
  Qed.

  Lemma sessions_ordered t now rnd y m d hh mm ss y' m' d' hh' mm' ss' :
    daily_template t -> chronological t -> proper_template (map Date t) -> m_template M = template_text t ->
    valid_date y m d -> valid_time hh mm ss -> valid_date y' m' d' -> valid_time hh' mm' ss' -> 1000 <= y -> y' <= 9999 ->
    of_fields y m d hh mm ss <= of_fields y' m' d' hh' mm' ss' ->
    (forall date, within (y, m, d) (y', m', d') date ->
       clean_folder (day_folder t date) /\ lists_folder store (puts w) (day_folder t date)) ->
    exists days kept, consecutive days /\ hd_error days = Some (y, m, d) /\ last days (y', m', d') = (y', m', d') /\
    Forall2 (fun x of_day => forall date, In date days -> remains M x date (of_day date)) xs kept /\
    let wanted := flat_map (fun date => flat_map (fun of_day => of_day date) kept) days in
    ((forall r, In r wanted -> fits r /\ applies columns filters cf pf (image r)) ->
    forall hash loads n, gives wanted (firstn n (selected wanted)) (read_records hash loads
      (fun _ => list_range None store now rnd (template_text t ++ $"/") (of_fields y m d hh mm ss) (of_fields y' m' d' hh' mm' ss'))
      0 records NoCursor n)).
  Proof.
    intros DT CH P T V1 T1 V2 T2 Y1 Y2 L HF. apply sessions_days; auto.
    intros a b Ha Hb. destruct (within_four _ _ _ _ _ _ a Y1 Y2 Ha) as [Va Fa]. destruct (within_four _ _ _ _ _ _ b Y1 Y2 Hb) as [Vb Fb].
    rewrite !day_folder_fill by exact P. now apply fills_lt.
  Qed.

  Lemma sessions_one_day t now rnd y m d hh mm ss hh' mm' ss' :
    daily_template t -> proper_template (map Date t) -> m_template M = template_text t ->
    valid_date y m d -> valid_time hh mm ss -> valid_time hh' mm' ss' ->
    of_fields y m d hh mm ss <= of_fields y m d hh' mm' ss' ->
    clean_folder (day_folder t (y, m, d)) -> lists_folder store (puts w) (day_folder t (y, m, d)) ->
    exists kept, Forall2 (fun x => remains M x (y, m, d)) xs kept /\
    let wanted := concat kept in
    ((forall r, In r wanted -> fits r /\ applies columns filters cf pf (image r)) ->
    forall hash loads n, gives wanted (firstn n (selected wanted)) (read_records hash loads
      (fun _ => list_range None store now rnd (template_text t ++ $"/") (of_fields y m d hh mm ss) (of_fields y m d hh' mm' ss'))
      0 records NoCursor n)).
  Proof.
    intros DT P T V1 T1 T2 L Cl LF.
    assert (W : forall date, within (y, m, d) (y, m, d) date -> date = (y, m, d)).
    { intros date (_ & A & B). apply date_leb_spec in A, B. destruct A as [A|A]; auto. destruct B as [B|B]; auto.
      destruct date as [[a b] c]. unfold day_lt in *. lia. }
    destruct (sessions_days t now rnd y m d hh mm ss y m d hh' mm' ss') as (days & kept & C & Hd & Hl & F & Q); auto.
    - intros date Hw. apply W in Hw. subst. auto.
    - intros a b Ha Hb. apply W in Ha, Hb. subst. split; [reflexivity|]. unfold day_lt. lia.
    - assert (E : days = [(y, m, d)]).
      { pose proof (consecutive_sorted days C) as S. destruct days as [|x l]; [discriminate|]. injection Hd as ->.
        destruct l as [|x' l]; auto. exfalso. apply StronglySorted_inv in S as [_ Fa]. rewrite Forall_forall in Fa.
        assert (I : In (y, m, d) (x' :: l)).
        { change (last ((y, m, d) :: x' :: l) (y, m, d)) with (last (x' :: l) (y, m, d)) in Hl.
          destruct (exists_last (l := x' :: l)) as (p & v & Ep); [discriminate|]. rewrite Ep in *. rewrite last_last in Hl. subst.
          apply in_app_iff. right. left. reflexivity. }
        apply Fa in I. unfold day_lt in I. lia. }
      subst days. cbn [flat_map] in Q. rewrite app_nil_r, flat_map_concat_map in Q.
      exists (map (fun of_day => of_day (y, m, d)) kept). split; [|exact Q].
      clear -F. induction F as [|x k xs kept H F IH]; cbn [map]; constructor; auto. apply H. left. reflexivity.
  Qed.
End Read.
