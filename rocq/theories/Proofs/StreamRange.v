(** Proofs: reading ranges of days of what a stream writer stored. *)
From Coq Require Import Sorted Permutation.
From Verif.Base Require Import Py PyFacts Value ValueFacts.
From Verif.Model Require Import Paths Dates Frames ReadRange Cursor Storage Writers Stream Reader.
From Verif.Spec Require Import Paths Dates Frames Cursor Json Writers Stream Reader StreamRead.
From Verif.Proofs Require Import Paths Dates Writers Stream StreamPaths StreamPool StreamRead.
From Verif.Proofs Require ReadRange BatchFolder.
Local Open Scope Z_scope.

(** ** Days in order *)
Definition day_lt (a b : Z * Z * Z) : Prop :=
  let '(y, m, d) := a in let '(y', m', d') := b in y < y' \/ y = y' /\ (m < m' \/ m = m' /\ d < d').
Lemma day_lt_trans a b c : day_lt a b -> day_lt b c -> day_lt a c.
Proof. destruct a as [[y m] d], b as [[y' m'] d'], c as [[y'' m''] d'']. unfold day_lt. lia. Qed.
Lemma date_leb_spec a b : date_leb a b = true <-> a = b \/ day_lt a b.
Proof.
  destruct a as [[y m] d], b as [[y' m'] d']. unfold date_leb, day_lt.
  rewrite orb_true_iff, !andb_true_iff, orb_true_iff, andb_true_iff, !Z.ltb_lt, !Z.eqb_eq, Z.leb_le. split.
  - intros [H|[-> [H|[-> H]]]]; [right; auto|right; auto|].
    destruct (Z.eq_dec d d') as [->|N]; [left; auto|right; right; split; auto; right; split; auto; lia].
  - intros [[= -> -> ->]|[H|[-> [H|[-> H]]]]]; try tauto; right; split; auto; right; split; auto; lia.
Qed.
Lemma next_valid a b : valid_day a -> next_day a b -> valid_day b.
Proof.
  intros V N. destruct N as [y m d Hv|y m d Hm L|y].
  - apply valid_date_spec in Hv. exact Hv.
  - destruct V as (Hy & Hm' & Hd). pose proof (dim_bounds y (m + 1)). repeat split; lia.
  - destruct V as (Hy & _). pose proof (dim_bounds (y + 1) 1). repeat split; lia.
Qed.
Lemma next_lt a b : next_day a b -> day_lt a b.
Proof. intros N. destruct N; unfold day_lt; lia. Qed.
(** no day is left out *)
Lemma next_tight a b x : valid_day a -> next_day a b -> valid_day x -> day_lt a x -> x = b \/ day_lt b x.
Proof.
  intros Va N Vx L. destruct x as [[u v] w]. destruct N as [y m d Hv|y m d Hm Lt|y]; unfold day_lt in *.
  - assert (K : (u = y /\ v = m /\ w = d + 1) \/ (y < u \/ y = u /\ (m < v \/ m = v /\ d + 1 < w))) by lia.
    destruct K as [(-> & -> & ->)|K]; [left; reflexivity|right; exact K].
  - apply month_length_spec in Hm as [_ Hm]. destruct Vx as (X1 & X2 & X3).
    assert (K : u = y -> v = m -> w <= d) by (intros -> ->; lia).
    assert (K' : (u = y /\ v = m + 1 /\ w = 1) \/ (y < u \/ y = u /\ (m + 1 < v \/ m + 1 = v /\ 1 < w))).
    { destruct (Z.eq_dec u y), (Z.eq_dec v m); lia. }
    destruct K' as [(-> & -> & ->)|K']; [left; reflexivity|right; exact K'].
  - destruct Vx as (X1 & X2 & X3). pose proof (dim_bounds u v X2).
    assert (K' : (u = y + 1 /\ v = 1 /\ w = 1) \/ (y + 1 < u \/ y + 1 = u /\ (1 < v \/ 1 = v /\ 1 < w))) by lia.
    destruct K' as [(-> & -> & ->)|K']; [left; reflexivity|right; exact K'].
Qed.
Lemma consecutive_valid days : consecutive days -> forall a, hd_error days = Some a -> valid_day a -> forall x, In x days -> valid_day x.
Proof.
  induction 1 as [d|d d' l N C IH]; intros a [= <-] V x.
  - intros [<-|[]]. exact V.
  - intros [<-|H]; [exact V|]. apply (IH d' eq_refl); auto. eapply next_valid; eauto.
Qed.
Lemma consecutive_sorted days : consecutive days -> StronglySorted day_lt days.
Proof.
  induction 1 as [d|d d' l N C IH]; [repeat constructor|]. constructor; [exact IH|].
  apply StronglySorted_inv in IH as [_ F]. apply next_lt in N. constructor; [exact N|].
  eapply Forall_impl; [|exact F]. intros x. apply day_lt_trans. exact N.
Qed.
Lemma last_ge days : StronglySorted day_lt days -> forall x z, In x days -> x = last days z \/ day_lt x (last days z).
Proof.
  induction 1 as [|a l S IH F]; intros x z; [intros []|]. destruct l as [|b l].
  - intros [<-|[]]. left. reflexivity.
  - change (last (a :: b :: l) z) with (last (b :: l) z). intros [<-|H]; [|auto]. right.
    rewrite Forall_forall in F. apply F. destruct (exists_last (l := b :: l)) as (p & w & E); [discriminate|].
    rewrite E, last_last. apply in_app_iff. right. left. reflexivity.
Qed.
Lemma consecutive_all days : consecutive days -> forall a z, hd_error days = Some a -> valid_day a ->
  forall x, valid_day x -> (In x days <-> date_leb a x && date_leb x (last days z) = true).
Proof.
  intros C a z Ha Va x Vx. rewrite andb_true_iff, !date_leb_spec. split.
  - intros H. pose proof (consecutive_sorted days C) as S. split.
    + destruct days as [|d l]; [destruct H|]. injection Ha as ->. destruct H as [->|H]; [left; auto|right].
      apply StronglySorted_inv in S as [_ F]. rewrite Forall_forall in F. now apply F.
    + now apply last_ge.
  - revert a Ha Va. induction C as [d|d d' l N C IH]; intros a [= <-] Va [H1 H2].
    + cbn [last] in H2. left. destruct H1 as [->|H1]; auto. destruct H2 as [->|H2]; auto. exfalso.
      pose proof (day_lt_trans _ _ _ H1 H2) as Q. destruct d as [[y m] d]. unfold day_lt in Q. lia.
    + destruct H1 as [->|H1]; [left; reflexivity|right].
      apply (IH d' eq_refl); [eapply next_valid; eauto|]. split; [|exact H2].
      destruct (next_tight d d' x Va N Vx H1) as [->|Q]; [left|right]; auto.
Qed.

(** ** The folders of templates which write the year, then the month, then the day *)
Lemma dec_four n : (1000 <= n < 10000)%N -> dec n = dec_pad 4 n.
Proof.
  intros H. assert (L : length (dec n) = 4%nat).
  { pose proof (dec_length_bound n 4 ltac:(lia)) as L. change (10 ^ N.of_nat 4)%N with 10000%N in L. specialize (L ltac:(lia)).
    destruct (Nat.eq_dec (length (dec n)) 4) as [K|K]; [exact K|]. exfalso.
    pose proof (undec_dec_pad 0 n) as U. unfold dec_pad, pad_left in U. cbn [Nat.sub repeat app] in U.
    unfold undec in U. destruct (dec n) as [|c s] eqn:E; [discriminate|].
    apply BatchFolder.undec_acc_bounds in U.
    assert (Q : (10 ^ N.of_nat (length (c :: s)) <= 10 ^ 3)%N) by (apply N.pow_le_mono_r; lia).
    change (10 ^ 3)%N with 1000%N in Q. lia. }
  unfold dec_pad, pad_left. rewrite L. reflexivity.
Qed.
Definition four_digits (date : Z * Z * Z) : Prop := let '(y, _, _) := date in 1000 <= y <= 9999.
Definition in_width (at_ : moment) : Prop :=
  (1000 <= year at_ < 10000 /\ month at_ < 100 /\ day at_ < 100 /\ hour at_ < 100 /\ minute at_ < 100 /\ second at_ < 100)%N.
Lemma two_wide n : (n < 100)%N -> length (dec_pad 2 n) = 2%nat.
Proof. intros H. apply dec_pad_length; [lia|exact H]. Qed.
Lemma value_width a b g : in_width a -> in_width b -> length (seg_value a g) = length (seg_value b g).
Proof.
  intros (A1 & A2 & A3 & A4 & A5 & A6) (B1 & B2 & B3 & B4 & B5 & B6).
  assert (F : forall n, (1000 <= n < 10000)%N -> length (dec n) = 4%nat).
  { intros n Hn. rewrite dec_four by exact Hn. apply dec_pad_length; [lia|]. change (10 ^ N.of_nat 4)%N with 10000%N. lia. }
  destruct g; cbn [seg_value]; rewrite ?two_wide, ?F by assumption; reflexivity.
Qed.
Lemma fill_width a b t : in_width a -> in_width b -> length (fill t a) = length (fill t b).
Proof.
  intros A B. unfold fill. induction t as [|g t IH]; [reflexivity|]. cbn [map concat]. rewrite !app_length, IH. f_equal. now apply value_width.
Qed.
Lemma fill_cmp a b t pre g post : in_width a -> in_width b -> t = pre ++ g :: post ->
  (forall x, In x pre -> seg_value a x = seg_value b x) -> str_compare (seg_value a g) (seg_value b g) = Lt ->
  str_compare (fill t a) (fill t b) = Lt.
Proof.
  intros A B -> E L. unfold fill. rewrite !map_app, !concat_app, !map_cons. cbn [concat].
  rewrite (map_ext_in _ (seg_value b) pre) by exact E. rewrite str_compare_prefix.
  rewrite str_compare_app; auto. now apply value_width.
Qed.
Lemma day_width y m d : valid_day (y, m, d) -> four_digits (y, m, d) -> in_width (midnight (y, m, d)).
Proof.
  intros (V1 & V2 & V3) F. pose proof (dim_bounds y m V2). unfold four_digits in F. unfold in_width, midnight. cbn [year month day hour minute second]. lia.
Qed.
Lemma fills_lt t : chronological t -> forall a b, valid_day a -> valid_day b -> four_digits a -> four_digits b ->
length (fill t (midnight a)) = length (fill t (midnight b)) /\
(day_lt a b -> str_compare (fill t (midnight a)) (fill t (midnight b)) = Lt).
Proof.
  intros (pa & pb & pc & rest & Et & Na & Nb & Nc) [[y m] d] [[y' m'] d'] Va Vb Fa Fb.
  pose proof (day_width y m d Va Fa) as Wa. pose proof (day_width y' m' d' Vb Fb) as Wb.
  split; [now apply fill_width|]. intros L.
  destruct Va as (V1 & V2 & V3), Vb as (W1 & W2 & W3). pose proof (dim_bounds y m V2). pose proof (dim_bounds y' m' W2). unfold four_digits in *.
  assert (T : forall n n', (n < n')%N -> (n' < 100)%N -> str_compare (dec_pad 2 n) (dec_pad 2 n') = Lt).
  { intros n n' Hl Hn. apply BatchFolder.dec_pad_lt; [lia|exact Hl|exact Hn]. }
  assert (Same : forall x, (In x [Year] -> y = y') -> (In x [Month] -> m = m') -> (In x [Day] -> d = d') ->
                 seg_value (midnight (y, m, d)) x = seg_value (midnight (y', m', d')) x).
  { intros x H1 H2 H3. destruct x; cbn [seg_value midnight year month day hour minute second]; try reflexivity;
      [rewrite H1|rewrite H2|rewrite H3]; try reflexivity; now left. }
  destruct L as [L|[<- [L|[<- L]]]].
  - apply (fill_cmp _ _ _ pa Year (pb ++ Month :: pc ++ Day :: rest)); auto.
    + intros x Hx. apply Same; intros [<-|[]]; exfalso; (eapply Na; [|exact Hx]); cbn; tauto.
    + cbn [seg_value midnight year]. rewrite !dec_four by lia. apply BatchFolder.dec_pad_lt; [lia|lia|]. change (10 ^ N.of_nat 4)%N with 10000%N. lia.
  - apply (fill_cmp _ _ _ (pa ++ Year :: pb) Month (pc ++ Day :: rest)); auto.
    + rewrite Et, <- app_assoc. reflexivity.
    + intros x Hx. apply in_app_iff in Hx as [Hx|[<-|Hx]]; (apply Same; [reflexivity|..]); intros [Q|[]]; try discriminate Q; subst x; exfalso;
        ((eapply Na; [|exact Hx]) || (eapply Nb; [|exact Hx])); cbn; tauto.
    + cbn [seg_value midnight month]. apply T; lia.
  - apply (fill_cmp _ _ _ (pa ++ Year :: pb ++ Month :: pc) Day rest); auto.
    + rewrite Et, <- app_assoc. cbn [app]. rewrite <- app_assoc. reflexivity.
    + intros x Hx. apply in_app_iff in Hx as [Hx|[<-|Hx]]; [..|apply in_app_iff in Hx as [Hx|[<-|Hx]]]; (apply Same; [reflexivity|reflexivity|]); intros [Q|[]];
        try discriminate Q; subst x; exfalso; try exact (Nc Hx); ((eapply Na; [|exact Hx]) || (eapply Nb; [|exact Hx])); cbn; tauto.
    + cbn [seg_value midnight day]. apply T; lia.
Qed.

(** ** One day after another, one hour after another *)
Section Order.
  Context {R V : Type} (M : streaming R V).
  Fixpoint accepted_pairs (es : list event) (os : list (result nat)) : list (R * moment) :=
    match es, os with
    | SAppend r at_ :: es', Ok _ :: os' => (if m_valid M r then [(r, at_)] else []) ++ accepted_pairs es' os'
    | _ :: es', _ :: os' => accepted_pairs es' os'
    | _, _ => []
    end.
  Lemma accepted_on_pairs asked es : forall os,
    accepted_on M asked es os = map fst (filter (fun x => asked (snd x)) (accepted_pairs es os)).
  Proof.
    induction es as [|e es IH]; intros [|o os]; try (destruct e; reflexivity); try reflexivity.
    destruct e as [r at_| |]; cbn [accepted_on accepted_pairs]; auto. destruct o; auto. rewrite IH, filter_app, map_app. f_equal.
    destruct (m_valid M r); cbn [andb filter snd]; [|reflexivity]. destruct (asked at_); reflexivity.
  Qed.
  Lemma pairs_moment es : forall os x, In x (accepted_pairs es os) -> In (SAppend (fst x) (snd x)) es.
  Proof.
    induction es as [|e es IH]; intros [|o os] x H; try (destruct e; destruct H); try destruct H.
    destruct e as [r at_| |]; cbn [accepted_pairs] in H; try (right; eapply IH; eassumption).
    destruct o; [|right; eapply IH; eassumption]. apply in_app_iff in H as [H|H]; [|right; eapply IH; eassumption].
    destruct (m_valid M r); [|destruct H]. destruct H as [<-|[]]. left. reflexivity.
  Qed.
  Lemma moments_In es at_ : In at_ (moments es) <-> exists r : R, In (SAppend r at_) es.
  Proof.
    induction es as [|e es IH]; [split; [intros []|intros (r & [])]|]. destruct e as [r a| |]; cbn [moments In]; rewrite ?IH; split.
    - intros [->|(r' & H)]; [exists r; left; auto|exists r'; right; auto].
    - intros (r' & [[= _ ->]|H]); [left; auto|right; eauto].
    - intros (r' & H). eauto.
    - intros (r' & [H|H]); [discriminate|eauto].
    - intros (r' & H). eauto.
    - intros (r' & [H|H]); [discriminate|eauto].
  Qed.
  Lemma pairs_sorted es : forall os, in_order es -> StronglySorted (fun x y => ~ before (snd y) (snd x)) (accepted_pairs es os).
  Proof.
    unfold in_order. induction es as [|e es IH]; intros [|o os] S; try (destruct e; constructor); try constructor.
    destruct e as [r at_| |]; cbn [accepted_pairs moments] in *; auto.
    apply StronglySorted_inv in S as [S F]. destruct o; auto. destruct (m_valid M r); [|apply IH, S].
    cbn [app]. constructor; [apply IH, S|]. apply Forall_forall. intros x Hx. rewrite Forall_forall in F. apply F.
    apply moments_In. exists (fst x). eapply pairs_moment; eauto.
  Qed.
End Order.

Lemma classes_in_order {A} (ok : A -> Prop) (bef : A -> A -> Prop) (cs : list (A -> bool)) (L : list A) :
  (forall a, ~ bef a a) -> (forall a, In a L -> ok a) ->
  StronglySorted (fun a b => ~ bef b a) L ->
  StronglySorted (fun c c' => forall a b, ok a -> ok b -> c a = true -> c' b = true -> bef a b) cs ->
  flat_map (fun c : A -> bool => filter c L) cs = filter (fun x => existsb (fun c : A -> bool => c x) cs) L.
Proof.
  intros Irr HO HS. induction 1 as [|c cs S IH F].
  - cbn. induction L; cbn; auto. apply IHL; [intros; apply HO; right; auto|]. now apply StronglySorted_inv in HS.
  - cbn [flat_map existsb]. rewrite IH. clear IH S. induction HS as [|x L S IH G]; [reflexivity|].
    rewrite Forall_forall in F, G.
    assert (IH' := IH (fun a H => HO a (or_intror H))). clear IH. cbn [filter].
    destruct (existsb (fun c0 => c0 x) cs) eqn:E.
    + apply existsb_exists in E as (c' & Hc' & E).
      assert (Nx : c x = false).
      { apply not_true_iff_false. intros C. apply (Irr x). apply (F c' Hc'); auto; apply HO; left; auto. }
      rewrite Nx. cbn [orb].
      assert (N : filter c L = []).
      { destruct (filter c L) as [|y l] eqn:Ey; auto. exfalso. assert (Hy : In y (filter c L)) by (rewrite Ey; left; auto).
        apply filter_In in Hy as [Hy Cy]. apply (G y Hy). apply (F c' Hc' y x); auto; apply HO; [right|left]; auto. }
      rewrite N in *. cbn [app] in *. now rewrite IH'.
    + rewrite orb_false_r. destruct (c x); cbn [app]; now rewrite IH'.
Qed.

Lemma existsb_map {A B} (f : A -> B) p l : existsb p (map f l) = existsb (fun x => p (f x)) l.
Proof. induction l; cbn; congruence. Qed.

Lemma last_any {A} (l : list A) a b : l <> [] -> last l a = last l b.
Proof.
  intros N. destruct (exists_last N) as (p & w & ->). now rewrite !last_last.
Qed.

(** *** the parts of consecutive days *)
Definition parts (hourly : bool) (days : list (Z * Z * Z)) : list (moment -> bool) :=
  flat_map (fun date => map (fun c at_ => on_day date at_ && c at_) (conds hourly)) days.
Lemma on_day_date date at_ : valid_day date -> on_day date at_ = true <-> date = date_of at_.
Proof.
  destruct date as [[y m] d]. intros (V1 & V2 & V3). unfold on_day, date_of. rewrite !andb_true_iff, !N.eqb_eq. split.
  - intros [[E1 E2] E3]. rewrite E1, E2, E3, !Z2N.id by lia. reflexivity.
  - intros [= -> -> ->]. rewrite !N2Z.id. auto.
Qed.
Lemma day_before a b : day_lt (date_of a) (date_of b) -> before a b.
Proof. unfold day_lt, date_of, before. lia. Qed.
Lemma parts_sorted hourly days : StronglySorted day_lt days -> (forall x, In x days -> valid_day x) ->
  StronglySorted (fun c c' : moment -> bool => forall a b, clock_time a -> clock_time b -> c a = true -> c' b = true -> before a b)
    (parts hourly days).
Proof.
  intros S HV. unfold parts. apply (sorted_flat _ _ day_lt); [exact S| |].
  - intros date Hd. destruct hourly; cbn [conds]; [|repeat constructor].
    rewrite map_map. apply (sorted_map _ Peano.lt).
    + intros h h' _ _ L a b _ _ H1 H2. apply andb_prop in H1 as [D1 H1]. apply andb_prop in H2 as [D2 H2].
      apply on_day_date in D1; [|auto]. apply on_day_date in D2; [|auto]. rewrite D1 in D2. unfold date_of in D2.
      injection D2 as E1 E2 E3. unfold in_hour in H1, H2. apply N.eqb_eq in H1, H2. unfold before. lia.
    + generalize 0%nat, 24%nat. intros a n. revert a. induction n as [|n IH]; intros a; cbn [seq]; constructor; auto.
      apply Forall_forall. intros x Hx. apply in_seq in Hx. lia.
  - intros d d' c c' Hd Hd' L Hc Hc' a b _ _ H1 H2. apply in_map_iff in Hc as (x & <- & _). apply in_map_iff in Hc' as (x' & <- & _).
    apply andb_prop in H1 as [D1 _]. apply andb_prop in H2 as [D2 _].
    apply on_day_date in D1; [|auto]. apply on_day_date in D2; [|auto]. subst. now apply day_before.
Qed.
Lemma parts_within hourly days a z at_ : consecutive days -> hd_error days = Some a -> last days z = z -> valid_day a -> clock_time at_ ->
  existsb (fun c : moment -> bool => c at_) (parts hourly days) = within_days a z at_.
Proof.
  intros C Ha Hz Va Ca. assert (Vx : valid_day (date_of at_)) by (destruct Ca as [D _]; apply valid_date_spec in D; exact D).
  apply Bool.eq_true_iff_eq. unfold within_days. rewrite <- Hz. rewrite <- (consecutive_all days C a z Ha Va (date_of at_) Vx).
  rewrite existsb_exists. unfold parts. split.
  - intros (c & Hc & H). apply in_flat_map in Hc as (date & Hd & Hc). apply in_map_iff in Hc as (x & <- & _).
    apply andb_prop in H as [H _]. apply on_day_date in H; [subst; exact Hd|]. eapply consecutive_valid; eauto.
  - intros H. assert (On : on_day (date_of at_) at_ = true) by (apply on_day_date; auto).
    destruct hourly; cbn [conds].
    + exists (fun x => on_day (date_of at_) x && in_hour (N.to_nat (hour at_)) x). split.
      * apply in_flat_map. exists (date_of at_). split; [exact H|]. rewrite map_map.
        apply in_map_iff. exists (N.to_nat (hour at_)). split; [reflexivity|]. apply in_seq.
        apply clock_bounds in Ca as (_ & _ & Ca & _). lia.
      * rewrite On. unfold in_hour. rewrite N2Nat.id. apply N.eqb_refl.
    + exists (fun x => on_day (date_of at_) x && true). split; [|now rewrite On].
      apply in_flat_map. exists (date_of at_). split; [exact H|]. left. reflexivity.
Qed.
Lemma before_irrefl a : ~ before a a.
Proof. unfold before. lia. Qed.

Lemma all_in_order {R V} (M : streaming R V) hourly days a z es os :
  consecutive days -> hd_error days = Some a -> last days z = z -> valid_day a ->
  (forall r at_, In (SAppend r at_) es -> clock_time at_) -> in_order es ->
  flat_map (fun date => flat_map (fun c => accepted_on M (fun at_ => on_day date at_ && c at_) es os) (conds hourly)) days
  = accepted_on M (within_days a z) es os.
Proof.
  intros C Ha Hz Va HC HO.
  assert (E : flat_map (fun date => flat_map (fun c => accepted_on M (fun at_ => on_day date at_ && c at_) es os) (conds hourly)) days
    = flat_map (fun c => accepted_on M c es os) (parts hourly days)).
  { unfold parts. rewrite flat_map_flat. apply flat_map_same. intros date _. now rewrite flat_map_map. }
  rewrite E. clear E.
  rewrite (flat_map_same _ (fun c => map fst (filter (fun x => c (snd x)) (accepted_pairs M es os)))) by (intros; apply accepted_on_pairs).
  rewrite accepted_on_pairs, <- map_flat_map. f_equal.
  pose proof (classes_in_order (fun x : R * moment => clock_time (snd x)) (fun x y => before (snd x) (snd y))
    (map (fun (c : moment -> bool) x => c (snd x)) (parts hourly days)) (accepted_pairs M es os)) as Q.
  rewrite flat_map_map in Q. rewrite Q.
  - apply filter_ext_in. intros x Hx. rewrite existsb_map. apply (parts_within hourly days a z (snd x)); auto.
    eapply HC. eapply pairs_moment; eauto.
  - intros x. apply before_irrefl.
  - intros x Hx. eapply HC. eapply pairs_moment; eauto.
  - now apply pairs_sorted.
  - apply (sorted_map _ (fun c c' : moment -> bool => forall a b, clock_time a -> clock_time b -> c a = true -> c' b = true -> before a b)).
    + intros c c' _ _ H x y Hx Hy. apply H; auto.
    + apply parts_sorted; [now apply consecutive_sorted|]. intros x Hx. eapply consecutive_valid; eauto.
Qed.

(** ** The theorems *)
Section Written.
  Context (parse : str -> result value) (unzstd : str -> result str)
          (other : str -> str -> generator value) (read_blob : str -> result str).
  Context (fits : value -> Prop) (image : value -> value).
  Context {V : Type} (M : streaming value V).
  Context (columns : value -> result value) (filters : value -> result bool) (cf : value -> value) (pf : value -> bool).
  Notation records := (blob_records parse unzstd other read_blob columns filters None).
  Notation selected l := (filter pf (map cf (map image l))).
  Context (es : list (event (R:=value))) (os : list (result nat)) (s : sstate (R:=value)) (store : str -> list str).
  Hypothesis HM : stream_settings parse unzstd other fits image M.
  Hypothesis HR : stream_ran read_blob M es os s.

  Lemma range_template t hourly now rnd y m d hh mm ss y' m' d' hh' mm' ss' hash loads n :
    daily_template t -> proper_template (map Date t) -> m_template M = template_text (t ++ sub hourly) ->
    valid_date y m d -> valid_time hh mm ss -> valid_date y' m' d' -> valid_time hh' mm' ss' ->
    of_fields y m d hh mm ss <= of_fields y' m' d' hh' mm' ss' ->
    (forall date, within (y, m, d) (y', m', d') date ->
       clean_folder (day_folder t date) /\ lists_folder store (puts (world_of s)) (day_folder t date)) ->
    (forall a b, within (y, m, d) (y', m', d') a -> within (y, m, d) (y', m', d') b ->
       length (day_folder t a) = length (day_folder t b) /\
       (day_lt a b -> str_compare (day_folder t a) (day_folder t b) = Lt)) ->
    exists days, consecutive days /\ hd_error days = Some (y, m, d) /\ last days (y', m', d') = (y', m', d') /\
    let wanted := flat_map (fun date => flat_map (fun c => accepted_on M (fun at_ => on_day date at_ && c at_) es os) (conds hourly)) days in
    ((forall r, In r wanted -> fits r /\ applies columns filters cf pf (image r)) ->
    gives wanted (firstn n (selected wanted)) (read_records hash loads
      (fun _ => list_range None store now rnd (template_text t ++ $"/") (of_fields y m d hh mm ss) (of_fields y' m' d' hh' mm' ss'))
      0 records NoCursor n)).
  Proof.
    intros DT P T V1 T1 V2 T2 L HF HO.
    destruct (ReadRange.range_each_day_once None store now rnd t y m d hh mm ss y' m' d' hh' mm' ss' DT V1 T1 V2 T2 L)
      as (days & C & Hd & Hl & _ & E).
    assert (Hl' : last days (y', m', d') = (y', m', d')).
    { rewrite <- Hl at 2. apply last_any. intros ->. discriminate. }
    exists days. split; [exact C|]. split; [exact Hd|]. split; [exact Hl'|]. intros wanted HR'.
    apply valid_date_spec in V1.
    pose proof (consecutive_valid days C _ Hd V1) as HV.
    assert (HI : forall x, In x days -> within (y, m, d) (y', m', d') x).
    { intros x Hx. split; [specialize (HV x Hx); destruct x as [[? ?] ?]; now apply valid_date_spec|].
      apply (consecutive_all days C (y, m, d) (y', m', d') Hd V1 x (HV x Hx)) in Hx. rewrite Hl' in Hx.
      now apply andb_prop in Hx. }
    destruct HM as (A1 & A2 & A3 & A4 & A5). destruct HR as (B1 & B2 & B3 & B4).
    rewrite E. apply (days_read parse unzstd other read_blob M t hourly columns filters cf pf fits image A1 A2 A3 A4 A5 DT P T days es os s store hash loads n); auto.
    - apply (sorted_map _ day_lt); [|now apply consecutive_sorted]. intros a b Ha Hb. apply HO; now apply HI.
    - intros a b Ha Hb. apply HO; now apply HI.
  Qed.

  Notation range t now rnd start stop := (list_range None store now rnd (template_text t ++ $"/") start stop).

  Lemma within_four y m d y' m' d' date : 1000 <= y -> y' <= 9999 -> within (y, m, d) (y', m', d') date -> valid_day date /\ four_digits date.
  Proof.
    intros H1 H2 (Vd & A & B). destruct date as [[a b] c]. split; [now apply valid_date_spec|].
    apply date_leb_spec in A, B. unfold four_digits. destruct A as [[= -> -> ->]|A], B as [[= -> -> ->]|B]; unfold day_lt in *; lia.
  Qed.
  Lemma range_ordered hourly t now rnd y m d hh mm ss y' m' d' hh' mm' ss' hash loads n :
    daily_template t -> chronological t -> proper_template (map Date t) ->
    m_template M = template_text (t ++ sub hourly) ->
    valid_date y m d -> valid_time hh mm ss -> valid_date y' m' d' -> valid_time hh' mm' ss' -> 1000 <= y -> y' <= 9999 ->
    of_fields y m d hh mm ss <= of_fields y' m' d' hh' mm' ss' ->
    (forall date, within (y, m, d) (y', m', d') date ->
       clean_folder (day_folder t date) /\ lists_folder store (puts (world_of s)) (day_folder t date)) ->
    exists days, consecutive days /\ hd_error days = Some (y, m, d) /\ last days (y', m', d') = (y', m', d') /\
    let wanted := flat_map (fun date => flat_map (fun c => accepted_on M (fun at_ => on_day date at_ && c at_) es os) (conds hourly)) days in
    ((forall r, In r wanted -> fits r /\ applies columns filters cf pf (image r)) ->
    gives wanted (firstn n (selected wanted)) (read_records hash loads
      (fun _ => range t now rnd (of_fields y m d hh mm ss) (of_fields y' m' d' hh' mm' ss'))
      0 records NoCursor n)).
  Proof.
    intros DT CH P T V1 T1 V2 T2 Y1 Y2 L HF.
    apply (range_template t hourly); auto.
    intros a b Ha Hb. destruct (within_four _ _ _ _ _ _ a Y1 Y2 Ha) as [Va Fa]. destruct (within_four _ _ _ _ _ _ b Y1 Y2 Hb) as [Vb Fb].
    rewrite !day_folder_fill by exact P. now apply fills_lt.
  Qed.

  Lemma one_day_read t now rnd y m d hh mm ss hh' mm' ss' hash loads n :
    daily_template t -> proper_template (map Date t) -> m_template M = template_text t ->
    valid_date y m d -> valid_time hh mm ss -> valid_time hh' mm' ss' ->
    of_fields y m d hh mm ss <= of_fields y m d hh' mm' ss' ->
    clean_folder (day_folder t (y, m, d)) -> lists_folder store (puts (world_of s)) (day_folder t (y, m, d)) ->
    let wanted := accepted_on M (on_day (y, m, d)) es os in
    (forall r, In r wanted -> fits r /\ applies columns filters cf pf (image r)) ->
    gives wanted (firstn n (selected wanted)) (read_records hash loads
      (fun _ => list_range None store now rnd (template_text t ++ $"/") (of_fields y m d hh mm ss) (of_fields y m d hh' mm' ss'))
      0 records NoCursor n).
  Proof.
    intros DT P T V1 T1 T2 L Cl LF wanted HR'.
    assert (W : forall date, within (y, m, d) (y, m, d) date -> date = (y, m, d)).
    { intros date (_ & A & B). apply date_leb_spec in A, B. destruct A as [A|A]; auto. destruct B as [B|B]; auto.
      destruct date as [[a b] c]. unfold day_lt in *. lia. }
    destruct (range_template t false now rnd y m d hh mm ss y m d hh' mm' ss' hash loads n) as (days & C & Hd & Hl & Q); auto.
    - rewrite app_nil_r. exact T.
    - intros date Hw. apply W in Hw. subst. auto.
    - intros a b Ha Hb. apply W in Ha, Hb. subst. split; [reflexivity|]. unfold day_lt. lia.
    - assert (E : days = [(y, m, d)]).
      { pose proof (consecutive_sorted days C) as S. destruct days as [|x l]; [discriminate|]. injection Hd as ->.
        destruct l as [|x' l]; auto. exfalso. apply StronglySorted_inv in S as [_ F]. rewrite Forall_forall in F.
        assert (I : In (y, m, d) (x' :: l)).
        { change (last ((y, m, d) :: x' :: l) (y, m, d)) with (last (x' :: l) (y, m, d)) in Hl.
          destruct (exists_last (l := x' :: l)) as (p & w & Ep); [discriminate|]. rewrite Ep in *. rewrite last_last in Hl. subst.
          apply in_app_iff. right. left. reflexivity. }
        apply F in I. unfold day_lt in I. lia. }
      subst days. cbn [conds flat_map] in Q. rewrite !app_nil_r in Q.
      assert (EA : accepted_on M (fun at_ => on_day (y, m, d) at_ && true) es os = wanted).
      { unfold wanted. rewrite !accepted_on_pairs. f_equal. apply filter_ext. intros x. apply andb_true_r. }
      rewrite EA in Q. auto.
  Qed.

  Lemma range_in_order hourly t now rnd y m d hh mm ss y' m' d' hh' mm' ss' hash loads n :
    daily_template t -> chronological t -> proper_template (map Date t) ->
    m_template M = template_text (t ++ sub hourly) -> in_order es ->
    valid_date y m d -> valid_time hh mm ss -> valid_date y' m' d' -> valid_time hh' mm' ss' -> 1000 <= y -> y' <= 9999 ->
    of_fields y m d hh mm ss <= of_fields y' m' d' hh' mm' ss' ->
    (forall date, within (y, m, d) (y', m', d') date ->
       clean_folder (day_folder t date) /\ lists_folder store (puts (world_of s)) (day_folder t date)) ->
    let wanted := accepted_on M (within_days (y, m, d) (y', m', d')) es os in
    (forall r, In r wanted -> fits r /\ applies columns filters cf pf (image r)) ->
    gives wanted (firstn n (selected wanted)) (read_records hash loads
      (fun _ => range t now rnd (of_fields y m d hh mm ss) (of_fields y' m' d' hh' mm' ss'))
      0 records NoCursor n).
  Proof.
    intros DT CH P T O V1 T1 V2 T2 Y1 Y2 L HF wanted.
    destruct (range_ordered hourly t now rnd y m d hh mm ss y' m' d' hh' mm' ss' hash loads n DT CH P T V1 T1 V2 T2 Y1 Y2 L HF)
      as (days & C & Hd & Hl & Q).
    destruct HR as (_ & B2 & _). apply valid_date_spec in V1.
    rewrite (all_in_order M hourly days (y, m, d) (y', m', d') es os C Hd Hl V1 B2 O) in Q. exact Q.
  Qed.
  Lemma stream_daily t now rnd y m d hh mm ss y' m' d' hh' mm' ss' hash loads n :
    daily_template t -> chronological t -> proper_template (map Date t) ->
    m_template M = template_text t ->
    valid_date y m d -> valid_time hh mm ss -> valid_date y' m' d' -> valid_time hh' mm' ss' -> 1000 <= y -> y' <= 9999 ->
    of_fields y m d hh mm ss <= of_fields y' m' d' hh' mm' ss' ->
    (forall date, within (y, m, d) (y', m', d') date ->
       clean_folder (day_folder t date) /\ lists_folder store (puts (world_of s)) (day_folder t date)) ->
    exists days, consecutive days /\ hd_error days = Some (y, m, d) /\ last days (y', m', d') = (y', m', d') /\
    let wanted := flat_map (fun date => accepted_on M (on_day date) es os) days in
    ((forall r, In r wanted -> fits r /\ applies columns filters cf pf (image r)) ->
    gives wanted (firstn n (selected wanted)) (read_records hash loads
      (fun _ => range t now rnd (of_fields y m d hh mm ss) (of_fields y' m' d' hh' mm' ss'))
      0 records NoCursor n)).
  Proof.
    intros DT CH P T V1 T1 V2 T2 Y1 Y2 L HF.
    destruct (range_ordered false t now rnd y m d hh mm ss y' m' d' hh' mm' ss' hash loads n DT CH P) as (days & C & Hd & Hl & Q); auto; [cbn [sub]; now rewrite app_nil_r|].
    exists days. repeat (split; [assumption|]). cbn [conds flat_map] in Q.
    rewrite (flat_map_same _ (fun date => accepted_on M (on_day date) es os)) in Q; [exact Q|].
    intros date _. rewrite app_nil_r, !accepted_on_pairs. f_equal. apply filter_ext. intros x. apply andb_true_r.
  Qed.
  Lemma stream_hourly t now rnd y m d hh mm ss y' m' d' hh' mm' ss' hash loads n :
    daily_template t -> chronological t -> proper_template (map Date t) ->
    m_template M = template_text (t ++ hour_folders) ->
    valid_date y m d -> valid_time hh mm ss -> valid_date y' m' d' -> valid_time hh' mm' ss' -> 1000 <= y -> y' <= 9999 ->
    of_fields y m d hh mm ss <= of_fields y' m' d' hh' mm' ss' ->
    (forall date, within (y, m, d) (y', m', d') date ->
       clean_folder (day_folder t date) /\ lists_folder store (puts (world_of s)) (day_folder t date)) ->
    exists days, consecutive days /\ hd_error days = Some (y, m, d) /\ last days (y', m', d') = (y', m', d') /\
    let wanted := flat_map (fun date => flat_map (fun h => accepted_on M (fun at_ => on_day date at_ && in_hour h at_) es os) (seq 0 24)) days in
    ((forall r, In r wanted -> fits r /\ applies columns filters cf pf (image r)) ->
    gives wanted (firstn n (selected wanted)) (read_records hash loads
      (fun _ => range t now rnd (of_fields y m d hh mm ss) (of_fields y' m' d' hh' mm' ss'))
      0 records NoCursor n)).
  Proof.
    intros DT CH P T V1 T1 V2 T2 Y1 Y2 L HF.
    destruct (range_ordered true t now rnd y m d hh mm ss y' m' d' hh' mm' ss' hash loads n DT CH P T) as (days & C & Hd & Hl & Q); auto.
    exists days. repeat (split; [assumption|]). 
    rewrite (flat_map_same _ (fun date => flat_map (fun h => accepted_on M (fun at_ => on_day date at_ && in_hour h at_) es os) (seq 0 24))) in Q; [exact Q|].
    intros date _. unfold conds. now rewrite flat_map_map.
  Qed.
End Written.
