(** The folders a range of dates reads. *)
From Coq Require Import Sorted.
From Verif.Base Require Import Py PyFacts.
From Verif.Model Require Import Paths Dates Frames ReadRange.
From Verif.Spec Require Import Paths Dates.
From Verif.Proofs Require Import Paths Dates.
Local Open Scope Z_scope.

Lemma vd_plausible y m d : vd y m d -> plausible (mkMoment (Z.to_N y) (Z.to_N m) (Z.to_N d) 0 0 0).
Proof.
  intros (Hy & Hm & Hd). pose proof (dim_bounds y m Hm). unfold plausible. cbn [month day hour minute second]. lia.
Qed.

Lemma day_folder_inj t day day' : daily_template t ->
  (let '(y, m, d) := day in vd y m d) -> (let '(y, m, d) := day' in vd y m d) ->
  day_folder t day = day_folder t day' -> day = day'.
Proof.
  destruct day as [[y m] d], day' as [[y' m'] d']. intros [Ht _] V V' E. unfold day_folder in E.
  apply cycle_same_fill in E; auto.
  apply (fill_same_day t) in E; auto using vd_plausible. destruct E as (E1 & E2 & E3). cbn [year month day] in *.
  destruct V as (A & B & C), V' as (A' & B' & C').
  assert (y = y') by lia. assert (m = m') by lia. assert (d = d') by lia. subst. reflexivity.
Qed.

Lemma hour_folder rnd t h : daily_template t -> 0 <= h ->
  cycle_path rnd (template_text t ++ $"/") (fields_of h) = Ok (day_folder t (ord2ymd (h / 86400 + 1))).
Proof.
  intros (Ht & N1 & N2 & N3) Hh. rewrite cycle_path_template by apply Ht. f_equal.
  unfold day_folder, fields_of. destruct (ord2ymd (h / 86400 + 1)) as [[y m] d].
  do 3 f_equal. apply same_day_fill; [repeat split|]. intros g Hg. repeat split; intros ->; auto.
Qed.

Lemma mapM_Ok_in {A B} (f : A -> result B) (g : A -> B) l :
  (forall x, In x l -> f x = Ok (g x)) -> mapM f l = Ok (map g l).
Proof.
  induction l as [|x l IH]; intros H; auto. cbn [mapM map]. rewrite H by (left; auto). cbn [bind].
  rewrite IH by (intros; apply H; right; auto). reflexivity.
Qed.

Lemma get_list_dedup pf store ps : get_list_of_blobs pf store (dedup str_eqb ps) = get_list_of_blobs pf store ps.
Proof.
  unfold get_list_of_blobs. rewrite (dedup_NoDup_id str_eqb str_eqb_eq); [reflexivity|].
  apply dedup_NoDup. apply str_eqb_eq.
Qed.

Lemma days_from_In n k x : In x (days_from n k) -> n <= x.
Proof. unfold days_from. intros H. apply in_map_iff in H. destruct H as (i & <- & _). lia. Qed.

Lemma list_range_days pf store now rnd t s e : daily_template t -> 0 <= s -> s <= e ->
  let days := map (fun i => ord2ymd (i + 1)) (days_from (s / 86400) (S (Z.to_nat (e / 86400 - s / 86400)))) in
  list_range pf store now rnd (template_text t ++ $"/") s e = get_list_of_blobs pf store (map (day_folder t) days)
  /\ NoDup (map (day_folder t) days) /\ consecutive days.
Proof.
  intros Ht Hs He days. unfold list_range.
  rewrite (date_range_eq now (BDatetime s) (BDatetime e) s e) by reflexivity.
  pose proof (floor_hour_hour_of s) as [Fs Bs]. pose proof (floor_hour_hour_of e) as [Fe Be].
  destruct (Z.ltb_spec (floor_hour e) (floor_hour s)); [unfold full_hour in *; lia|]. cbn [bind].
  set (fs := floor_hour s) in *. set (fe := floor_hour e) in *.
  assert (H0: 0 <= fs) by (unfold full_hour in *; lia).
  rewrite (mapM_Ok_in _ (fun h => day_folder t (ord2ymd (h / 86400 + 1)))).
  2:{ intros h Hh. apply hour_folder; auto. unfold hours in Hh. apply in_map_iff in Hh. destruct Hh as (n & <- & _). lia. }
  cbn [bind]. rewrite <- get_list_dedup.
  assert (Ed: days = map (fun i => ord2ymd (i + 1)) (dedup Z.eqb (map (fun h => h / 86400) (hours fs fe)))).
  { subst days. f_equal. unfold hours. rewrite map_map, days_of_hours by auto.
    assert (fs / 86400 = s / 86400) by (unfold full_hour in *; lia).
    rewrite <- H1. do 3 f_equal. unfold full_hour in *. lia. }
  assert (Hnd: forall x y, In x (map (fun h => h / 86400) (hours fs fe)) -> In y (map (fun h => h / 86400) (hours fs fe)) ->
     day_folder t (ord2ymd (x + 1)) = day_folder t (ord2ymd (y + 1)) -> x = y).
  { assert (P: forall x, In x (map (fun h => h / 86400) (hours fs fe)) -> 0 <= x).
    { intros x Hx. apply in_map_iff in Hx. destruct Hx as (h & <- & Hh). unfold hours in Hh. apply in_map_iff in Hh.
      destruct Hh as (n & <- & _). lia. }
    intros x y Hx Hy E. apply P in Hx, Hy.
    pose proof (ord2ymd_spec (x + 1) ltac:(lia)) as Sx. pose proof (ord2ymd_spec (y + 1) ltac:(lia)) as Sy.
    destruct (ord2ymd (x + 1)) as [[a b] c] eqn:E1, (ord2ymd (y + 1)) as [[a' b'] c'] eqn:E2.
    destruct Sx as [V1 S1], Sy as [V2 S2].
    apply day_folder_inj in E; auto. injection E as <- <- <-. lia. }
  assert (Em: map (day_folder t) days = dedup str_eqb (map (fun h => day_folder t (ord2ymd (h / 86400 + 1))) (hours fs fe))).
  { rewrite Ed, map_map.
    rewrite <- (map_map (fun h => h / 86400) (fun x => day_folder t (ord2ymd (x + 1)))).
    rewrite (dedup_map_inj Z.eqb str_eqb Z.eqb_eq str_eqb_eq) by auto. reflexivity. }
  rewrite Em. split; [reflexivity|]. split; [apply dedup_NoDup; apply str_eqb_eq|].
  subst days. apply consecutive_days. lia.
Qed.

Lemma days_ends a b y m d y' m' d' : a = ymd2ord y m d - 1 -> b = ymd2ord y' m' d' - 1 -> a <= b ->
  vd y m d -> vd y' m' d' ->
  let days := map (fun i => ord2ymd (i + 1)) (days_from a (S (Z.to_nat (b - a)))) in
  hd_error days = Some (y, m, d) /\ last days (0, 0, 0) = (y', m', d').
Proof.
  intros -> -> H V V' days. subst days. split.
  - unfold days_from. cbn [seq map hd_error]. rewrite <- (ord2ymd_ymd2ord y m d) by auto. do 2 f_equal. lia.
  - unfold days_from. rewrite seq_S, !map_app. cbn [map]. rewrite last_last.
    rewrite <- (ord2ymd_ymd2ord y' m' d') by auto. f_equal. lia.
Qed.

Theorem range_each_day_once pf store now rnd t y m d hh mm ss y' m' d' hh' mm' ss' :
  daily_template t -> valid_date y m d -> valid_time hh mm ss -> valid_date y' m' d' -> valid_time hh' mm' ss' ->
  of_fields y m d hh mm ss <= of_fields y' m' d' hh' mm' ss' ->
  exists days, consecutive days /\ hd_error days = Some (y, m, d) /\ last days (0, 0, 0) = (y', m', d') /\
    NoDup (map (day_folder t) days) /\
    list_range pf store now rnd (template_text t ++ $"/") (of_fields y m d hh mm ss) (of_fields y' m' d' hh' mm' ss')
    = get_list_of_blobs pf store (map (day_folder t) days).
Proof.
  intros Ht V T V' T' H. apply valid_date_spec in V, V'.
  destruct (of_fields_ord y m d hh mm ss T) as [E1 _]. destruct (of_fields_ord y' m' d' hh' mm' ss' T') as [E2 _].
  assert (P: forall y m d, vd y m d -> 1 <= ymd2ord y m d).
  { intros a b c W. pose proof (day_of_year _ _ _ W). destruct W as (Hy & _). unfold ymd2ord.
    pose proof (dby_mono 1 a). change (days_before_year 1) with 0 in *. lia. }
  pose proof (P _ _ _ V) as P1.
  destruct (list_range_days pf store now rnd t (of_fields y m d hh mm ss) (of_fields y' m' d' hh' mm' ss') Ht) as (A & B & C); auto.
  { unfold of_fields. destruct T. lia. }
  rewrite E1, E2 in *.
  destruct (days_ends _ _ y m d y' m' d' eq_refl eq_refl) as [D1 D2]; auto.
  { rewrite <- E1, <- E2. apply Z.div_le_mono; lia. }
  eexists. split; [exact C|]. split; [exact D1|]. split; [exact D2|]. split; [exact B|exact A].
Qed.

(** two moments have the same folder iff they are on the same day *)
Theorem folder_iff_day rnd t a b : daily_template t -> plausible a -> plausible b ->
  (cycle_path rnd (template_text t ++ $"/") a = cycle_path rnd (template_text t ++ $"/") b <-> same_day a b).
Proof.
  intros (Ht & N1 & N2 & N3) Pa Pb. rewrite !cycle_path_template by apply Ht. split.
  - intros E. injection E as E. apply cycle_same_fill in E; auto. eapply fill_same_day; eauto.
  - intros S. rewrite (same_day_fill t a b); auto. intros g Hg. repeat split; intros ->; auto.
Qed.
