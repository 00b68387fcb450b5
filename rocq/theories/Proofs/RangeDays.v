(** Proofs: a range of days is read day after day (C84). *)
From Coq Require Import Sorted Permutation.
From Verif.Base Require Import Py PyFacts Value ValueFacts.
From Verif.Model Require Import Paths Dates Frames ReadRange Cursor Storage Adapters Reader.
From Verif.Spec Require Import Paths Dates Frames Cursor StreamRead.
From Verif.Spec Require Adapters.
From Verif.Spec Require Import System.
From Verif.Proofs Require Adapters.
From Verif.Proofs Require Import Paths Dates Writers StreamRead StreamRange.
From Verif.Proofs Require ReadRange Repeats Cursor System AdaptersUse.
Local Open Scope nat_scope.

(** ** The blobs of a day are in its listing *)
Lemma frame_incl l b : In b (select_frame l) -> In b l.
Proof.
  unfold select_frame. destruct (rev _) as [|a stack]; [auto|]. destruct (frame_loop l a stack); [|intros []].
  intros H. now apply filter_In in H.
Qed.
Lemma cycle_incl pf l out b : cycle_blobs_of pf l = Ok out -> In b out -> In b l.
Proof.
  unfold cycle_blobs_of. set (l1 := filter _ l). intros E.
  destruct (apply_partition_filter pf l1 (partitions_of l1)) as [[l2 ps]|] eqn:A; cbn [bind] in E; [|discriminate].
  assert (H2 : forall x, In x l2 -> In x l).
  { assert (H1 : forall x, In x l1 -> In x l) by (intros x Hx; now apply filter_In in Hx).
    unfold apply_partition_filter in A. destruct pf as [[[f op] v]|]; [|injection A as <- _; exact H1].
    destruct (negb _); [discriminate|]. cbv zeta in A. destruct (existsb _ _); injection A as <- _; [|exact H1].
    intros x Hx. apply filter_In in Hx. apply H1. tauto. }
  destruct (choose_partition l2 ps) as [chosen l3] eqn:C. injection E as <-.
  assert (H3 : forall x, In x l3 -> In x l).
  { unfold choose_partition in C. destruct (rev _); injection C as _ <-; [exact H2|]. intros x Hx. apply filter_In in Hx. apply H2. tauto. }
  unfold read_folders. intros H. apply in_flat_map in H as (f & _ & H). apply frame_incl, filter_In in H. apply H3. tauto.
Qed.

(** ** Reading a list of blobs *)
Section Read.
  Context (hash : str -> Z) (loads : str -> result cdict) (records : str -> list value).
  Notation read r n := (records_read (read_records hash loads (fun _ => r) 0 records NoCursor n)).
  Lemma read_blobs l out n : full_read records (filter is_readable l) out ->
    read (Ok l) n = match filter is_readable l with [] => Raise DataNotFoundError | _ => Ok (firstn n out) end.
  Proof.
    intros F. unfold read_records, find_blobs. change (1 <? 0)%Z with false. cbn iota. cbn [bind].
    assert (N : ~ In [] (filter is_readable l)) by (rewrite filter_In; intros [_ C]; discriminate C).
    destruct (filter is_readable l) as [|b bs] eqn:E; [reflexivity|].
    destruct (Cursor.read_once hash loads records (b :: bs) N out n F) as (s & ->). reflexivity.
  Qed.
End Read.

(** lists of names which come one after the other *)
Definition before (l m : list str) : Prop := forall a b, In a l -> In b m -> str_ltb a b = true.
Lemma sorted_app (l m : list str) : StronglySorted (fun a b => str_ltb a b = true) l ->
  StronglySorted (fun a b => str_ltb a b = true) m -> before l m -> StronglySorted (fun a b => str_ltb a b = true) (l ++ m).
Proof.
  induction 1 as [|a l Hl IH Ha]; intros Hm B; [exact Hm|]. cbn [app]. constructor.
  - apply IH; [exact Hm|]. intros x y Hx. apply B. now right.
  - apply Forall_app. split; [exact Ha|]. apply Forall_forall. intros y Hy. apply B; [now left|exact Hy].
Qed.
Lemma full_read_app {R} (contents : str -> list R) l m o1 o2 : full_read contents l o1 -> full_read contents m o2 -> before l m ->
  full_read contents (l ++ m) (o1 ++ o2).
Proof.
  intros (n1 & [S1 I1] & ->) (n2 & [S2 I2] & ->) B. exists (n1 ++ n2). split; [|now rewrite flat_map_app]. split.
  - apply sorted_app; auto. intros a b Ha Hb. apply B; [now apply I1|now apply I2].
  - intros b. rewrite !in_app_iff, I1, I2. tauto.
Qed.
Lemma full_read_same {R} (contents : str -> list R) l m o : (forall b, In b l <-> In b m) -> full_read contents l o -> full_read contents m o.
Proof. intros H (ns & [S I] & ->). exists ns. split; auto. split; auto. intros b. rewrite I. apply H. Qed.

Lemma cycle_raises pf l e : cycle_blobs_of pf l = Raise e -> e = NotImplementedError.
Proof.
  unfold cycle_blobs_of. unfold apply_partition_filter. destruct pf as [[[f op] v]|].
  - destruct (negb _); cbn [bind]; [congruence|]. cbv zeta. destruct (existsb _ _); cbn [bind]; destruct (choose_partition _ _); discriminate.
  - cbn [bind]. destruct (choose_partition _ _). discriminate.
Qed.

Section Days.
  Context (hash : str -> Z) (loads : str -> result cdict) (records : str -> list value) (n : nat).
  Context (pf : option (str * str * str)) (folder : Z * Z * Z -> str) (store : str -> list str) (day_store : Z * Z * Z -> str -> list str).
  Notation read r := (records_read (read_records hash loads (fun _ => r) 0 records NoCursor n)).
  Notation of_day date := (get_list_of_blobs pf (day_store date) [folder date]).
  Definition day_part (date : Z * Z * Z) (part : list value) : Prop :=
    read (of_day date) = Ok part \/ (read (of_day date) = Raise DataNotFoundError /\ part = []).

  Lemma one_listing date l : of_day date = Ok l -> exists f, cycle_blobs_of pf (day_store date (folder date)) = Ok f /\ (forall b, In b l <-> In b f).
  Proof.
    unfold get_list_of_blobs. cbn [dedup filter mapM bind]. destruct (cycle_blobs_of pf (day_store date (folder date))) as [f|]; cbn [bind]; [|discriminate].
    intros [= <-]. exists f. split; [reflexivity|]. intros b. rewrite sorted_str_In. cbn [concat]. now rewrite app_nil_r.
  Qed.
  Lemma listing_raises date e : of_day date = Raise e -> e = NotImplementedError.
  Proof.
    unfold get_list_of_blobs. cbn [dedup filter mapM bind].
    destruct (cycle_blobs_of pf (day_store date (folder date))) as [f|e'] eqn:E; cbn [bind]; [discriminate|]. intros [= <-].
    eapply cycle_raises; eauto.
  Qed.

  Lemma found_days days : forall parts,
    StronglySorted day_lt days ->
    (forall a b, In a days -> In b days -> day_lt a b -> length (folder a) = length (folder b) /\ str_compare (folder a) (folder b) = Lt) ->
    (forall date b, In date days -> In b (store (folder date)) -> exists rest, b = folder date ++ $"/" ++ rest) ->
    (forall date b, In date days -> (In b (day_store date (folder date)) <-> In b (store (folder date)))) ->
    Forall2 day_part days parts ->
    exists found out, mapM (fun p => cycle_blobs_of pf (store p)) (map folder days) = Ok found /\
      (forall b, In b (concat found) -> exists date rest, In date days /\ b = folder date ++ $"/" ++ rest) /\
      full_read records (filter is_readable (concat found)) out /\ firstn n out = firstn n (concat parts) /\
      (filter is_readable (concat found) = [] <-> Forall (fun date => read (of_day date) = Raise DataNotFoundError) days).
  Proof.
    induction days as [|a days IH]; intros parts HS HL HU HE HP; inversion HP as [|x part l ps P1 P2 E1 E2]; subst.
    - exists [], []. split; [reflexivity|]. split; [intros b []|]. split; [|split; [reflexivity|]].
      + exists []. split; [|reflexivity]. split; [constructor|reflexivity].
      + split; [constructor|reflexivity].
    - apply StronglySorted_inv in HS as [HS HF].
      destruct (IH ps HS) as (found & out & M & MI & F & FN & Z); auto using in_cons.
      clear IH.
      assert (L : exists l, of_day a = Ok l).
      { destruct (of_day a) as [l|e] eqn:E; [eauto|]. exfalso. pose proof (listing_raises a e E) as ->. unfold day_part in P1. rewrite E in P1.
        destruct P1 as [C|[C _]]; vm_compute in C; discriminate C. }
      destruct L as [l L]. destruct (one_listing a l L) as (f & Ef & Hf).
      pose proof (Repeats.cycle_same pf _ _ (fun b => HE a b (or_introl eq_refl))) as SM. rewrite Ef in SM.
      destruct (cycle_blobs_of pf (store (folder a))) as [g|] eqn:Eg; [|contradiction].
      cbn [Repeats.same_result] in SM.
      assert (Hg : forall b, In b g <-> In b l) by (intros b; rewrite Hf; symmetry; apply SM).
      destruct (Cursor.full_read_exists records (filter is_readable l)) as (o1 & F1).
      assert (F1' : full_read records (filter is_readable g) o1).
      { eapply full_read_same; [|exact F1]. intros b. rewrite !filter_In, Hg. tauto. }
      pose proof (read_blobs hash loads records l o1 n F1) as R. rewrite <- L in R.
      assert (Gi : forall b, In b g -> exists rest, b = folder a ++ $"/" ++ rest).
      { intros b Hb. apply (HU a b); [now left|]. eapply cycle_incl; eauto. }
      exists (g :: found), (o1 ++ out). cbn [map mapM concat]. rewrite Eg, M. cbn [bind].
      split; [reflexivity|]. split.
      { intros b Hb. apply in_app_iff in Hb as [Hb|Hb].
        - destruct (Gi b Hb) as [rest ->]. exists a, rest. split; [now left|reflexivity].
        - destruct (MI b Hb) as (date & rest & Hd & ->). exists date, rest. split; [now right|reflexivity]. }
      rewrite filter_app. split.
      { apply full_read_app; [exact F1'|exact F|]. intros x y Hx Hy. apply filter_In in Hx as [Hx _]. apply filter_In in Hy as [Hy _].
        destruct (Gi x Hx) as [r1 ->]. destruct (MI y Hy) as (date & r2 & Hd & ->). rewrite Forall_forall in HF.
        destruct (HL a date) as [H1 H2]; [now left|now right|now apply HF|].
        unfold str_ltb. now rewrite str_compare_app. }
      assert (Z1 : filter is_readable g = [] <-> filter is_readable l = []).
      { split; intros H; [apply (Repeats.same_nil (filter is_readable g))|apply (Repeats.same_nil (filter is_readable l))]; auto;
          intros b; rewrite !filter_In, Hg; tauto. }
      assert (Z2 : filter is_readable l = [] <-> read (of_day a) = Raise DataNotFoundError).
      { rewrite R. destruct (filter is_readable l); split; intros H; auto; discriminate H. }
      split.
      { destruct P1 as [P1|[P1 ->]].
        - rewrite P1 in R. assert (part = firstn n o1) as ->.
          { destruct (filter is_readable l) as [|x xs] eqn:El; [discriminate R|congruence]. }
          rewrite !firstn_app. f_equal; [now rewrite firstn_firstn, Nat.min_id|].
          rewrite firstn_length. destruct (Nat.le_gt_cases (length o1) n).
          + rewrite Nat.min_r by lia.
            assert (K : forall k (u v : list value), k <= n -> firstn n u = firstn n v -> firstn k u = firstn k v).
            { intros k u v Hk Hu. pose proof (firstn_firstn u k n) as A1. pose proof (firstn_firstn v k n) as A2.
              rewrite Nat.min_l in A1, A2 by lia. congruence. }
            apply K; [lia|exact FN].
          + rewrite Nat.min_l by lia. replace (n - length o1) with 0 by lia. replace (n - n) with 0 by lia. reflexivity.
        - cbn [concat app]. apply Z2 in P1. rewrite P1 in F1.
          assert (o1 = []) as ->. { destruct F1 as (ns & [_ I] & ->). destruct ns as [|x ns]; [reflexivity|]. destruct (proj1 (I x) (or_introl eq_refl)). }
          exact FN. }
      split.
      + intros H. apply app_eq_nil in H as [H1 H2]. constructor; [apply Z2, Z1, H1|now apply Z].
      + intros H. inversion H as [|? ? H1 H2]; subst. apply Z2, Z1 in H1. apply Z in H2. now rewrite H1, H2.
  Qed.
  Lemma read_days days parts :
    StronglySorted day_lt days -> NoDup (map folder days) ->
    (forall a b, In a days -> In b days -> day_lt a b -> length (folder a) = length (folder b) /\ str_compare (folder a) (folder b) = Lt) ->
    (forall date b, In date days -> In b (store (folder date)) -> exists rest, b = folder date ++ $"/" ++ rest) ->
    (forall date b, In date days -> (In b (day_store date (folder date)) <-> In b (store (folder date)))) ->
    Forall2 day_part days parts ->
    (Forall (fun date => read (of_day date) = Raise DataNotFoundError) days -> read (get_list_of_blobs pf store (map folder days)) = Raise DataNotFoundError) /\
    (~ Forall (fun date => read (of_day date) = Raise DataNotFoundError) days -> read (get_list_of_blobs pf store (map folder days)) = Ok (firstn n (concat parts))).
  Proof.
    intros HS ND HL HU HE HP. destruct (found_days days parts HS HL HU HE HP) as (found & out & M & _ & F & FN & Z).
    assert (E : get_list_of_blobs pf store (map folder days) = Ok (sorted_str (concat found))).
    { unfold get_list_of_blobs. rewrite (dedup_NoDup_id str_eqb str_eqb_eq) by exact ND. now rewrite M. }
    rewrite E.
    assert (F' : full_read records (filter is_readable (sorted_str (concat found))) out).
    { eapply full_read_same; [|exact F]. intros b. rewrite !filter_In, sorted_str_In. tauto. }
    assert (Z' : filter is_readable (sorted_str (concat found)) = [] <-> filter is_readable (concat found) = []).
    { split; intros H; [apply (Repeats.same_nil (filter is_readable (sorted_str (concat found))))|apply (Repeats.same_nil (filter is_readable (concat found)))];
        auto; intros b; rewrite !filter_In, sorted_str_In; tauto. }
    rewrite (read_blobs hash loads records _ out n F'). rewrite <- Z, <- Z'.
    destruct (filter is_readable (sorted_str (concat found))); split; intros H; try reflexivity; try discriminate H; [now elim H|].
    now rewrite FN.
  Qed.
End Days.

(** ** The days of a dataset *)
Section Dataset.
  Context (names : list str) (HN : folder_names names) (folders : list (list seg)) (HF : daily_partitions folders).
  Local Notation t := (dataset_template (join $"/" names) folders).
  Definition template_daily : daily_template t := System.template_daily names HN folders HF.
  Lemma folder_fill y m d : day_folder t (y, m, d) = fill t (a_day y m d).
  Proof. rewrite (System.day_root names HN folders HF), System.fill_names by assumption. reflexivity. Qed.
  Lemma folders_lt a b : chronological t -> valid_day a -> valid_day b -> four_digits a -> four_digits b -> day_lt a b ->
    length (day_folder t a) = length (day_folder t b) /\ str_compare (day_folder t a) (day_folder t b) = Lt.
  Proof.
    destruct a as [[y m] d], b as [[y' m'] d']. rewrite !folder_fill. intros CH Va Vb Fa Fb L.
    destruct (fills_lt t CH (y, m, d) (y', m', d') Va Vb Fa Fb) as [H1 H2]. split; [exact H1|exact (H2 L)].
  Qed.
  Lemma single_day pf store now rnd y m d : valid_date y m d ->
    list_range pf store now rnd (template_text t ++ $"/") (of_fields y m d 0 0 0) (of_fields y m d 23 59 59)
    = get_list_of_blobs pf store [day_folder t (y, m, d)].
  Proof.
    intros V. assert (T1 : valid_time 0 0 0) by (unfold valid_time; lia). assert (T2 : valid_time 23 59 59) by (unfold valid_time; lia).
    assert (L : (of_fields y m d 0 0 0 <= of_fields y m d 23 59 59)%Z) by (unfold of_fields; lia).
    destruct (Proofs.ReadRange.range_each_day_once pf store now rnd t y m d 0 0 0 y m d 23 59 59 template_daily V T1 V T2 L)
      as (days & C & Hd & Hl & _ & ->).
    assert (E : days = [(y, m, d)]).
    { pose proof (consecutive_sorted days C) as S. destruct days as [|x l]; [discriminate|]. injection Hd as ->.
      destruct l as [|x' l]; auto. exfalso. apply StronglySorted_inv in S as [_ Fa]. rewrite Forall_forall in Fa.
      assert (I : In (y, m, d) (x' :: l)).
      { change (last ((y, m, d) :: x' :: l) (0, 0, 0)%Z) with (last (x' :: l) (0, 0, 0)%Z) in Hl.
        destruct (exists_last (l := x' :: l)) as (p & w & Ep); [discriminate|]. rewrite Ep in *. rewrite last_last in Hl. subst.
        apply in_app_iff. right. left. reflexivity. }
      apply Fa in I. unfold day_lt in I. lia. }
    now subst days.
  Qed.

  Context (hash : str -> Z) (loads : str -> result cdict) (records : str -> list value) (n : nat).
  Context (pf : option (str * str * str)) (now : datetime) (rnd : str).
  Context (y m d hh mm ss y' m' d' hh' mm' ss' : Z).
  Context (V1 : valid_date y m d) (T1 : valid_time hh mm ss) (V2 : valid_date y' m' d') (T2 : valid_time hh' mm' ss').
  Context (Y1 : (1000 <= y)%Z) (Y2 : (y' <= 9999)%Z).
  Context (L : (of_fields y m d hh mm ss <= of_fields y' m' d' hh' mm' ss')%Z).
  Context (CH : chronological t).
  Notation read store a b := (records_read (read_records hash loads
    (fun _ => list_range pf store now rnd (template_text t ++ $"/") a b) 0 records NoCursor n)).

  Lemma range_days (store : str -> list str) (day_store : Z * Z * Z -> str -> list str) :
    (forall date b, within (y, m, d) (y', m', d') date -> In b (store (day_folder t date)) -> exists rest, b = day_folder t date ++ $"/" ++ rest) ->
    (forall date b, within (y, m, d) (y', m', d') date -> (In b (day_store date (day_folder t date)) <-> In b (store (day_folder t date)))) ->
    exists days, consecutive days /\ hd_error days = Some (y, m, d) /\ last days (y', m', d') = (y', m', d') /\
    let day date := let '(y, m, d) := date in read (day_store (y, m, d)) (of_fields y m d 0 0 0) (of_fields y m d 23 59 59) in
    let whole := read store (of_fields y m d hh mm ss) (of_fields y' m' d' hh' mm' ss') in
    forall parts, Forall2 (fun date part => day date = Ok part \/ (day date = Raise DataNotFoundError /\ part = [])) days parts ->
      (Forall (fun date => day date = Raise DataNotFoundError) days -> whole = Raise DataNotFoundError) /\
      (~ Forall (fun date => day date = Raise DataNotFoundError) days -> whole = Ok (firstn n (concat parts))).
  Proof.
    intros HU HE.
    destruct (Proofs.ReadRange.range_each_day_once pf store now rnd t y m d hh mm ss y' m' d' hh' mm' ss' template_daily V1 T1 V2 T2 L)
      as (days & C & Hd & Hl & ND & ER).
    exists days. split; [exact C|]. split; [exact Hd|].
    assert (Hl' : last days (y', m', d') = (y', m', d')).
    { destruct days as [|x l]; [discriminate Hd|]. destruct (exists_last (l := x :: l)) as (p & w & Ep); [discriminate|]. rewrite Ep in *. rewrite last_last in *. exact Hl. }
    split; [exact Hl'|]. cbv zeta.
    assert (Vd : forall x, In x days -> valid_day x).
    { apply (consecutive_valid days C (y, m, d) Hd). now apply valid_date_spec. }
    assert (Wd : forall date, In date days -> within (y, m, d) (y', m', d') date).
    { intros date Hin. pose proof (Vd date Hin) as Vx.
      pose proof (proj1 (consecutive_all days C (y, m, d) (y', m', d') Hd (proj1 (valid_date_spec y m d) V1) date Vx) Hin) as B.
      rewrite Hl' in B. apply andb_prop in B as [B1 B2]. split; [|split; assumption].
      destruct date as [[u v] w]. now apply valid_date_spec. }
    assert (Fd : forall date, In date days -> four_digits date).
    { intros date Hin. destruct (Wd date Hin) as (_ & B1 & B2). apply date_leb_spec in B1, B2. destruct date as [[u v] w]. unfold four_digits.
      destruct B1 as [[= <- <- <-]|B1], B2 as [[= <- <- <-]|B2]; unfold day_lt in *; lia. }
    intros parts HP.
    assert (Q : forall date, In date days ->
      (let '(y, m, d) := date in list_range pf (day_store (y, m, d)) now rnd (template_text t ++ $"/") (of_fields y m d 0 0 0) (of_fields y m d 23 59 59)) =
      get_list_of_blobs pf (day_store date) [day_folder t date]).
    { intros [[u v] w] Hin. apply single_day. apply valid_date_spec. exact (Vd (u, v, w) Hin). }
    rewrite ER.
    assert (HP' : Forall2 (day_part hash loads records n pf (day_folder t) day_store) days parts).
    { clear - HP Q. induction HP as [|[[u v] w] part ds ps P _ IH]; constructor.
      - unfold day_part. rewrite <- (Q (u, v, w)) by (now left). exact P.
      - apply IH. intros; apply Q; now right. }
    destruct (read_days hash loads records n pf (day_folder t) store day_store days parts) as [A1 A2]; auto.
    { now apply consecutive_sorted. }
    { intros a b Ha Hb Lt. apply folders_lt; auto. }
    assert (X : Forall (fun date => (let '(y, m, d) := date in read (day_store (y, m, d)) (of_fields y m d 0 0 0) (of_fields y m d 23 59 59)) = Raise DataNotFoundError) days <->
                Forall (fun date => records_read (read_records hash loads (fun _ => get_list_of_blobs pf (day_store date) [day_folder t date]) 0 records NoCursor n) = Raise DataNotFoundError) days).
    { rewrite !Forall_forall. split; intros H [[u v] w] Hin.
      - rewrite <- (Q (u, v, w) Hin). exact (H (u, v, w) Hin).
      - specialize (H (u, v, w) Hin). rewrite <- (Q (u, v, w) Hin) in H. exact H. }
    split; intros H; [apply A1, X, H|apply A2; intros C'; apply H, X, C'].
  Qed.
End Dataset.

(** ** The adapters *)
Lemma stored_days parse unzstd other columns filters hash loads k now rnd names folders n (s : Adapters.stored)
    y m d hh mm ss y' m' d' hh' mm' ss' :
  let t := dataset_template (join $"/" names) folders in
  folder_names names -> daily_partitions folders -> chronological t -> Spec.Adapters.proper k s ->
  valid_date y m d -> valid_time hh mm ss -> valid_date y' m' d' -> valid_time hh' mm' ss' ->
  (1000 <= y)%Z -> (y' <= 9999)%Z -> (of_fields y m d hh mm ss <= of_fields y' m' d' hh' mm' ss')%Z ->
  let read a b := records_read (read_selected parse unzstd other columns filters hash loads k now rnd t a b n s) in
  let day date := let '(y, m, d) := date in read (of_fields y m d 0 0 0) (of_fields y m d 23 59 59) in
  let whole := read (of_fields y m d hh mm ss) (of_fields y' m' d' hh' mm' ss') in
  exists days, consecutive days /\ hd_error days = Some (y, m, d) /\ last days (y', m', d') = (y', m', d') /\
  forall parts, Forall2 (fun date part => day date = Ok part \/ (day date = Raise DataNotFoundError /\ part = [])) days parts ->
    (Forall (fun date => day date = Raise DataNotFoundError) days -> whole = Raise DataNotFoundError) /\
    (~ Forall (fun date => day date = Raise DataNotFoundError) days -> whole = Ok (firstn n (concat parts))).
Proof.
  intros t HN HF CH P V1 T1 V2 T2 Y1 Y2 L. cbv zeta.
  set (hs := range_hours now (of_fields y m d hh mm ss) (of_fields y' m' d' hh' mm' ss')).
  set (dh := fun date : Z * Z * Z => let '(y, m, d) := date in range_hours now (of_fields y m d 0 0 0) (of_fields y m d 23 59 59)).
  assert (LS : forall hours (date : Z * Z * Z) b, hours <> [] -> In b (listing k rnd hours (day_folder t date) s) <->
      startswith (day_folder t date ++ $"/") b = true /\ endswith $"/" b = false /\ exists data, Spec.Adapters.holds k s b data).
  { intros hours [[u v] w] b NE. unfold t. rewrite (System.day_root names HN folders HF u v w).
    pose proof (System.day_folder_ok names HN folders HF (a_day u v w)) as F.
    destruct (AdaptersUse.listed_folder k rnd hours _ s F P) as (out & Eo & I & _); [auto|].
    unfold listing. rewrite Eo. apply I. }
  assert (N1 : hs <> []) by now apply System.some_hours.
  assert (N2 : forall date, dh date <> []) by (intros [[u v] w]; apply System.some_hours; unfold of_fields; lia).
  destruct (range_days names HN folders HF hash loads (blob_records parse unzstd other (fun name => Adapters.get_blob_bytes k name s) columns filters None)
              n None now rnd y m d hh mm ss y' m' d' hh' mm' ss' V1 T1 V2 T2 Y1 Y2 L CH
              (fun p => listing k rnd hs p s) (fun date p => listing k rnd (dh date) p s)) as (days & C & Hd & Hl & H).
  - intros date b _ I. apply LS in I as (I & _); auto. apply startswith_iff in I as [rest ->]. exists rest. now rewrite <- app_assoc.
  - intros date b _. fold t. cbv beta. now rewrite !LS by auto.
  - exists days. split; [exact C|]. split; [exact Hd|]. split; [exact Hl|]. exact H.
Qed.

Lemma range_of_days (names : list str) (folders : list (list seg)) :
  let t := dataset_template (join $"/" names) folders in
  folder_names names -> daily_partitions folders -> chronological t ->
  forall (hash : str -> Z) (loads : str -> result cdict) (records : str -> list value) (n : nat)
         (pf : option (str * str * str)) (now : datetime) (rnd : str) (y m d hh mm ss y' m' d' hh' mm' ss' : Z),
    valid_date y m d -> valid_time hh mm ss -> valid_date y' m' d' -> valid_time hh' mm' ss' ->
    (1000 <= y)%Z -> (y' <= 9999)%Z -> (of_fields y m d hh mm ss <= of_fields y' m' d' hh' mm' ss')%Z ->
    forall (store : str -> list str),
    (forall date b, within (y, m, d) (y', m', d') date -> In b (store (day_folder t date)) ->
       exists rest, b = day_folder t date ++ $"/" ++ rest) ->
    let read a b := records_read (read_records hash loads
      (fun _ => list_range pf store now rnd (template_text t ++ $"/") a b) 0 records NoCursor n) in
    let day date := let '(y, m, d) := date in read (of_fields y m d 0 0 0) (of_fields y m d 23 59 59) in
    let whole := read (of_fields y m d hh mm ss) (of_fields y' m' d' hh' mm' ss') in
    exists days, consecutive days /\ hd_error days = Some (y, m, d) /\ last days (y', m', d') = (y', m', d') /\
    forall parts,
      Forall2 (fun date part => day date = Ok part \/ (day date = Raise DataNotFoundError /\ part = [])) days parts ->
      (Forall (fun date => day date = Raise DataNotFoundError) days -> whole = Raise DataNotFoundError) /\
      (~ Forall (fun date => day date = Raise DataNotFoundError) days -> whole = Ok (firstn n (concat parts))).
Proof.
  intros t HN HF CH hash loads records n pf now rnd y m d hh mm ss y' m' d' hh' mm' ss' V1 T1 V2 T2 Y1 Y2 L store HU.
  exact (range_days names HN folders HF hash loads records n pf now rnd y m d hh mm ss y' m' d' hh' mm' ss' V1 T1 V2 T2 Y1 Y2 L CH
           store (fun _ => store) HU (fun _ _ _ => iff_refl _)).
Qed.
