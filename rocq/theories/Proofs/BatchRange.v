(** Proofs: a batch of one day among other days and datasets. *)
From Coq Require Import Sorted.
From Verif.Base Require Import Py PyFacts Value ValueFacts.
From Verif.Model Require Import Paths Dates Frames ReadRange Cursor Storage Writers Adapters Reader.
From Verif.Spec Require Import Paths Dates Frames Cursor Json Writers Reader StreamRead.
From Verif.Spec Require Adapters.
From Verif.Spec Require Import System.
From Verif.Proofs Require RoundTrip.
From Verif.Proofs Require Import Paths Dates Writers Adapters AdaptersUse System.
From Verif.Proofs Require BatchFolder StreamRange ReadRange Repeats RangeDays SystemBatch.
Local Open Scope nat_scope.

Section Outside.
  Context (k : kind) (E : setting value) (ext : str) (names : list str) (folders : list (list seg)) (texts : list str) (y m d : Z) (w : moment) (rnd ds : str) (i : inner).
  Hypothesis HN : folder_names names.
  Hypothesis HF : daily_partitions folders.
  Hypothesis HT : written_as folders texts.
  Hypothesis HJ : data_file_extension (extension (s_format E) ext).
  Hypothesis PE : plain ext.
  Hypothesis PN : plain (s_node E).
  Hypothesis CF : clean_failures E.
  Hypothesis Hds : new_frame_id rnd (join $"/" names) texts w (a_day y m d) = Ok ds.
  Hypothesis Hfile : inner_filename (s_format E) ext ds = Ok (s_filename E).
  Hypothesis Hinner : new_inner k (s_format E) ext ds = Ok i.
  Local Notation root := (day_folder (dataset_template (join $"/" names) folders) (y, m, d)).
  Local Notation dn := (day_names names folders (a_day y m d)).
  Hypothesis NB : contains $"BACKOUT" (root ++ $"/" ++ as_at_text w) = false.
  Context (es : list entry) (rs : list value) (fs : list bool) (os : list outcome) (st : state (R:=value))
          (log' : list (str * str)) (ops : list operation) (s0 s1 : stored) (i' : inner).
  Hypothesis P0 : proper k s0.
  Hypothesis TD : tidy root (live root es).
  Hypothesis HR : run E (new_writer nothing) (map Append rs ++ map Finalize fs) = (os, st).
  Hypothesis GC : good_clock E (attempts (st_world st)).
  Hypothesis CR : crashed (puts (st_world st)) log'.
  Hypothesis HO : operations_of E log' ops.
  Hypothesis TK : k = Gcs -> taken E (map Append rs ++ map Finalize fs) os <> [].
  Hypothesis Hop : operate k i (s_node E) ops s0 = Ok (i', s1).
  Lemma log_names q : In q (map fst log') -> exists file, component file /\ Spec.Adapters.with_extension file /\
    q = join $"/" (dn ++ [as_at_text w]) ++ $"/" ++ file.
  Proof.
    destruct (SystemBatch.writer_facts k E ext names folders texts y m d w rnd ds i HN HF HT Hds Hfile Hinner) as (b & fs' & Ed & F & Hf & _).
    pose proof (SystemBatch.fit E ext HJ PE PN) as Fit.
    rewrite Ed. clear - HO F Hf Fit. induction HO as [|e o l1 l2 He HO1 IH]; [intros []|].
    apply (op_named E ext b fs' F Fit Hf) in He as [He _]. intros [<-|Hq]; [|auto].
    exists (file_of_op E ext o). destruct (file_of_op_ok E ext Fit o). auto.
  Qed.
  Lemma stored_after : proper k s1 /\
    (forall q, (exists data, holds_at k s1 q data) <-> (exists data, holds_at k s0 q data) \/ In q (map fst log')) /\
    (forall q, (forall p, In p (map fst log') -> components_of q <> components_of p) -> get_blob_bytes k q s1 = get_blob_bytes k q s0).
  Proof.
    destruct (SystemBatch.writer_facts k E ext names folders texts y m d w rnd ds i HN HF HT Hds Hfile Hinner) as (b & fs' & Ed & F & Hf & WA).
    pose proof (SystemBatch.fit E ext HJ PE PN) as Fit.
    pose proof (SystemBatch.blob_first (fun _ => Raise ValueError) (fun _ => Raise ValueError) (fun _ _ => ([], None)) (fun _ => 0%Z) (fun _ => Raise ValueError)
                  k E ext names folders texts y m d w rnd ds i HN HF HT HJ PE PN CF Hds Hfile Hinner NB [] es rs fs os st log' ops TD HR GC CR HO TK) as BF.
    destruct (operate_seq k E ext b fs' F Fit Hf ops log' i s0 HO WA (fun G => or_intror (BF G)) P0)
      as (i1 & s1' & E1 & P1 & H1 & _ & O1).
    rewrite Hop in E1. assert (s1' = s1) by congruence. subst s1'. auto.
  Qed.

  Section Folder.
    Context (names2 : list str) (HN2 : folder_names names2) (folders2 : list (list seg)) (HF2 : daily_partitions folders2) (y2 m2 d2 : Z).
    Local Notation root2 := (day_folder (dataset_template (join $"/" names2) folders2) (y2, m2, d2)).
    Local Notation dn2 := (day_names names2 folders2 (a_day y2 m2 d2)).
    Hypothesis Other : startswith (root2 ++ $"/") (root ++ $"/" ++ as_at_text w ++ $"/") = false.
    Lemma not_below rest file : Spec.Adapters.with_extension file -> dn2 ++ rest = dn ++ [as_at_text w; file] -> False.
    Proof.
      intros X Q. pose proof (day_root names HN folders HF y m d) as R1. pose proof (day_root names2 HN2 folders2 HF2 y2 m2 d2) as R2.
      destruct (day_names_last names2 folders2 HF2 (a_day y2 m2 d2)) as (l2 & p2 & Hp2 & LD).
      pose proof (proj2 (proj2 (fill_partition p2 (a_day y2 m2 d2) (proj1 HF2 p2 Hp2)))) as ND.
      pose proof (day_names_ne names2 folders2 HF2 (a_day y2 m2 d2)) as NE.
      pose proof (day_names_ne names folders HF (a_day y m d)) as NE1.
      assert (Up : forall l, dn2 ++ l <> dn ++ [as_at_text w]).
      { intros l El. rewrite R1, R2 in Other. 
        assert (J : join $"/" dn ++ $"/" ++ as_at_text w ++ $"/" = join $"/" (dn2 ++ l) ++ $"/").
        { rewrite El, (join_app _ dn) by (auto; discriminate). rewrite <- !app_assoc. reflexivity. }
        rewrite J in Other. destruct l as [|x l]; [rewrite app_nil_r, startswith_refl in Other; discriminate|].
        rewrite (join_app _ dn2) in Other by (auto; discriminate). rewrite <- !app_assoc, (app_assoc (join _ dn2)), startswith_app in Other. discriminate. }
      destruct rest as [|x rest] using rev_ind.
      - rewrite app_nil_r, LD in Q. change [as_at_text w; file] with ([as_at_text w] ++ [file]) in Q. rewrite app_assoc in Q. apply app_inj_tail in Q as [_ Q].
        destruct X as (a & e & E1 & _). apply ND. rewrite Q, E1, !in_app_iff. right. left. left. reflexivity.
      - clear IHrest. change [as_at_text w; file] with ([as_at_text w] ++ [file]) in Q. rewrite !app_assoc in Q. apply app_inj_tail in Q as [Q _]. now apply Up in Q.
    Qed.
    Lemma folder_kept q : startswith (root2 ++ $"/") q = true ->
      ((exists data, holds_at k s1 q data) <-> (exists data, holds_at k s0 q data)) /\ get_blob_bytes k q s1 = get_blob_bytes k q s0.
    Proof.
      intros S. apply startswith_iff in S as [rest Er]. rewrite <- app_assoc in Er.
      pose proof (day_folder_ok names HN folders HF (a_day y m d)) as FD. pose proof (day_folder_ok names2 HN2 folders2 HF2 (a_day y2 m2 d2)) as FD2.
      assert (N : forall p, In p (map fst log') -> components_of q <> components_of p).
      { intros p Hp. destruct (log_names p Hp) as (file & C & X & ->). rewrite Er, (day_root names2 HN2 folders2 HF2).
        rewrite join_app by (try discriminate; apply day_names_ne; exact HF). cbn [join]. rewrite <- !app_assoc, !components_app_slash.
        rewrite (components_join dn2), (components_join dn), (components_single (as_at_text w)), (components_single file); auto.
        - intros Q. exact (not_below (components_of rest) file X Q).
        - apply (BatchFolder.as_at_component w).
        - intros c Hc; apply FD; auto.
        - intros c Hc; apply FD2; auto. }
      destruct stored_after as (_ & H1 & O1). split; [|now apply O1]. rewrite H1. split; [intros [H|H]; auto|auto]. now apply N in H.
    Qed.
  End Folder.
End Outside.

Lemma list_incl pf store paths out b : get_list_of_blobs pf store paths = Ok out -> In b out -> exists p, In p paths /\ In b (store p).
Proof.
  unfold get_list_of_blobs. destruct (mapM _ _) as [found|] eqn:M; [|discriminate]. cbn [bind].
  intros [= <-] H. apply isort_In in H. apply in_concat in H as (l & Hl & Hb).
  assert (G : forall ps found, mapM (fun p => cycle_blobs_of pf (store p)) ps = Ok found -> In l found ->
              exists p, In p ps /\ cycle_blobs_of pf (store p) = Ok l).
  { intros ps. induction ps as [|p ps IH]; intros f; cbn [mapM]; [intros [= <-] []|].
    destruct (cycle_blobs_of pf (store p)) as [l1|] eqn:E1; [|discriminate]. cbn [bind].
    destruct (mapM _ ps) as [f'|]; [|discriminate]. cbn [bind]. intros [= <-] [->|I].
    - exists p. split; [now left|exact E1].
    - destruct (IH f' eq_refl I) as (p' & Hp & E'). exists p'. split; [now right|exact E']. }
  destruct (G _ _ M Hl) as (p & Hp & Ep). exists p. split.
  - rewrite (dedup_In str_eqb str_eqb_eq) in Hp. exact Hp.
  - eapply RangeDays.cycle_incl; eauto.
Qed.
Lemma sorted_same {A} (R : A -> A -> Prop) : (forall a, ~ R a a) -> (forall a b c, R a b -> R b c -> R a c) ->
  forall l m, StronglySorted R l -> StronglySorted R m -> (forall x, In x l <-> In x m) -> l = m.
Proof.
  intros I T l m Sl. revert m. induction Sl as [|a l Sl IH Fl]; intros m Sm H.
  - destruct m as [|b m]; [reflexivity|]. destruct (proj2 (H b)). now left.
  - destruct Sm as [|b m Sm Fm]; [destruct (proj1 (H a)); now left|]. rewrite Forall_forall in Fl, Fm.
    assert (E : a = b).
    { destruct (proj1 (H a) (or_introl eq_refl)) as [E|E]; [auto|]. destruct (proj2 (H b) (or_introl eq_refl)) as [E'|E']; [auto|].
      exfalso. apply (I a). eapply T; [apply Fl, E'|apply Fm, E]. }
    subst b. f_equal. apply IH; [exact Sm|]. intros x. split; intros Hx.
    + destruct (proj1 (H x) (or_intror Hx)) as [<-|E]; [|exact E]. destruct (I a). auto.
    + destruct (proj2 (H x) (or_intror Hx)) as [<-|E]; [|exact E]. destruct (I a). auto.
Qed.

Lemma read_congr hash loads (f g : str -> list value) r n : (forall l b, r = Ok l -> In b l -> f b = g b) ->
  records_read (read_records hash loads (fun _ => r) 0 f NoCursor n) = records_read (read_records hash loads (fun _ => r) 0 g NoCursor n).
Proof.
  intros H. unfold read_records, find_blobs. change (1 <? 0)%Z with false. cbn iota.
  destruct r as [l|e]; cbn [bind]; [|reflexivity].
  destruct (filter is_readable l) as [|x0 l0] eqn:El; [reflexivity|]. rewrite <- El. clear x0 l0 El.
  f_equal. apply session_same. intros q Hq. apply filter_In in Hq as [Hq _]. eapply H; eauto.
Qed.

(** the days between two are determined *)
Lemma days_all ds a z dflt : consecutive ds -> (let '(y, m, d) := a in valid_date y m d) -> hd_error ds = Some a -> last ds dflt = z ->
  forall date, In date ds <-> within a z date.
Proof.
  destruct a as [[y m] d]. intros Cd V Hh Hz date. pose proof (proj1 (valid_date_spec y m d) V) as Vy.
  pose proof (StreamRange.consecutive_all ds Cd (y, m, d) dflt Hh Vy date) as B. rewrite Hz in B. split.
  - intros I. pose proof (StreamRange.consecutive_valid ds Cd (y, m, d) Hh Vy date I) as Vx. apply (B Vx) in I.
    apply andb_prop in I as [B1 B2]. split; [|split; assumption]. destruct date as [[u v] q]. now apply valid_date_spec.
  - intros (Vx & B1 & B2). apply B; [destruct date as [[u v] q]; now apply valid_date_spec|]. now rewrite B1, B2.
Qed.
Lemma days_unique ds ds' a z dflt : consecutive ds -> consecutive ds' -> (let '(y, m, d) := a in valid_date y m d) ->
  hd_error ds = Some a -> hd_error ds' = Some a -> last ds dflt = z -> last ds' dflt = z -> ds' = ds.
Proof.
  intros C C' V H H' L L'. apply (sorted_same StreamRange.day_lt).
  - intros [[u v] q] Lt. unfold StreamRange.day_lt in Lt. lia.
  - apply StreamRange.day_lt_trans.
  - now apply StreamRange.consecutive_sorted.
  - now apply StreamRange.consecutive_sorted.
  - intros x. now rewrite (days_all ds a z dflt), (days_all ds' a z dflt).
Qed.

(** what a range of days depends on *)
Section Depends.
  Context (k : kind) (s0 s1 : stored) (P0 : proper k s0) (P1 : proper k s1).
  Context (names : list str) (HN : folder_names names) (folders : list (list seg)) (HF : daily_partitions folders).
  Local Notation t := (dataset_template (join $"/" names) folders).
  Lemma range_depends parse unzstd other columns filters hash loads now rnd n y m d hh mm ss y' m' d' hh' mm' ss' :
    valid_date y m d -> valid_time hh mm ss -> valid_date y' m' d' -> valid_time hh' mm' ss' ->
    (of_fields y m d hh mm ss <= of_fields y' m' d' hh' mm' ss')%Z ->
    (forall date q, within (y, m, d) (y', m', d') date -> startswith (day_folder t date ++ $"/") q = true ->
      ((exists data, holds_at k s1 q data) <-> (exists data, holds_at k s0 q data)) /\ get_blob_bytes k q s1 = get_blob_bytes k q s0) ->
    let read s := records_read (read_selected parse unzstd other columns filters hash loads k now rnd t
                    (of_fields y m d hh mm ss) (of_fields y' m' d' hh' mm' ss') n s) in
    read s1 = read s0.
  Proof.
    intros V1 T1 V2 T2 L H. cbv zeta. unfold read_selected.
    set (hs := range_hours now (of_fields y m d hh mm ss) (of_fields y' m' d' hh' mm' ss')).
    assert (N1 : hs <> []) by now apply some_hours.
    assert (LS : forall s (date : Z * Z * Z) b, proper k s -> In b (listing k rnd hs (day_folder t date) s) <->
        startswith (day_folder t date ++ $"/") b = true /\ endswith $"/" b = false /\ exists data, holds_at k s b data).
    { intros s [[u v] w] b P. rewrite (day_root names HN folders HF u v w).
      pose proof (day_folder_ok names HN folders HF (a_day u v w)) as F.
      destruct (listed_folder k rnd hs _ s F P) as (out & Eo & I & _); [auto|].
      unfold listing. rewrite Eo. apply I. }
    destruct (Proofs.ReadRange.range_each_day_once None (fun p => listing k rnd hs p s1) now rnd t y m d hh mm ss y' m' d' hh' mm' ss'
                (template_daily names HN folders HF) V1 T1 V2 T2 L) as (days & C & Hd & Hl & _ & ER1).
    destruct (Proofs.ReadRange.range_each_day_once None (fun p => listing k rnd hs p s0) now rnd t y m d hh mm ss y' m' d' hh' mm' ss'
                (template_daily names HN folders HF) V1 T1 V2 T2 L) as (days' & C' & Hd' & Hl' & _ & ER0).
    pose proof (days_all days (y, m, d) (y', m', d') _ C V1 Hd Hl) as Wd.
    assert (Ed : days' = days) by exact (days_unique days days' (y, m, d) (y', m', d') _ C C' V1 Hd Hd' Hl Hl').
    subst days'. rewrite ER1, ER0.
    rewrite (read_congr hash loads _ (blob_records parse unzstd other (fun name => get_blob_bytes k name s0) columns filters None)).
    - apply Repeats.read_set, Repeats.get_list_same. intros p Hp q. apply in_map_iff in Hp as (date & <- & Hin).
      rewrite (LS s1 date q P1), (LS s0 date q P0). apply Wd in Hin. split; intros (A & B & D); (split; [exact A|]); (split; [exact B|]);
        destruct (H date q Hin A) as [D' _]; now apply D'.
    - intros l b E1 Hb. destruct (list_incl _ _ _ _ _ E1 Hb) as (p & Hp & Hs). apply in_map_iff in Hp as (date & <- & Hin).
      apply (LS s1 date b P1) in Hs as (A & _). apply Wd in Hin. unfold blob_records. now rewrite (proj2 (H date b Hin A)).
  Qed.
End Depends.

Lemma other_day names folders y m d y2 m2 d2 w : folder_names names -> daily_partitions folders ->
  valid_date y m d -> valid_date y2 m2 d2 -> (y2, m2, d2) <> (y, m, d) ->
  let folder date := day_folder (dataset_template (join $"/" names) folders) date in
  startswith (folder (y2, m2, d2) ++ $"/") (folder (y, m, d) ++ $"/" ++ as_at_text w ++ $"/") = false.
Proof.
  intros HN HF V V2 NE. cbv zeta. destruct (startswith _ _) eqn:S; [|reflexivity]. exfalso. apply NE.
  apply startswith_iff in S as [rest E]. rewrite <- app_assoc in E.
  pose proof (day_folder_ok names HN folders HF (a_day y m d)) as FD. pose proof (day_folder_ok names HN folders HF (a_day y2 m2 d2)) as FD2.
  apply (f_equal components_of) in E. rewrite !components_app_slash, BatchFolder.components_drop_slash, !day_root in E by assumption.
  rewrite (components_join (day_names names folders (a_day y m d))) in E by (intros c Hc; apply FD; exact Hc).
  rewrite (components_join (day_names names folders (a_day y2 m2 d2))) in E by (intros c Hc; apply FD2; exact Hc).
  assert (Q : day_names names folders (a_day y2 m2 d2) = day_names names folders (a_day y m d)).
  { assert (Len : length (day_names names folders (a_day y2 m2 d2)) = length (day_names names folders (a_day y m d))).
    { unfold day_names. now rewrite !app_length, !map_length. }
    apply (f_equal (firstn (length (day_names names folders (a_day y m d))))) in E.
    rewrite firstn_app, firstn_all, Nat.sub_diag in E. cbn [firstn] in E. rewrite app_nil_r in E. rewrite <- Len in E at 1.
    rewrite firstn_app, firstn_all, Nat.sub_diag in E. cbn [firstn] in E. now rewrite app_nil_r in E. }
  apply (ReadRange.day_folder_inj (dataset_template (join $"/" names) folders)).
  - now apply template_daily.
  - now apply valid_date_spec.
  - now apply valid_date_spec.
  - rewrite !day_root by assumption. now rewrite Q.
Qed.

Lemma firstn_app_same {A} n (a b x y : list A) : firstn n a = firstn n b -> firstn n x = firstn n y -> firstn n (a ++ x) = firstn n (b ++ y).
Proof.
  revert a b. assert (G : forall k n (x y : list A), k <= n -> firstn n x = firstn n y -> firstn k x = firstn k y).
  { intros k n' u v Hk H. apply (f_equal (firstn k)) in H. rewrite !firstn_firstn in H. now rewrite Nat.min_l in H. }
  intros a b H1 H2. rewrite !firstn_app. assert (L : Nat.min n (length a) = Nat.min n (length b)) by (rewrite <- !firstn_length; congruence).
  replace (n - length b) with (n - length a) by lia. f_equal; [exact H1|]. apply (G _ n); [lia|exact H2].
Qed.
Lemma firstn_concat_same {A} n (l m : list (list A)) : Forall2 (fun a b => firstn n a = firstn n b) l m -> firstn n (concat l) = firstn n (concat m).
Proof. induction 1; [reflexivity|]. cbn [concat]. now apply firstn_app_same. Qed.

Lemma batch_and_others :
  forall k (E : setting value) ext names folders texts y m d w rnd ds i,
    folder_names names -> daily_partitions folders -> written_as folders texts ->
    let root := day_folder (dataset_template (join $"/" names) folders) (y, m, d) in
    new_frame_id rnd (join $"/" names) texts w (a_day y m d) = Ok ds ->
    inner_filename (s_format E) ext ds = Ok (s_filename E) -> new_inner k (s_format E) ext ds = Ok i ->
    data_file_extension (extension (s_format E) ext) ->
    plain ext -> plain (s_node E) -> clean_failures E -> contains $"BACKOUT" (root ++ $"/" ++ as_at_text w) = false ->
    forall es rs fs os (st : state (R:=value)) log' s0,
    proper k s0 -> tidy root (live root es) ->
    run E (new_writer nothing) (map Append rs ++ map Finalize fs) = (os, st) ->
    good_clock E (attempts (st_world st)) -> crashed (puts (st_world st)) log' ->
    (k = Gcs -> taken E (map Append rs ++ map Finalize fs) os <> []) ->
    forall ops i' s1, operations_of E log' ops -> operate k i (s_node E) ops s0 = Ok (i', s1) ->
    forall parse unzstd other columns filters hash loads now rnd' n names2 folders2 y1 m1 d1 hh1 mm1 ss1 y2 m2 d2 hh2 mm2 ss2,
    folder_names names2 -> daily_partitions folders2 -> valid_date y1 m1 d1 -> valid_time hh1 mm1 ss1 -> valid_date y2 m2 d2 -> valid_time hh2 mm2 ss2 ->
    let start := of_fields y1 m1 d1 hh1 mm1 ss1 in
    let stop := of_fields y2 m2 d2 hh2 mm2 ss2 in
    (start <= stop)%Z ->
    (forall date, within (y1, m1, d1) (y2, m2, d2) date ->
      startswith (day_folder (dataset_template (join $"/" names2) folders2) date ++ $"/") (root ++ $"/" ++ as_at_text w ++ $"/") = false) ->
    let read s := records_read (read_selected parse unzstd other columns filters hash loads k now rnd' (dataset_template (join $"/" names2) folders2) start stop n s) in
    read s1 = read s0.
Proof.
  intros k E ext names folders texts y m d w rnd ds i HN HF HT root Hds Hfile Hinner HJ PE PN CF NB es rs fs os st log' s0 P0 TD HR GC CR TK
    ops i' s1 HO Hop parse unzstd other columns filters hash loads now rnd' n names2 folders2 y1 m1 d1 hh1 mm1 ss1 y2 m2 d2 hh2 mm2 ss2 HN2 HF2 V1 T1 V2 T2 start stop L Oth.
  destruct (stored_after k E ext names folders texts y m d w rnd ds i HN HF HT HJ PE PN CF Hds Hfile Hinner NB es rs fs os st log' ops s0 s1 i' P0 TD HR GC CR HO TK Hop) as (P1 & _ & _).
  apply range_depends; auto. intros [[u v] z] q W S.
  apply (folder_kept k E ext names folders texts y m d w rnd ds i HN HF HT HJ PE PN CF Hds Hfile Hinner NB es rs fs os st log' ops s0 s1 i' P0 TD HR GC CR HO TK Hop names2 HN2 folders2 HF2 u v z); auto.
Qed.

Definition date_dec (a b : Z * Z * Z) : {a = b} + {a <> b}.
Proof. decide equality; [apply Z.eq_dec|]. decide equality; apply Z.eq_dec. Defined.
Definition not_found {A} (r : result A) : bool := match r with Raise DataNotFoundError => true | _ => false end.
Lemma all_or_not {A} (P : A -> Prop) (f : A -> bool) (l : list A) : (forall a, P a <-> f a = true) -> Forall P l \/ ~ Forall P l.
Proof.
  intros H. destruct (forallb f l) eqn:E.
  - left. rewrite forallb_forall in E. apply Forall_forall. intros a Ha. apply H. auto.
  - right. intros F. rewrite Forall_forall in F. assert (forallb f l = true); [|congruence]. apply forallb_forall. intros a Ha. apply H. auto.
Qed.

Lemma batch_in_range :
  forall parse unzstd other fits image columns filters c p hash loads k (E : setting value) ext names folders texts y m d w rnd ds i,
    folder_names names -> daily_partitions folders -> written_as folders texts ->
    let dataset := join $"/" names in
    let t := dataset_template dataset folders in
    chronological t ->
    let root := day_folder t (y, m, d) in
    let frame := as_at_text w in
    new_frame_id rnd dataset texts w (a_day y m d) = Ok ds ->
    inner_filename (s_format E) ext ds = Ok (s_filename E) -> new_inner k (s_format E) ext ds = Ok i ->
    read_as parse unzstd other E (extension (s_format E) ext) fits image ->
    plain ext -> plain (s_node E) -> clean_failures E -> contains $"BACKOUT" (root ++ $"/" ++ frame) = false ->
    forall now rnd' n es rs fs os (st : state (R:=value)) log' s0,
    valid_date y m d -> proper k s0 -> NoDup es ->
    (forall name, In name (listing k rnd' (range_hours now (of_fields y m d 0 0 0) (of_fields y m d 23 59 59)) root s0) <->
                  In name (map (name_in root) es)) ->
    tidy root (live root es) -> older_frames (live root es) frame ->
    run E (new_writer nothing) (map Append rs ++ map Finalize fs) = (os, st) ->
    good_clock E (attempts (st_world st)) -> crashed (puts (st_world st)) log' ->
    let records := taken E (map Append rs ++ map Finalize fs) os in
    (k = Gcs -> records <> []) -> (forall r, In r records -> fits r /\ applies columns filters c p (image r)) ->
    forall y1 m1 d1 hh1 mm1 ss1 y2 m2 d2 hh2 mm2 ss2,
    valid_date y1 m1 d1 -> valid_time hh1 mm1 ss1 -> valid_date y2 m2 d2 -> valid_time hh2 mm2 ss2 ->
    (1000 <= y1)%Z -> (y2 <= 9999)%Z ->
    let start := of_fields y1 m1 d1 hh1 mm1 ss1 in
    let stop := of_fields y2 m2 d2 hh2 mm2 ss2 in
    (start <= stop)%Z -> within (y1, m1, d1) (y2, m2, d2) (y, m, d) ->
    forall ops, operations_of E log' ops ->
    exists i' s1, operate k i (s_node E) ops s0 = Ok (i', s1) /\
    let read s a b := records_read (read_selected parse unzstd other columns filters hash loads k now rnd' t a b n s) in
    let day s date := let '(y, m, d) := date in read s (of_fields y m d 0 0 0) (of_fields y m d 23 59 59) in
    exists days, consecutive days /\ hd_error days = Some (y1, m1, d1) /\ last days (y2, m2, d2) = (y2, m2, d2) /\
      (~ marked (root ++ $"/" ++ frame) log' ->
       (forall date, In date days -> day s1 date = day s0 date) /\
       forall parts, Forall2 (fun date part => day s0 date = Ok part \/ (day s0 date = Raise DataNotFoundError /\ part = [])) days parts ->
         read s1 start stop = read s0 start stop) /\
      (marked (root ++ $"/" ++ frame) log' ->
       forall parts, Forall2 (fun date part =>
           (date = (y, m, d) /\ part = filter p (map c (map image records))) \/
           (date <> (y, m, d) /\ (day s0 date = Ok part \/ (day s0 date = Raise DataNotFoundError /\ part = [])))) days parts ->
         let nothing := records = [] /\ (forall date, In date days -> date <> (y, m, d) -> day s0 date = Raise DataNotFoundError) in
         (nothing -> read s1 start stop = Raise DataNotFoundError) /\ (~ nothing -> read s1 start stop = Ok (firstn n (concat parts)))).
Proof.
  intros parse unzstd other fits image columns filters c p hash loads k E ext names folders texts y m d w rnd ds i HN HF HT dataset t CH root frame Hds Hfile Hinner HB PE PN CF NB
    now rnd' n es rs fs os st log' s0 V P0 ND L0 TD OF HR GC CR records TK HRec
    y1 m1 d1 hh1 mm1 ss1 y2 m2 d2 hh2 mm2 ss2 V1 T1 V2 T2 Y1 Y2 start stop L W ops HO. pose proof (RoundTrip.read_as_extension _ _ _ _ _ _ _ HB) as HJ.
  assert (TT1 : valid_time 0 0 0) by (unfold valid_time; lia). assert (TT2 : valid_time 23 59 59) by (unfold valid_time; lia).
  assert (LL : forall u v z, (of_fields u v z 0 0 0 <= of_fields u v z 23 59 59)%Z) by (intros; unfold of_fields; lia).
  destruct (SystemBatch.selected_batch parse unzstd other fits image columns filters c p hash loads k E ext names folders texts y m d w rnd ds i HN HF HT Hds Hfile Hinner HB PE PN CF NB
    now 0 0 0 23 59 59 rnd' n es rs fs os st log' s0 V TT1 TT2 (LL y m d) P0 ND L0 TD OF HR GC CR TK HRec)%Z as (_ & B).
  destruct (B ops HO) as (i' & s1 & Hop & Day). clear B. exists i', s1. split; [exact Hop|].
  destruct (stored_after k E ext names folders texts y m d w rnd ds i HN HF HT HJ PE PN CF Hds Hfile Hinner NB es rs fs os st log' ops s0 s1 i' P0 TD HR GC CR HO TK Hop) as (P1 & _ & _).
  intros read day.
  destruct (RangeDays.stored_days parse unzstd other columns filters hash loads k now rnd' names folders n s1 y1 m1 d1 hh1 mm1 ss1 y2 m2 d2 hh2 mm2 ss2
              HN HF CH P1 V1 T1 V2 T2 Y1 Y2 L) as (days & C & Hd & Hl & R1).
  destruct (RangeDays.stored_days parse unzstd other columns filters hash loads k now rnd' names folders n s0 y1 m1 d1 hh1 mm1 ss1 y2 m2 d2 hh2 mm2 ss2
              HN HF CH P0 V1 T1 V2 T2 Y1 Y2 L) as (days' & C' & Hd' & Hl' & R0).
  assert (Ed : days' = days) by exact (days_unique days days' (y1, m1, d1) (y2, m2, d2) _ C C' V1 Hd Hd' Hl Hl'). subst days'.
  pose proof (days_all days (y1, m1, d1) (y2, m2, d2) _ C V1 Hd Hl) as Wd.
  assert (Od : forall date, In date days -> date <> (y, m, d) -> day s1 date = day s0 date).
  { intros [[u v] z] Hin NE. apply Wd in Hin as (Vz & _ & _).
    apply (batch_and_others k E ext names folders texts y m d w rnd ds i HN HF HT Hds Hfile Hinner HJ PE PN CF NB es rs fs os st log' s0 P0 TD HR GC CR TK
             ops i' s1 HO Hop parse unzstd other columns filters hash loads now rnd' n names folders u v z 0 0 0 u v z 23 59 59 HN HF Vz TT1 Vz TT2 (LL u v z))%Z.
    intros [[u' v'] z'] (Vz' & B1 & B2). apply StreamRange.date_leb_spec in B1, B2.
    assert (Q : (u', v', z') = (u, v, z)).
    { destruct B1 as [B1|B1]; [auto|]. destruct B2 as [B2|B2]; [auto|]. unfold StreamRange.day_lt in *. lia. }
    rewrite Q. apply other_day; auto. }
  assert (Iy : In (y, m, d) days) by now apply Wd.
  exists days. split; [exact C|]. split; [exact Hd|]. split; [exact Hl|]. split.
  - intros NM. assert (Same : forall date, In date days -> day s1 date = day s0 date).
    { intros date Hin. destruct (date_dec date (y, m, d)) as [->|NE]; [|now apply Od]. destruct Day as [(_ & Q)|(M & _)]; [exact Q|contradiction]. }
    split; [exact Same|]. intros parts HP.
    assert (HP1 : Forall2 (fun date part => day s1 date = Ok part \/ (day s1 date = Raise DataNotFoundError /\ part = [])) days parts).
    { clear - HP Same. induction HP as [|date part ds ps H _ IH]; constructor.
      - rewrite Same by now left. exact H.
      - apply IH. intros; apply Same; now right. }
    destruct (R1 parts HP1) as [A1 B1]. destruct (R0 parts HP) as [A0 B0].
    destruct (all_or_not (fun date => day s0 date = Raise DataNotFoundError) (fun date => not_found (day s0 date)) days) as [Al|Al].
    { intros date. destruct (day s0 date) as [o|[]]; cbn; split; congruence. }
    + transitivity (@Raise (list value) DataNotFoundError); [|symmetry; exact (A0 Al)]. apply A1. rewrite Forall_forall in *. intros date Hin.
      change (day s1 date = Raise DataNotFoundError). rewrite Same by exact Hin. now apply Al.
    + transitivity (@Ok (list value) (firstn n (concat parts))); [|symmetry; exact (B0 Al)]. apply B1. intros F. apply Al. rewrite Forall_forall in *. intros date Hin.
      rewrite <- Same by exact Hin. now apply F.
  - intros M parts HP. destruct Day as [(NM & _)|(_ & Q)]; [contradiction|].
    change (day s1 (y, m, d) = found records n (filter p (map c (map image records)))) in Q. clearbody records.
    set (parts1 := map (fun e : (Z * Z * Z) * list value => if date_dec (fst e) (y, m, d) then firstn n (snd e) else snd e) (combine days parts)).
    assert (HP1 : Forall2 (fun date part => day s1 date = Ok part \/ (day s1 date = Raise DataNotFoundError /\ part = [])) days parts1 /\
                  Forall2 (fun a b => firstn n a = firstn n b) parts1 parts).
    { unfold parts1. clear - HP Od Q. induction HP as [|date part ds ps H _ IH]; [split; constructor|].
      cbn [combine map fst snd]. destruct IH as [IH1 IH2]; [intros; apply Od; auto; now right|]. split; constructor; auto.
      - destruct (date_dec date (y, m, d)) as [->|NE]; destruct H as [[E1 ->]|[E1 H]]; try contradiction.
        + unfold found in Q. destruct records as [|r0 rs0] eqn:Er.
          * right. split; [exact Q|]. cbn [map filter]. apply firstn_nil.
          * left. exact Q.
        + rewrite Od; auto. now left.
      - destruct (date_dec date (y, m, d)); [rewrite firstn_firstn; now rewrite Nat.min_id|reflexivity]. }
    destruct HP1 as [HP1 HP2]. destruct (R1 parts1 HP1) as [A1 B1]. rewrite <- (firstn_concat_same n _ _ HP2). split.
    + intros [Hno Hd0]. apply A1. apply Forall_forall. intros date Hin.
      change (day s1 date = Raise DataNotFoundError). destruct (date_dec date (y, m, d)) as [->|NE].
      * change (day s1 (y, m, d) = found records n (filter p (map c (map image records)))) in Q. rewrite Q, Hno. reflexivity.
      * rewrite Od by auto. now apply Hd0.
    + intros Hsome. apply B1. intros F. apply Hsome. rewrite Forall_forall in F. split.
      * specialize (F _ Iy). change (day s1 (y, m, d) = Raise DataNotFoundError) in F.
        change (day s1 (y, m, d) = found records n (filter p (map c (map image records)))) in Q. rewrite F in Q. clear - Q.
        destruct records; [reflexivity|discriminate].
      * intros date Hin NE. rewrite <- Od by auto. exact (F _ Hin).
Qed.
