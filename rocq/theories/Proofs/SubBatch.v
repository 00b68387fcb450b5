(** Proofs: batches for a part of a day. *)
From Coq Require Import Sorted Permutation.
From Verif.Base Require Import Py PyFacts Value.
From Verif.Model Require Import Frames Writers Reader Cursor.
From Verif.Spec Require Import Paths Frames Writers StreamField Cursor System SubBatch.
From Verif.Proofs Require Import Frames Writers.
From Verif.Proofs Require Batch RoundTrip Repeats Cursor RangeDays.

(** ** Characters of the names *)
Lemma kept_char c : is_alpha c || is_digit c || is_space c = true -> c <> "_"%char /\ c <> "/"%char /\ c <> "."%char /\ c <> "="%char /\ c <> "{"%char /\ c <> "}"%char.
Proof. intros H. repeat split; intros ->; discriminate. Qed.
Lemma field_kept F : field_name F -> kept_whole F.
Proof.
  intros (K & _). intros c Hc. unfold kept_text in K. rewrite <- K in Hc. apply filter_In in Hc. tauto.
Qed.
Lemma kept_sanitize v : kept_whole v -> sanitize v = v.
Proof. intros H. unfold sanitize. apply filter_all. intros c Hc. apply H. exact Hc. Qed.

Section Part.
  Context (F : str).
  Hypothesis HF : field_name F.
  Let HK : kept_whole F := field_kept F HF.
  Notation b := ($"by_" ++ F).
  Lemma folder_chars v c : kept_whole v -> In c (F ++ $"=" ++ v) -> c <> "_"%char /\ c <> "/"%char /\ c <> "."%char.
  Proof.
    intros Hv H. rewrite !in_app_iff in H. destruct H as [H|[H|H]].
    - apply HK, kept_char in H. tauto.
    - destruct H as [<-|[]]. repeat split; discriminate.
    - apply Hv, kept_char in H. tauto.
  Qed.
  Lemma no_underscore n s : (forall c, In c s -> c <> "_"%char) -> In "_"%char n -> contains n s = false.
  Proof.
    intros H Hn. apply contains_false. intros x y ->. apply (H "_"%char); [|reflexivity]. rewrite !in_app_iff. auto.
  Qed.
  Lemma startswith_contains n s : startswith n s = true -> contains n s = true.
  Proof. intros H. apply startswith_iff in H as [y ->]. apply contains_iff. exists [], y. reflexivity. Qed.
  Lemma endswith_contains n s : endswith n s = true -> contains n s = true.
  Proof. intros H. apply endswith_iff in H as [y ->]. apply contains_iff. exists y, []. now rewrite app_nil_r. Qed.
  Lemma by_slash : ~ In "/"%char b.
  Proof. intros H. apply in_app_iff in H as [H|H]; [cbn in H; intuition discriminate|]. apply HK, kept_char in H. tauto. Qed.
  Lemma by_as_at : contains $"as_at_" b = false.
  Proof.
    apply contains_false. intros x y E.
    assert (C : forall s, kept_whole s -> count_occ ascii_dec s "_"%char = 0%nat).
    { intros s Hs. apply count_occ_not_In. intros H. apply Hs, kept_char in H. tauto. }
    apply (f_equal (fun s => count_occ ascii_dec s "_"%char)) in E. rewrite !count_occ_app in E. rewrite (C F HK) in E.
    change (count_occ ascii_dec $"by_" "_"%char) with 1%nat in E. change (count_occ ascii_dec $"as_at_" "_"%char) with 2%nat in E. lia.
  Qed.
  Lemma folder_ok v : kept_whole v ->
    part_ok (F ++ $"=" ++ v) /\ startswith $"by_" (F ++ $"=" ++ v) = false /\ endswith b (F ++ $"=" ++ v) = false /\
    contains $"as_at_" (F ++ $"=" ++ v) = false /\ startswith $"frame.complete" (F ++ $"=" ++ v) = false.
  Proof.
    intros Hv. pose proof (fun c => folder_chars v c Hv) as C.
    assert (U : forall n, In "_"%char n -> contains n (F ++ $"=" ++ v) = false) by (intros n; apply no_underscore; intros c Hc; apply C, Hc).
    assert (S : forall n, contains n (F ++ $"=" ++ v) = false -> startswith n (F ++ $"=" ++ v) = false).
    { intros n H. apply not_true_iff_false. intros K. apply startswith_contains in K. congruence. }
    repeat split.
    - intros H. apply C in H. tauto.
    - apply S, U. cbn. tauto.
    - apply not_true_iff_false. intros K. apply endswith_contains in K. rewrite U in K; [discriminate|]. apply in_app_iff. left. cbn. tauto.
    - apply U. cbn. tauto.
    - apply S. apply contains_false. intros x y E. apply (C "."%char); [|reflexivity]. rewrite E, !in_app_iff. right. left. cbn. tauto.
  Qed.
  Lemma part_inj v w : part F v = part F w -> v = w.
  Proof. intros [= H]. apply app_inv_head in H. now injection H. Qed.
End Part.

(** what is served depends on what is present *)
Lemma served_ext (P Q : entry -> Prop) : (forall e, P e <-> Q e) -> forall e, served P e <-> served Q e.
Proof.
  assert (G : forall P Q : entry -> Prop, (forall e, P e <-> Q e) -> forall e, served P e -> served Q e).
  { clear. intros P Q H e (He & Hr & Hf).
    assert (GF : forall k f, good_frame P k f <-> good_frame Q k f) by (intros k f; unfold good_frame, has_file; rewrite !H; tauto).
    split; [apply H, He|]. split.
    - destruct (e_by e) as [[b f]|]; cbn [readable_part] in *; [intros e' b' f' H'|intros e' H']; apply H in H'; eauto.
    - intros (e' & f & A & B & C). destruct Hf as (g & E1 & [N1 N2] & E2); [exists e', f; rewrite H; auto|].
      exists g. split; [exact E1|]. split; [|exact E2]. split; [apply GF, N1|]. intros f' Hf'. apply N2, GF, Hf'. }
  intros H e. split; apply G; auto. intros e'. symmetry. auto.
Qed.

Section Parted.
  Context (F value frame : str).
  Definition parted (P : entry -> Prop) : Prop := forall e, P e -> exists v f,
    e_by e = Some (part F v) /\ kept_whole v /\ length v = length value /\ e_frame e = Some f /\ length f = length frame.
  Lemma before_parted P : parts_before P F value frame -> parted P.
  Proof. intros H e He. destruct (H e He) as (v & f & A & B & C & D & G & _). exists v, f. auto. Qed.
  Lemma parted_prefixes P : parted P -> no_prefixes P.
  Proof.
    intros H e e' b f f' He He' Hb Hb' Hs. destruct (H e He) as (v & g & A & _ & L & _). destruct (H e' He') as (v' & g' & A' & _ & L' & _).
    rewrite A in Hb. rewrite A' in Hb'. injection Hb as <- <-. injection Hb' as <-.
    apply startswith_iff in Hs as [y Hy]. rewrite <- !app_assoc in Hy. apply app_inv_head in Hy. cbn [app list_ascii_of_string] in Hy. injection Hy as Hy.
    assert (y = []) as -> by (apply (f_equal (@length ascii)) in Hy; rewrite app_length in Hy; destruct y; [reflexivity|cbn in Hy; lia]).
    rewrite app_nil_r in Hy. rewrite Hy. reflexivity.
  Qed.
End Parted.

(** ** A folder with a batch in one of its parts *)
Section Batch.
  Context {R : Type} (E : setting R) (root F value frame ext : str) (K : nat).
  Definition proot : str := root ++ $"/" ++ part_path F value.
  Definition pdir : str := proot ++ $"/" ++ frame.
  Hypothesis HF : field_name F.
  Hypothesis HV : kept_whole value.
  Hypothesis W : writes_in E pdir ext.
  Hypothesis CF : clean_failures E.
  Hypothesis CL : good_clock E K.
  Hypothesis PN : plain (s_node E).
  Hypothesis PE : plain ext.
  Hypothesis FR : ~ In "/"%char frame /\ startswith $"as_at_" frame = true.
  Hypothesis NB : contains $"BACKOUT" pdir = false.
  Hypothesis NR : forall c, In c (split "/"%char root) -> endswith ($"by_" ++ F) c = false.
  Hypothesis NRb : forall c, In c (split "/"%char root) ->
    startswith $"by_" c = false /\ contains $"as_at_" c = false /\ startswith $"frame.complete" c = false.

  Hypothesis FRb : endswith ($"by_" ++ F) frame = false.

  Notation parted := (parted F value frame).
  Notation here := (Some (part F value)).
  Notation bfile n := (Batch.blob_file E ext n).
  Definition new_file (file : str) : Prop := file = $"frame.complete" \/ exists n, (n < K)%nat /\ file = bfile n.
  Definition newent (e : entry) : Prop := exists file, e = mkEntry here (Some frame) file /\ new_file file.
  Lemma new_name file : name_in root (mkEntry here (Some frame) file) = pdir ++ $"/" ++ file.
  Proof.
    unfold name_in, local_parts, pdir, proot, part_path. cbn [e_by e_frame e_file part app join]. rewrite <- !app_assoc. reflexivity.
  Qed.
  Lemma new_plain file : new_file file -> plain file.
  Proof. apply (Batch.newent_file E root frame ext K PN PE). Qed.
  Lemma newent_live e : newent e -> contains $"BACKOUT" (name_in root e) = false.
  Proof.
    intros (file & -> & Hf). rewrite new_name. apply not_true_iff_false. intros C.
    apply Batch.contains_slash_app in C; [|cbn; intuition discriminate]. destruct C as [C|C]; [congruence|].
    assert (Q : contains $"BACKOUT" file = false); [|congruence].
    apply (Batch.contains_plain_false _ _ "B"%char); [left; reflexivity|reflexivity|apply new_plain; auto].
  Qed.

  Lemma tidy_union es : tidy root (live root es) -> parted (live root es) ->
    tidy root (fun e => live root es e \/ newent e).
  Proof.
    intros T O. set (U := fun e => live root es e \/ newent e).
    assert (Uby : forall e b f, U e -> e_by e = Some (b, f) -> exists v, b = $"by_" ++ F /\ f = F ++ $"=" ++ v /\ kept_whole v).
    { intros e b f [He|(file & -> & _)] Hb.
      - destruct (O e He) as (v & g & A & B & _). rewrite A in Hb. injection Hb as <- <-. exists v. auto.
      - cbn [e_by] in Hb. injection Hb as <- <-. exists value. auto. }
    assert (NAB : forall c, startswith $"by_" c = false -> endswith ($"by_" ++ F) c = false -> not_a_by U c).
    { intros c A B. split; [exact A|]. intros e b f He Hb. destruct (Uby e b f He Hb) as (v & -> & _). exact B. }
    destruct FR as [F1 F2].
    assert (FB : forall f, startswith $"as_at_" f = true -> ~ In "/"%char f -> True) by auto.
    constructor.
    - intros c Hc. destruct (NRb c Hc) as (A & B & C). split; [apply NAB; auto|auto].
    - intros e b f He Hb. destruct (Uby e b f He Hb) as (v & -> & -> & Kv). destruct (folder_ok F HF v Kv) as (A & B & C & D & G).
      split; [apply by_slash; exact HF|]. split; [apply startswith_app|]. split; [apply by_as_at; exact HF|]. split; [exact A|].
      split; [apply NAB; auto|auto].
    - intros e f He Hf.
      assert (Q : part_ok f /\ startswith $"as_at_" f = true /\ (~ In "/"%char f)).
      { destruct He as [He|(file & -> & _)].
        - destruct (t_frame _ _ T e f He Hf) as (A & B & C). auto.
        - cbn in Hf. injection Hf as <-. auto. }
      destruct Q as (A & B & _). split; [exact A|]. split; [exact B|]. apply startswith_iff in B as [z ->]. split; [reflexivity|].
      intros e' b' f' He' Hb'. destruct (Uby e' b' f' He' Hb') as (v & -> & _).
      destruct He as [He|(file & -> & _)].
      + destruct (t_frame _ _ T e _ He Hf) as (_ & _ & (_ & C)). destruct (O e He) as (v0 & g0 & A0 & _). apply (C e _ _ He A0).
      + cbn [e_frame] in Hf. assert (Q : $"as_at_" ++ z = frame) by congruence. rewrite Q. exact FRb.
    - assert (LL: forall e f, U e -> e_frame e = Some f -> length f = length frame).
      { intros e f [He|(file & -> & _)] Hf.
        - destruct (O e He) as (_ & f' & _ & _ & _ & Ef & L). rewrite Ef in Hf. injection Hf as <-. auto.
        - injection Hf as <-. auto. }
      intros e e' f f' He He' Hf Hf'. rewrite (LL e f), (LL e' f'); auto.
    - intros e [He|(file & -> & Hf)]; [apply (t_file _ _ T); auto|]. cbn [e_file].
      assert (T0 : tidy root (live root [])).
      { constructor; try (intros; match goal with H : live _ [] _ |- _ => destruct H as [[] _] end).
        intros c Hc. destruct (NRb c Hc) as (A & B & C). split; [|auto]. split; [exact A|]. intros e' b' f' [[] _]. }
      pose proof (Batch.tidy_union E root frame ext K CL PN PE FR [] T0) as T1.
      apply (t_file _ _ (T1 ltac:(intros e' [[] _])) (mkEntry None (Some frame) file)). right. exists file. auto.
  Qed.

  (** the entries of the folder with what the batch leaves *)
  Lemma extended es (log' : list (str * str)) listing :
    tidy root (live root es) -> parts_before (live root es) F value frame ->
    (forall n, In n (map fst log') -> exists file, n = pdir ++ $"/" ++ file /\ new_file file) ->
    NoDup listing ->
    (forall n, In n listing <-> In n (map (name_in root) es) \/ In n (map fst log')) ->
    exists es', listing = map (name_in root) es' /\ NoDup es' /\ tidy root (live root es') /\ parted (live root es') /\
      (forall e, live root es' e <-> live root es e \/ (newent e /\ live root es' e)) /\
      (forall e, newent e -> (live root es' e <-> In (name_in root e) (map fst log'))).
  Proof.
    intros T O LOG Hl HI.
    pose proof (tidy_union es T (before_parted F value frame _ O)) as TU.
    destruct (Batch.pick_entries root (fun e => In e es \/ (newent e /\ In (name_in root e) (map fst log'))) listing Hl) as (es' & El & Nd' & FP).
    { intros n Hn. apply HI in Hn. destruct Hn as [Hn|Hn].
      - apply in_map_iff in Hn. destruct Hn as (e & <- & He). eauto.
      - destruct (LOG n Hn) as (file & E1 & Hf). exists (mkEntry here (Some frame) file). rewrite new_name.
        split; auto. right. split; [exists file; auto|]. rewrite <- E1. auto. }
    rewrite Forall_forall in FP.
    assert (LV: forall e, live root es' e <-> live root es e \/ (newent e /\ live root es' e)).
    { intros e. split.
      - intros [H1 H2]. destruct (FP e H1) as [H|[H H']]; [left; split; auto|right; split; auto; split; auto].
      - intros [[H1 H2]|[_ H]]; auto. split; auto.
        assert (Hin: In (name_in root e) (map (name_in root) es')).
        { rewrite <- El. apply HI. left. apply in_map. auto. }
        apply in_map_iff in Hin. destruct Hin as (e' & Ee & He').
        assert (e' = e); [|congruence].
        apply (name_inj root _ TU); auto; [|left; split; auto].
        destruct (FP e' He') as [H|[H _]]; [left; split; auto; congruence|right; auto]. }
    assert (LVn: forall e, newent e -> (live root es' e <-> In (name_in root e) (map fst log'))).
    { intros e Ne. split.
      - intros [H1 H2]. destruct (FP e H1) as [H|[_ H]]; auto. exfalso.
        destruct (O e) as (v & f & Eb & _ & _ & Ef & _ & L); [split; auto|]. destruct Ne as (file & -> & _). cbn in Eb, Ef.
        injection Ef as <-. assert (Q : part F value = part F v) by congruence. apply part_inj in Q. symmetry in Q. specialize (L Q).
        unfold str_ltb in L. rewrite str_compare_refl in L. discriminate.
      - intros H. split; [|apply newent_live; auto].
        assert (Hin: In (name_in root e) (map (name_in root) es')) by (rewrite <- El; apply HI; auto).
        apply in_map_iff in Hin. destruct Hin as (e' & Ee & He').
        assert (e' = e); [|congruence].
        apply (name_inj root _ TU); auto.
        destruct (FP e' He') as [H'|[H' _]]; [left; split; auto; rewrite Ee; apply newent_live; auto|right; auto]. }
    assert (T': tidy root (live root es')).
    { eapply tidy_mono; [|exact TU]. intros e He. apply LV in He. tauto. }
    assert (PT : parted (live root es')).
    { intros e He. apply LV in He as [He|[(file & -> & _) _]]; [apply (before_parted F value frame _ O); exact He|]. exists value, frame. auto 8. }
    exists es'. auto 8.
  Qed.

  (** what a reader of the part gets *)
  Lemma one_part_readable (P : entry -> Prop) k : (forall e, P e -> e_by e = Some k) -> readable_part P (Some k).
  Proof using. destruct k as [b0 f0]. intros H e b f He Hb. rewrite (H e He) in Hb. injection Hb as -> _. apply str_leb_refl. Qed.
  Lemma served_unmarked (P Q : entry -> Prop) :
    (forall e, Q e <-> P e \/ (newent e /\ Q e)) ->
    (forall e, P e -> e_by e = here /\ exists f, e_frame e = Some f /\ f <> frame) ->
    ~ Q (mkEntry here (Some frame) $"frame.complete") ->
    forall e, served Q e <-> served P e.
  Proof.
    intros HQ O M.
    assert (NB': forall e, Q e -> e_by e = here).
    { intros e He. apply HQ in He. destruct He as [He|[(file & -> & _) _]]; auto. apply O; auto. }
    assert (HFr: forall e, P e -> has_frames P (e_by e)).
    { intros e He. destruct (O e He) as (_ & f & Ef & _). exists e, f. auto. }
    assert (PQ: forall e, P e -> Q e) by (intros e He; apply HQ; auto).
    assert (QP: forall k f file, Q (mkEntry k (Some f) file) -> f <> frame -> P (mkEntry k (Some f) file)).
    { intros k f file H N. apply HQ in H. destruct H as [H|[(file' & Eq & _) _]]; [exact H|]. exfalso. apply N. congruence. }
    assert (PF: forall k f file, P (mkEntry k (Some f) file) -> f <> frame).
    { intros k f file H ->. destruct (O _ H) as (_ & f & Ef & L). injection Ef as <-. auto. }
    assert (GF: forall f, good_frame Q here f <-> good_frame P here f).
    { intros f. unfold good_frame, has_file. destruct (str_eq_dec f frame) as [->|N].
      - split; [intros [H _]; contradiction|]. intros [H _]. exfalso. eapply PF; eauto.
      - split; intros [H1 H2]; split; auto. }
    assert (NG: forall f, newest_good_frame Q here f <-> newest_good_frame P here f).
    { intros f. unfold newest_good_frame. rewrite GF. split; intros [H1 H2]; split; auto; intros f' Hf'; apply H2, GF; auto. }
    intros e. unfold served. split.
    - intros (He & _ & H3). rewrite (NB' e He) in *.
      assert (HfQ: has_frames Q here).
      { destruct (proj1 (HQ e) He) as [Pe|[(file & -> & _) _]].
        - destruct (O e Pe) as (_ & f & Ef & _). exists e, f. rewrite (NB' e He). auto.
        - exists (mkEntry here (Some frame) file), frame. auto. }
      destruct (H3 HfQ) as (f & Ef & Nf & Nc). apply NG in Nf.
      assert (Pe: P e).
      { destruct e as [k o file]. cbn in Ef. subst o. apply QP; auto. intros ->.
        destruct Nf as [[G _] _]. eapply PF; eauto. }
      split; auto. split; [apply one_part_readable; intros e' He'; apply O; exact He'|]. intros _. exists f. auto.
    - intros (Pe & _ & H3). destruct (H3 (HFr e Pe)) as (f & Ef & Nf & Nc).
      rewrite (NB' e (PQ e Pe)) in *. split; auto. split; [apply one_part_readable; auto|]. intros _. exists f. apply NG in Nf. auto.
  Qed.
  Lemma served_marked (P Q : entry -> Prop) :
    (forall e, Q e <-> P e \/ (newent e /\ Q e)) ->
    (forall e, P e -> e_by e = here /\ exists f, e_frame e = Some f /\ str_ltb f frame = true) ->
    Q (mkEntry here (Some frame) $"frame.complete") ->
    forall e, served Q e <-> newent e /\ Q e /\ e_file e <> $"frame.complete".
  Proof.
    intros HQ O M.
    assert (NB': forall e, Q e -> e_by e = here).
    { intros e He. apply HQ in He. destruct He as [He|[(file & -> & _) _]]; auto. apply O; auto. }
    assert (LT : forall f, str_ltb f frame = true -> f <> frame).
    { intros f L ->. unfold str_ltb in L. rewrite str_compare_refl in L. discriminate. }
    assert (FE: forall e f, Q e -> e_frame e = Some f -> f = frame -> newent e).
    { intros e f He Ef Q1. apply HQ in He. destruct He as [He|[Ne _]]; auto.
      destruct (O e He) as (_ & f' & Ef' & L). rewrite Ef in Ef'. injection Ef' as <-. apply LT in L. congruence. }
    assert (G: good_frame Q here frame).
    { split; auto. intros H. destruct (FE _ _ H eq_refl eq_refl) as (file & Eq & C). assert (file = $"frame.ignore") as -> by congruence. destruct C as [C|(n & HK & C)]; [discriminate|].
      destruct (Batch.blob_file_hex E ext K CL n HK) as (c1 & c2 & s & Eb & H1 & H2). rewrite Eb in C. injection C as <- <- _. discriminate. }
    assert (LE: forall f, good_frame Q here f -> str_leb f frame = true).
    { intros f [H1 H2]. destruct (str_eq_dec f frame) as [->|N]; [apply str_leb_refl|].
      apply HQ in H1. destruct H1 as [H1|[(file & Eq & _) _]]; [|exfalso; apply N; congruence].
      destruct (O _ H1) as (_ & f' & Ef & L). cbn in Ef. injection Ef as <-. unfold str_ltb, str_leb in *. destruct (str_compare f frame); congruence. }
    assert (NG: forall f, newest_good_frame Q here f <-> f = frame).
    { intros f. split.
      - intros [H1 H2]. apply str_leb_antisym; [apply LE; auto|apply H2; auto].
      - intros ->. split; auto. }
    intros e. unfold served. split.
    - intros (He & _ & H3). rewrite (NB' e He) in *.
      destruct H3 as (f & Ef & Nf & Nc).
      { exists (mkEntry here (Some frame) $"frame.complete"), frame. auto. }
      apply NG in Nf. subst f. split; auto. apply (FE e frame); auto.
    - intros (Ne & He & Nc). split; auto. rewrite (NB' e He). split; [apply one_part_readable; auto|].
      intros _. exists frame. split; [destruct Ne as (file & -> & _); auto|]. split; auto. apply NG; auto.
  Qed.

  (** the listing with the value asked for *)
  Lemma asked_list es v : NoDup es -> tidy root (live root es) -> parted (live root es) -> kept_whole v ->
    exists out, get_list_of_blobs (Some (F, $"=", v)) (fun _ => map (name_in root) es) [root] = Ok out /\
      lists_exactly root (only_part (live root es) (part F v)) out.
  Proof using HF.
    intros Nd T PT Kv.
    destruct (filter (live_b root) es) as [|e0 l0] eqn:El.
    - exists []. split.
      + unfold get_list_of_blobs. cbn [dedup filter mapM]. unfold cycle_blobs_of.
        assert (Z : filter (fun b => negb (contains $"BACKOUT" b)) (map (name_in root) es) = []).
        { rewrite (filter_map_name root). unfold live_b in El. now rewrite El. }
        rewrite Z. unfold apply_partition_filter. cbn [partitions_of filter map flat_map dedup existsb].
        reflexivity.
      + split; [constructor|]. split; [constructor|]. intros q. split; [intros []|].
        intros (e & ((He & _) & _) & _). apply live_iff in He. rewrite El in He. destruct He.
    - assert (L0 : live root es e0) by (apply live_iff; rewrite El; left; reflexivity).
      destruct (PT e0 L0) as (v0 & f0 & A0 & _).
      pose proof (kept_sanitize F (field_kept F HF)) as SF.
      destruct (hint_selection root es F v $"=" Nd T (parted_prefixes F value frame _ PT)) as (out & Eo & Lo); [left; reflexivity| |].
      + exists e0, (F ++ $"=" ++ v0). rewrite SF. split; [exact L0|exact A0].
      + rewrite SF, (kept_sanitize v Kv) in Lo. exists out. split; [exact Eo|exact Lo].
  Qed.

  (** the blobs a batch leaves *)
  Lemma data_sorted rs fs os s log' :
    run E (new_writer nothing) (map Append rs ++ map Finalize fs) = (os, s) ->
    crashed (puts (st_world s)) log' -> attempts (st_world s) = K ->
    StronglySorted (fun a b => str_leb a b = true) (map fst (data_of pdir log')) /\ NoDup (map fst (data_of pdir log')).
  Proof.
    intros Hrun Hcr HKs.
    assert (LN: Batch.log_names E proot frame (st_world s)).
    { eapply Batch.log_names_run; [exact W|exact CF| |exact Hrun]. exists []. repeat split; constructor. }
    destruct LN as (ns & En & Sn & Fn).
    assert (Hj : exists j, map fst log' = firstn j (map fst (puts (st_world s)))) by (eapply Batch.crash_names; eauto). destruct Hj as [j Ej].
    change (Batch.bdir proot frame) with pdir in *.
    assert (Dn: exists ns', map fst (data_of pdir log') = map (Batch.bname E) ns' /\ StronglySorted Peano.lt ns' /\ Forall (fun n => (n < K)%nat) ns').
    { pose proof (Batch.data_names proot frame log') as D1. pose proof (Batch.data_names proot frame (puts (st_world s))) as D2.
      change (Batch.bdir proot frame) with pdir in *.
      rewrite D1, Ej. rewrite D2 in En. rewrite <- (firstn_skipn j (map fst (puts _))) in En.
      rewrite filter_app in En. remember (filter _ (firstn j _)) as fa. remember (filter _ (skipn j _)) as fb.
      rewrite HKs in Fn. clear -En Sn Fn. symmetry in En. apply map_eq_app in En. destruct En as (n1 & n2 & -> & <- & _).
      exists n1. split; auto. split; [apply (StronglySorted_app_inv _ _ _ Sn)|]. apply Forall_app in Fn. tauto. }
    destruct Dn as (ns' & -> & Sn' & Fn'). exact (Batch.bname_sorted E proot frame ext K W CL ns' Sn' Fn').
  Qed.
  Lemma data_groups rs fs os s log' :
    run E (new_writer nothing) (map Append rs ++ map Finalize fs) = (os, s) ->
    crashed (puts (st_world s)) log' -> marked pdir log' ->
    exists groups, Forall2 (holds E) groups (map snd (data_of pdir log')) /\
      concat groups = taken E (map Append rs ++ map Finalize fs) os.
  Proof.
    intros Hrun Hcr M.
    destruct (run_app E _ _ _ _ _ Hrun) as (o1 & o2 & s1 & _ & R1 & R2 & _).
    assert (Sh: Batch.shaped proot frame s1).
    { exists (puts (st_world s1)), []. rewrite app_nil_r. split; auto. split; [|split; [constructor|congruence]].
      eapply Batch.appends_unmarked; [exact W|exact CF| |exact R1]. intros []. }
    destruct (Batch.finalizes_shaped E proot frame ext W CF _ _ _ _ Sh R2) as (a & b & Ep & Ma & Fb & Hb).
    rewrite Ep in Hcr. destruct (Batch.crash_marked proot frame a b log' Ma Fb Hcr M) as [Nb Ed].
    pose proof (run_inv E pdir ext W _ _ _ _ _ CF (inv_new E pdir) Hrun) as I.
    destruct I as (groups & p & HG & HC & HB & HFl & HS). exists groups.
    change (Batch.bdir proot frame) with pdir in *.
    pose proof (Batch.data_of_markers proot frame b Fb) as D1. pose proof (Batch.data_of_unmarked proot frame a Ma) as D2.
    change (Batch.bdir proot frame) with pdir in *.
    rewrite Ep, data_of_app, D1, app_nil_r, D2 in HG.
    rewrite Ed. split; auto. rewrite (Hb Nb) in HB. destruct HB as [HB _]. cbn in HB.
    destruct p; [|discriminate]. rewrite app_nil_r in HC. exact HC.
  Qed.

  Lemma seen es rs fs os s log' listing :
    NoDup es -> tidy root (live root es) -> parts_before (live root es) F value frame ->
    run E (new_writer nothing) (map Append rs ++ map Finalize fs) = (os, s) ->
    crashed (puts (st_world s)) log' -> NoDup listing ->
    (forall n, In n listing <-> In n (map (name_in root) es) \/ In n (map fst log')) ->
    attempts (st_world s) = K ->
    let asked v l := get_list_of_blobs (Some (F, $"=", v)) (fun _ => l) [root] in
    (forall v, kept_whole v -> v <> value \/ ~ marked pdir log' -> asked v listing = asked v (map (name_in root) es)) /\
    (marked pdir log' -> asked value listing = Ok (map fst (data_of pdir log'))) /\
    exists es', listing = map (name_in root) es' /\ NoDup es' /\ tidy root (live root es') /\ parted (live root es') /\
      forall e, live root es' e -> live root es e \/ newent e.
  Proof.
    intros Nd T O Hrun Hcr Hl HI HKs asked.
    assert (LOG : forall n, In n (map fst log') -> exists file, n = pdir ++ $"/" ++ file /\ new_file file)
      by exact (Batch.left_names E proot frame ext K W CF rs fs os s log' Hrun Hcr HKs).
    destruct (extended es log' listing T O LOG Hl HI) as (es' & El & Nd' & T' & PT' & LV & LVn).
    assert (Mk: marked pdir log' <-> live root es' (mkEntry here (Some frame) $"frame.complete")).
    { rewrite LVn by (exists $"frame.complete"; split; [reflexivity|left; reflexivity]). rewrite new_name. reflexivity. }
    split; [|split].
    - intros v Kv D. unfold asked. rewrite El.
      destruct (asked_list es' v Nd' T' PT' Kv) as (o1 & -> & L1). destruct (asked_list es v Nd T (before_parted F value frame _ O) Kv) as (o2 & -> & L2).
      f_equal. eapply Batch.lists_unique; [|exact L1|exact L2].
      destruct (str_eq_dec v value) as [->|Nv].
      + destruct D as [D|D]; [congruence|]. apply served_unmarked.
        * intros e. unfold only_part. rewrite LV at 1. split.
          -- intros [[A|[A B]] C]; auto.
          -- intros [[A B]|[A [B C]]]; auto.
        * intros e [A B]. split; [exact B|]. destruct (O e A) as (v & f & Eb & _ & _ & Ef & _ & L). exists f. split; [exact Ef|].
          intros ->. assert (Q : part F v = part F value) by congruence. apply part_inj in Q. specialize (L Q).
          unfold str_ltb in L. rewrite str_compare_refl in L. discriminate.
        * intros [A _]. apply D, Mk, A.
      + assert (Q : forall e, only_part (live root es') (part F v) e <-> only_part (live root es) (part F v) e).
        { intros e. unfold only_part. rewrite LV. split; [|tauto]. intros [[A|[(file & -> & _) _]] B]; [auto|].
          exfalso. apply Nv. cbn [e_by] in B. assert (Q : part F value = part F v) by congruence. apply part_inj in Q. auto. }
        intros e. apply served_ext. exact Q.
    - intros M. unfold asked. rewrite El. destruct (asked_list es' value Nd' T' PT' HV) as (o1 & -> & (S1 & N1 & I1)). f_equal.
      destruct (data_sorted rs fs os s log' Hrun Hcr HKs) as [S2 N2].
      assert (SV : forall e, served (only_part (live root es') (part F value)) e <->
                newent e /\ only_part (live root es') (part F value) e /\ e_file e <> $"frame.complete").
      { apply (served_marked (only_part (live root es) (part F value))).
        - intros e. unfold only_part. rewrite LV at 1. split.
          + intros [[A|[A B]] C]; auto.
          + intros [[A B]|[A [B C]]]; auto.
        - intros e [A B]. split; [exact B|]. destruct (O e A) as (v & f & Eb & _ & _ & Ef & _ & L). exists f. split; [exact Ef|].
          apply L. assert (Q : part F v = part F value) by congruence. apply part_inj in Q. exact Q.
        - split; [apply Mk, M|reflexivity]. }
      apply (sorted_perm_unique _ str_leb_antisym); auto.
      apply NoDup_Permutation; auto. intros q. rewrite I1.
      pose proof (Batch.data_names proot frame log') as DN. change (Batch.bdir proot frame) with pdir in DN. rewrite DN, filter_In.
      split.
      + intros (e & He & ->). apply SV in He as (Ne & [Le _] & Nc). apply LVn in Le; auto. split; [exact Le|].
        apply negb_true_iff, str_eqb_neq. destruct Ne as (file & -> & _). rewrite new_name. unfold marker.
        change $"/frame.complete" with ($"/" ++ $"frame.complete"). intros C. apply app_inv_head in C. apply app_inv_head in C. auto.
      + intros [Hb Hm]. apply negb_true_iff, str_eqb_neq in Hm. destruct (LOG q Hb) as (file & -> & Hf).
        exists (mkEntry here (Some frame) file). rewrite new_name. split; auto.
        apply SV. assert (Ne: newent (mkEntry here (Some frame) file)) by (exists file; auto).
        split; auto. split; [split; [apply LVn; auto; rewrite new_name; auto|reflexivity]|]. cbn. intros ->. apply Hm. reflexivity.
    - exists es'. split; [exact El|]. split; [exact Nd'|]. split; [exact T'|]. split; [exact PT'|].
      intros e He. apply LV in He. tauto.
  Qed.
End Batch.

(** ** A day read part by part *)
Section Lists.
  Context (hash : str -> Z) (loads : str -> result cdict) (records : str -> list value) (n : nat).
  Notation read r := (records_read (read_records hash loads (fun _ => r) 0 records NoCursor n)).
  Context {A : Type} (of : A -> result (list str)) (lt : A -> A -> Prop).
  Notation gives_part a p := (read (of a) = Ok p \/ (read (of a) = Raise DataNotFoundError /\ p = [])).
  Notation nothing_at a := (read (of a) = Raise DataNotFoundError).

  Lemma found_lists xs : forall parts, StronglySorted lt xs -> (forall a, In a xs -> exists l, of a = Ok l) ->
    (forall a b la lb, In a xs -> In b xs -> lt a b -> of a = Ok la -> of b = Ok lb -> RangeDays.before la lb) ->
    Forall2 (fun a p => gives_part a p) xs parts ->
    exists found out, (forall q, In q found <-> exists a l, In a xs /\ of a = Ok l /\ In q l) /\
      full_read records (filter is_readable found) out /\ firstn n out = firstn n (concat parts) /\
      (filter is_readable found = [] <-> Forall (fun a => nothing_at a) xs).
  Proof.
    induction xs as [|a xs IH]; intros parts HS HL HB HP; inversion HP as [|x part l ps P1 P2 E1 E2]; subst.
    - exists [], []. split; [intros q; split; [intros []|intros (a & l & [] & _)]|]. split; [|split; [reflexivity|]].
      + exists []. split; [|reflexivity]. split; [constructor|reflexivity].
      + split; [constructor|reflexivity].
    - apply StronglySorted_inv in HS as [HS HF].
      destruct (IH ps HS (fun a H => HL a (or_intror H)) (fun a b la lb H1 H2 => HB a b la lb (or_intror H1) (or_intror H2)) P2) as (found & out & FI & F & FN & Z).
      clear IH. destruct (HL a (or_introl eq_refl)) as [l L].
      destruct (Cursor.full_read_exists records (filter is_readable l)) as (o1 & F1).
      pose proof (RangeDays.read_blobs hash loads records l o1 n F1) as R. rewrite <- L in R.
      exists (l ++ found), (o1 ++ out). split.
      { intros q. rewrite in_app_iff, FI. split.
        - intros [H|(a' & l' & Ha & E & H)]; [exists a, l; split; [now left|auto]|exists a', l'; split; [now right|auto]].
        - intros (a' & l' & [<-|Ha] & E & H); [left; congruence|right; exists a', l'; auto]. }
      rewrite filter_app. split.
      { apply RangeDays.full_read_app; [exact F1|exact F|]. intros x y Hx Hy. apply filter_In in Hx as [Hx _]. apply filter_In in Hy as [Hy _].
        apply FI in Hy as (a' & l' & Ha & E & Hy). rewrite Forall_forall in HF.
        apply (HB a a' l l'); auto; [now left|now right]. }
      assert (Z2 : filter is_readable l = [] <-> nothing_at a).
      { rewrite R. destruct (filter is_readable l); split; intros H; auto; discriminate H. }
      split.
      { destruct P1 as [P1|[P1 ->]].
        - rewrite P1 in R. assert (part = firstn n o1) as ->.
          { destruct (filter is_readable l) as [|x xs'] eqn:El; [discriminate R|congruence]. }
          cbn [concat]. rewrite !firstn_app. f_equal; [now rewrite firstn_firstn, Nat.min_id|].
          rewrite firstn_length. destruct (Nat.le_gt_cases (length o1) n).
          + rewrite Nat.min_r by lia.
            assert (KK : forall k (u v : list value), (k <= n)%nat -> firstn n u = firstn n v -> firstn k u = firstn k v).
            { intros k u v Hk Hu. pose proof (firstn_firstn u k n) as A1. pose proof (firstn_firstn v k n) as A2.
              rewrite Nat.min_l in A1, A2 by lia. congruence. }
            apply KK; [lia|exact FN].
          + rewrite Nat.min_l by lia. replace (n - length o1)%nat with 0%nat by lia. replace (n - n)%nat with 0%nat by lia. reflexivity.
        - cbn [concat app]. apply Z2 in P1. rewrite P1 in F1.
          assert (o1 = []) as ->. { destruct F1 as (ns & [_ I] & ->). destruct ns as [|x ns]; [reflexivity|]. destruct (proj1 (I x) (or_introl eq_refl)). }
          exact FN. }
      split.
      + intros H. apply app_eq_nil in H as [H1 H2]. constructor; [apply Z2, H1|now apply Z].
      + intros H. inversion H as [|? ? H1 H2]; subst. apply Z2 in H1. apply Z in H2. now rewrite H1, H2.
  Qed.
  Lemma read_lists xs parts whole : StronglySorted lt xs -> (forall a, In a xs -> exists l, of a = Ok l) ->
    (forall a b la lb, In a xs -> In b xs -> lt a b -> of a = Ok la -> of b = Ok lb -> RangeDays.before la lb) ->
    (forall q, In q whole <-> exists a l, In a xs /\ of a = Ok l /\ In q l) ->
    Forall2 (fun a p => gives_part a p) xs parts ->
    (Forall (fun a => nothing_at a) xs -> read (Ok whole) = Raise DataNotFoundError) /\
    (~ Forall (fun a => nothing_at a) xs -> read (Ok whole) = Ok (firstn n (concat parts))).
  Proof.
    intros HS HL HB HW HP. destruct (found_lists xs parts HS HL HB HP) as (found & out & FI & F & FN & Z).
    assert (SM : forall q, In q found <-> In q whole) by (intros q; rewrite FI, HW; tauto).
    assert (F' : full_read records (filter is_readable whole) out).
    { eapply RangeDays.full_read_same; [|exact F]. intros b. rewrite !filter_In, SM. tauto. }
    assert (Z' : filter is_readable whole = [] <-> filter is_readable found = []).
    { split; intros H; [apply (Repeats.same_nil (filter is_readable whole))|apply (Repeats.same_nil (filter is_readable found))];
        auto; intros b; rewrite !filter_In, SM; tauto. }
    rewrite (RangeDays.read_blobs hash loads records _ out n F'). rewrite <- Z, <- Z'.
    destruct (filter is_readable whole); split; intros H; try reflexivity; try discriminate H; [now elim H|].
    now rewrite FN.
  Qed.
End Lists.

Section Day.
  Context (root F one frame : str) (es : list entry).
  Hypothesis HF : field_name F.
  Hypothesis Nd : NoDup es.
  Hypothesis T : tidy root (live root es).
  Hypothesis PT : parted F one frame (live root es).
  Notation asked v := (get_list_of_blobs (Some (F, $"=", v)) (fun _ => map (name_in root) es) [root]).

  Lemma part_name e v : e_by e = Some (part F v) -> exists rest, name_in root e = (root ++ $"/by_" ++ F ++ $"/" ++ F ++ $"=") ++ v ++ $"/" ++ rest.
  Proof.
    intros Eb. exists (join $"/" (match e_frame e with Some f => [f] | None => [] end ++ [e_file e])).
    unfold name_in, local_parts. rewrite Eb. unfold part. cbn [app]. 
    destruct (e_frame e) as [f|]; cbn [app join list_ascii_of_string]; repeat (rewrite <- app_assoc; cbn [app]); reflexivity.
  Qed.
  Lemma served_part e : served (live root es) e <-> exists v, e_by e = Some (part F v) /\ served (only_part (live root es) (part F v)) e.
  Proof.
    assert (GF : forall v f, good_frame (live root es) (Some (part F v)) f <-> good_frame (only_part (live root es) (part F v)) (Some (part F v)) f).
    { intros v f. unfold good_frame, has_file, only_part. cbn [e_by]. tauto. }
    assert (NG : forall v f, newest_good_frame (live root es) (Some (part F v)) f <-> newest_good_frame (only_part (live root es) (part F v)) (Some (part F v)) f).
    { intros v f. unfold newest_good_frame. rewrite GF. split; intros [A B]; (split; [exact A|]); intros f' Hf'; apply B, GF, Hf'. }
    assert (HR : forall v, readable_part (live root es) (Some (part F v))).
    { intros v e' b' f' He Hb. destruct (PT e' He) as (w & f & A & _). rewrite A in Hb. injection Hb as <- _. apply str_leb_refl. }
    split.
    - intros (He & _ & Hf). destruct (PT e He) as (v & f & A & _ & _ & Ef & _). exists v. split; [exact A|]. split; [split; auto|]. rewrite A in *.
      split; [apply one_part_readable; intros e' [_ H]; exact H|].
      intros _. destruct Hf as (g & E1 & N & E2); [exists e, f; auto|exists g; split; [exact E1|]; split; [apply NG, N|exact E2]].
    - intros (v & A & (He & _) & _ & Hf). split; [exact He|]. rewrite A in *. split; [apply HR|].
      intros (e' & f & B1 & B2 & B3). destruct Hf as (g & E1 & N & E2); [exists e', f; split; [split; auto|auto]|].
      exists g. split; [exact E1|]. split; [apply NG, N|exact E2].
  Qed.
  Context (hash : str -> Z) (loads : str -> result cdict) (records : str -> list value) (n : nat).
  Notation read r := (records_read (read_records hash loads (fun _ => r) 0 records NoCursor n)).
  Lemma day_of_parts values parts : StronglySorted (fun a b => str_ltb a b = true) values ->
    (forall v, In v values -> kept_whole v /\ length v = length one) ->
    (forall e v, live root es e -> e_by e = Some (part F v) -> In v values) ->
    Forall2 (fun v p => read (asked v) = Ok p \/ (read (asked v) = Raise DataNotFoundError /\ p = [])) values parts ->
    let day := read (get_list_of_blobs None (fun _ => map (name_in root) es) [root]) in
    (Forall (fun v => read (asked v) = Raise DataNotFoundError) values -> day = Raise DataNotFoundError) /\
    (~ Forall (fun v => read (asked v) = Raise DataNotFoundError) values -> day = Ok (firstn n (concat parts))).
  Proof.
    intros HS HV HC HP day.
    destruct (folder_selection root es Nd T (parted_prefixes F one frame _ PT)) as (whole & Ew & (_ & _ & IW)).
    unfold day. rewrite Ew.
    assert (AL : forall v, In v values -> exists l, asked v = Ok l /\ lists_exactly root (only_part (live root es) (part F v)) l).
    { intros v Hv. apply (asked_list root F one frame HF es v Nd T PT). apply HV, Hv. }
    apply (read_lists hash loads records n (fun v => asked v) (fun a b => str_ltb a b = true)); auto.
    - intros v Hv. destruct (AL v Hv) as (l & E & _). eauto.
    - intros a b la lb Ha Hb Hlt Ea Eb x y Hx Hy.
      destruct (AL a Ha) as (la' & Ea' & (_ & _ & Ia)). destruct (AL b Hb) as (lb' & Eb' & (_ & _ & Ib)).
      assert (la' = la) by congruence. assert (lb' = lb) by congruence. subst la' lb'.
      apply Ia in Hx as (e1 & ((_ & E1) & _) & ->). apply Ib in Hy as (e2 & ((_ & E2) & _) & ->).
      destruct (part_name e1 a E1) as [r1 ->]. destruct (part_name e2 b E2) as [r2 ->].
      unfold str_ltb in *. rewrite str_compare_prefix. rewrite str_compare_app; [reflexivity| |].
      + destruct (HV a Ha) as [_ ->]. destruct (HV b Hb) as [_ ->]. reflexivity.
      + destruct (str_compare a b); congruence.
    - intros q. rewrite IW. split.
      + intros (e & Hs & ->). apply served_part in Hs as (v & Eb & Hs).
        assert (Hv : In v values) by (apply (HC e v); [apply Hs|exact Eb]).
        destruct (AL v Hv) as (l & E & (_ & _ & I)). exists v, l. split; [exact Hv|]. split; [exact E|]. apply I. eauto.
      + intros (v & l & Hv & E & Hq). destruct (AL v Hv) as (l' & E' & (_ & _ & I)). assert (l' = l) by congruence. subst l'.
        apply I in Hq as (e & Hs & ->). exists e. split; [|reflexivity]. apply served_part. exists v. split; [apply Hs|exact Hs].
  Qed.
End Day.
