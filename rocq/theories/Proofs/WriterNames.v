(** Names of datasets given to writers. *)
From Coq Require Import Lia.
From Verif.Base Require Import Py PyFacts Value.
From Verif.Model Require Import Paths Dates Frames ReadRange Cursor Storage Writers Adapters Reader WriterNames.
From Verif.Spec Require Import Paths Dates Reader Cursor.
From Verif.Spec Require Adapters.
From Verif.Spec Require Import System WriterNames.
From Verif.Proofs Require Import Paths Dates.
From Verif.Proofs Require System AdaptersUse ReadRange Unpartitioned.

(** ** reserved names *)
Lemma backout_dropped l : (forall b, In b l -> contains $"BACKOUT" b = true) -> cycle_blobs_of None l = Ok [].
Proof.
  intros H. unfold cycle_blobs_of. rewrite (Unpartitioned.filter_none (fun b => negb (contains $"BACKOUT" b))); [reflexivity|].
  intros b Hb. now rewrite (H b Hb).
Qed.
Lemma backout_range store paths : (forall p b, In p paths -> In b (store p) -> contains $"BACKOUT" b = true) ->
  get_list_of_blobs None store paths = Ok [].
Proof.
  intros H. unfold get_list_of_blobs.
  assert (G : forall l, (forall p, In p l -> In p paths) -> exists z, mapM (fun p => cycle_blobs_of None (store p)) l = Ok z /\ concat z = []).
  { induction l as [|p l IH]; intros I; [exists []; auto|]. cbn [mapM]. rewrite backout_dropped by (intros b; apply H, I; now left). cbn [bind].
    destruct IH as (z & -> & E); [intros q Hq; apply I; now right|]. exists ([] :: z). split; [reflexivity|exact E]. }
  destruct (G (dedup str_eqb paths)) as (z & -> & E); [intros p; apply (dedup_In str_eqb str_eqb_eq)|]. cbn [bind]. rewrite E. reflexivity.
Qed.
Lemma never_read parse unzstd other columns filters hash loads k names parts now rnd y m d hh mm ss y' m' d' hh' mm' ss' n s :
  folder_names names -> daily_partitions parts -> contains $"BACKOUT" (join $"/" names) = true -> Adapters.proper k s ->
  valid_date y m d -> valid_time hh mm ss -> valid_date y' m' d' -> valid_time hh' mm' ss' ->
  let start := of_fields y m d hh mm ss in
  let stop := of_fields y' m' d' hh' mm' ss' in
  (start <= stop)%Z ->
  read_selected parse unzstd other columns filters hash loads k now rnd (dataset_template (join $"/" names) parts) start stop n s = Raise DataNotFoundError.
Proof.
  intros HN HP HB P V T V' T' start stop L.
  destruct (ReadRange.range_each_day_once None (fun p => listing k rnd (range_hours now start stop) p s) now rnd
              (dataset_template (join $"/" names) parts) y m d hh mm ss y' m' d' hh' mm' ss' (System.template_daily names HN parts HP) V T V' T' L)
    as (days & _ & _ & _ & _ & E).
  unfold read_selected, read_records, find_blobs. change (1 <? 0)%Z with false.
  fold start stop in E. rewrite E, backout_range; [reflexivity|].
  intros p b Hp Hb. apply in_map_iff in Hp as ([[y1 m1] d1] & <- & _).
  rewrite (System.day_root names HN parts HP) in Hb.
  apply (Unpartitioned.listing_folder k _ s now rnd start stop b (System.day_folder_ok names HN parts HP _) P L) in Hb as (Hb & _).
  apply startswith_iff in Hb as [r ->]. apply contains_app_r, contains_app_r.
  unfold System.day_names. rewrite join_app; [|apply HN|apply (System.any_part_values_ne names parts (System.daily_folders parts HP))].
  now apply contains_app_r.
Qed.
Lemma never_read_alone parse unzstd other columns filters hash loads k names slash now rnd a b n s :
  Adapters.folder names -> contains $"BACKOUT" (join $"/" names) = true -> Adapters.proper k s -> slash = [] \/ slash = $"/" -> (a <= b)%Z ->
  Unpartitioned.read_folder parse unzstd other columns filters hash loads k now rnd (join $"/" names ++ slash) a b n s = Raise DataNotFoundError.
Proof.
  intros F HB P S L. unfold Unpartitioned.read_folder, read_records, find_blobs. change (1 <? 0)%Z with false.
  rewrite (Unpartitioned.listed_once names (Unpartitioned.folder_named names F) None _ now rnd slash a b S L).
  rewrite backout_range; [reflexivity|]. intros p x [<-|[]] Hx.
  apply (Unpartitioned.listing_folder k _ s now rnd a b x F P L) in Hx as (Hx & _).
  apply startswith_iff in Hx as [r ->]. apply contains_app_r, contains_app_r. exact HB.
Qed.

(** ** legacy names *)
Lemma short_ok : short_folders <> [] /\ forall p, In p short_folders -> partition_folder p.
Proof.
  split; [discriminate|]. intros p H. repeat (destruct H as [<-|H]; [split; [intros s [Q|[]]; discriminate Q|eexists; split; [now left|discriminate]]|]). destruct H.
Qed.
Lemma default_ok : default_folders <> [] /\ forall p, In p default_folders -> partition_folder p.
Proof.
  split; [discriminate|]. intros p H.
  repeat (destruct H as [<-|H]; [split; [intros s [Q|[Q|[]]]; [injection Q as <-; repeat split; cbv; intuition discriminate|discriminate Q]|
                                         eexists; split; [now left|discriminate]]|]). destruct H.
Qed.

Section Legacy.
  Context (names : list str) (HN : folder_names names).
  Notation dir := (join $"/" names).
  Lemma dir_braces : no_braces dir.
  Proof. exact (Unpartitioned.braces names HN). Qed.
  Lemma slash_braces slash : slash = [] \/ slash = $"/" -> no_braces (dir ++ slash).
  Proof.
    pose proof dir_braces as [B1 B2]. intros [->| ->]; split; intros H; apply in_app_iff in H as [H|H]; auto; cbn in H; intuition discriminate.
  Qed.
  Lemma no_open (o : str) s : ~ In "{"%char s -> contains ("{"%char :: o) s = false.
  Proof.
    intros N. destruct (contains _ _) eqn:Q; [|reflexivity]. exfalso. apply contains_iff in Q as (a & b & ->). apply N.
    apply in_app_iff. right. apply in_app_iff. left. now left.
  Qed.
  Lemma has_part n a b c : contains n b = true -> contains n (a ++ b ++ c) = true.
  Proof. intros H. apply contains_app_l, contains_app_r, H. Qed.

  Lemma template_long raw slash partitions : slash = [] \/ slash = $"/" ->
    writer_template raw (dir ++ slash ++ $"{datefolders}") partitions = (dir ++ slash) ++ $"/" ++ partition_text default_folders.
  Proof.
    intros S. pose proof (slash_braces slash S) as [B1 _]. unfold writer_template, without_legacy. rewrite app_assoc.
    rewrite (contains_app_l $"{date" (dir ++ slash)) by reflexivity. rewrite (contains_app_l $"{datefolders}" (dir ++ slash)) by reflexivity.
    assert (E : replace $"{datefolders}" [] ((dir ++ slash) ++ $"{datefolders}") = dir ++ slash).
    { change $"{datefolders}" with ("{"%char :: $"datefolders}") at 1. rewrite replace_skip by exact B1.
      change (replace ("{"%char :: $"datefolders}") [] $"{datefolders}") with (@nil ascii). apply app_nil_r. }
    rewrite E, (no_open $"datefolders_short}") by exact B1. reflexivity.
  Qed.
  Lemma template_short raw slash partitions : slash = [] \/ slash = $"/" ->
    writer_template raw (dir ++ slash ++ $"{datefolders_short}") partitions = (dir ++ slash) ++ $"/" ++ partition_text short_folders.
  Proof.
    intros S. pose proof (slash_braces slash S) as [B1 _]. unfold writer_template, without_legacy. rewrite app_assoc.
    rewrite (contains_app_l $"{date" (dir ++ slash)) by reflexivity.
    assert (C : contains $"{datefolders}" ((dir ++ slash) ++ $"{datefolders_short}") = false).
    { revert B1. generalize (dir ++ slash). intros w. induction w as [|c w IH]; intros B; [reflexivity|].
      cbn [app contains]. rewrite IH by (intros H; apply B; now right). rewrite orb_false_r. cbn [startswith list_ascii_of_string].
      destruct (Ascii.eqb "{"%char c) eqn:Q; [|reflexivity]. apply Ascii.eqb_eq in Q. exfalso. apply B. now left. }
    rewrite C. rewrite (contains_app_l $"{datefolders_short}" (dir ++ slash)) by reflexivity.
    assert (E : replace $"{datefolders_short}" [] ((dir ++ slash) ++ $"{datefolders_short}") = dir ++ slash).
    { change $"{datefolders_short}" with ("{"%char :: $"datefolders_short}") at 1. rewrite replace_skip by exact B1.
      change (replace ("{"%char :: $"datefolders_short}") [] $"{datefolders_short}") with (@nil ascii). apply app_nil_r. }
    rewrite E. reflexivity.
  Qed.

  (** the dates of a template with or without a slash too many *)
  Lemma dated parts slash at_ : parts <> [] /\ (forall p, In p parts -> partition_folder p) -> slash = [] \/ slash = $"/" ->
    pp_parse (date_format ((dir ++ slash) ++ $"/" ++ partition_text parts) at_) = ([], names ++ map (fun p => fill p at_) parts).
  Proof.
    intros HP S.
    assert (E : (dir ++ slash) ++ $"/" ++ partition_text parts = template_text (dataset_template (dir ++ slash) parts)).
    { unfold template_text, dataset_template. cbn [map concat seg_text]. fold (System.slashed parts).
      rewrite (System.slashed_join seg_text); [reflexivity|reflexivity|apply HP]. }
    rewrite E, date_format_fill.
    2:{ intros s [H|H]; [injection H as <-; apply slash_braces, S|]. apply in_flat_map in H as (p & Hp & [H|H]); [injection H as <-; split; cbv; intuition discriminate|].
        apply (proj2 HP p Hp). exact H. }
    assert (Fl : fill (dataset_template (dir ++ slash) parts) at_ = (dir ++ slash) ++ $"/" ++ join $"/" (map (fun p => fill p at_) parts)).
    { unfold fill, dataset_template. cbn [map concat seg_value]. fold (System.slashed parts).
      rewrite (System.slashed_join (seg_value at_)); [reflexivity|reflexivity|apply HP]. }
    pose proof (System.any_part_values_ne names parts HP at_) as NV. rewrite Fl.
    assert (C : forall c, In c (names ++ map (fun p => fill p at_) parts) -> component c) by (intros c Hc; apply (System.any_day_names_ok names HN parts HP at_ c Hc)).
    destruct S as [->| ->].
    - rewrite app_nil_r, <- join_app by (auto; apply HN). apply parse_join. exact C.
    - assert (J : (dir ++ $"/") ++ $"/" ++ join $"/" (map (fun p => fill p at_) parts) = join $"/" (names ++ [] :: map (fun p => fill p at_) parts)).
      { rewrite join_app; [|apply HN|discriminate]. rewrite <- app_assoc. do 2 f_equal. destruct (map (fun p => fill p at_) parts); [congruence|reflexivity]. }
      rewrite J. pose proof (parse_join _ C) as PJ. unfold pp_parse in *. injection PJ as PR PF. f_equal.
      + destruct HN as [N CN]. destruct names as [|[|x c] l]; [congruence|destruct (CN [] (or_introl eq_refl)) as ((X & _) & _); congruence|].
        destruct (CN (x :: c) (or_introl eq_refl)) as ((_ & _ & X) & _).
        assert (X' : x <> "/"%char) by (intros ->; apply X; now left).
        apply relative_root. intros r Er. destruct l; cbn [app join] in Er; injection Er as Er _; auto.
      + change ($"/") with ["/"%char]. rewrite split_join.
        * change ($"/") with ["/"%char] in PF. rewrite split_join in PF.
          -- rewrite filter_app. cbn [filter]. change (real_part []) with false. cbv iota. rewrite <- filter_app. exact PF.
          -- destruct names; [destruct (proj1 HN eq_refl)|discriminate].
          -- intros w Hw. apply (C w Hw).
        * destruct names; discriminate.
        * intros w Hw. apply in_app_iff in Hw as [Hw|[<-|Hw]]; [apply C, in_app_iff; auto|intros []|apply C, in_app_iff; auto].
  Qed.
  Lemma stored_alike k f ext p q : p <> [] -> q <> [] -> pp_parse p = pp_parse q -> new_inner k f ext p = new_inner k f ext q.
  Proof. intros Np Nq E. unfold new_inner, get_parts. destruct p; [congruence|]. destruct q; [congruence|]. rewrite E. reflexivity. Qed.
  Lemma parsed_some p l : l <> [] -> pp_parse p = ([], l) -> p <> [].
  Proof. intros N E ->. injection E as E. auto. Qed.

  Lemma legacy marker folders raw slash partitions at_ k f ext :
    stands_for marker folders ->
    slash = [] \/ slash = $"/" ->
    let place_ := stream_identity raw (dir ++ slash ++ marker) partitions at_ in
    pp_parse place_ = ([], names ++ map (fun p => fill p at_) folders) /\
    new_inner k f ext place_ = new_inner k f ext (stream_identity None dir (Some [partition_text folders]) at_).
  Proof.
    intros M S place_.
    assert (HP : folders <> [] /\ forall p, In p folders -> partition_folder p) by (destruct M as [[_ ->]|[_ ->]]; [apply default_ok|apply short_ok]).
    assert (A : pp_parse place_ = ([], names ++ map (fun p => fill p at_) folders)).
    { unfold place_, stream_identity. destruct M as [[-> ->]|[-> ->]]; [rewrite (template_long raw slash partitions S)|rewrite (template_short raw slash partitions S)]; apply dated; auto. }
    assert (B : pp_parse (stream_identity None dir (Some [partition_text folders]) at_) = ([], names ++ map (fun p => fill p at_) folders)).
    { unfold stream_identity, writer_template, without_legacy. rewrite (no_open $"date") by apply dir_braces. cbn [join].
      rewrite <- (dated folders [] at_ HP (or_introl eq_refl)), app_nil_r. reflexivity. }
    assert (N : names ++ map (fun p => fill p at_) folders <> []) by (destruct names; [destruct (proj1 HN eq_refl)|discriminate]).
    split; [exact A|]. apply stored_alike; [exact (parsed_some _ _ N A)|exact (parsed_some _ _ N B)|]. now rewrite A, B.
  Qed.
  Lemma raw raw_path partitions : upper raw_path = $"TRUE" -> writer_template (Some raw_path) dir partitions = dir.
  Proof.
    intros H. unfold writer_template, without_legacy. rewrite H, (no_open $"date") by apply dir_braces. reflexivity.
  Qed.
End Legacy.
