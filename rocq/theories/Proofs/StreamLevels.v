(** Proofs: streams whose template has fields of the record in the names of folders. *)
From Coq Require Import Sorted Permutation.
From Verif.Base Require Import Py PyFacts Value ValueFacts.
From Verif.Model Require Import Paths Dates Frames ReadRange Cursor Storage Writers Stream Reader.
From Verif.Spec Require Import Paths Dates Frames Cursor Json Writers Stream Reader StreamRead StreamField StreamLevels.
From Verif.Proofs Require Import Paths Dates Writers Stream StreamPaths StreamPool StreamRead StreamRange StreamField.
From Verif.Proofs Require ReadRange.

Lemma In_between {A} (sep x : A) ls : In x (between sep ls) -> x = sep \/ exists l, In l ls /\ In x l.
Proof.
  induction ls as [|l ls IH]; [intros []|]. destruct ls as [|l' ls].
  - cbn [between]. intros H. right. exists l. split; [left; reflexivity|exact H].
  - change (between sep (l :: l' :: ls)) with (l ++ sep :: between sep (l' :: ls)). intros H.
    apply in_app_iff in H as [H|[H|H]]; [right; exists l; split; [left; reflexivity|exact H]|left; auto|].
    destruct (IH H) as [->|(m & Hm & Hx)]; [left; reflexivity|]. right. exists m. split; [right; exact Hm|exact Hx].
Qed.
Lemma between_In {A} (sep x : A) ls l : In l ls -> In x l -> In x (between sep ls).
Proof.
  induction ls as [|l0 ls IH]; [intros []|]. destruct ls as [|l' ls].
  - intros [->|[]] H. exact H.
  - change (between sep (l0 :: l' :: ls)) with (l0 ++ sep :: between sep (l' :: ls)). intros [->|Hl] Hx; apply in_app_iff.
    + left. exact Hx.
    + right. right. now apply IH.
Qed.
Lemma fill_between ls now : fill (between (Lit $"/") ls) now = join $"/" (map (fun x => fill x now) ls).
Proof.
  induction ls as [|l ls IH]; [reflexivity|]. destruct ls as [|l' ls]; [reflexivity|].
  change (between (Lit $"/") (l :: l' :: ls)) with (l ++ Lit $"/" :: between (Lit $"/") (l' :: ls)).
  rewrite fill_app. change (fill (Lit $"/" :: between (Lit $"/") (l' :: ls)) now) with ($"/" ++ fill (between (Lit $"/") (l' :: ls)) now).
  rewrite IH. reflexivity.
Qed.

(** the name of a folder *)
Definition level_text (values : str -> str) (now : moment) (l : level) : str := fill (level_segs values l) now.
Lemma partition_levels ls now values : partition_of (levels_template ls) now values = fill (levels_of values ls) now.
Proof.
  unfold levels_template, levels_of. induction ls as [|l ls IH]; [reflexivity|].
  assert (A : forall a b, partition_of (a ++ b) now values = partition_of a now values ++ partition_of b now values).
  { intros a b. unfold partition_of. now rewrite map_app, concat_app. }
  assert (L : partition_of (level_pieces l) now values = fill (level_segs values l) now).
  { destruct l as [t|b F a]; [|reflexivity]. cbn [level_pieces level_segs]. symmetry. apply fill_partition. }
  destruct ls as [|l' ls]; [exact L|].
  cbn [map] in IH |- *.
  change (between ?s (?x :: ?y :: ?r)) with (x ++ s :: between s (y :: r)). rewrite A, fill_app, L. f_equal.
  unfold partition_of, fill in *. cbn [map concat piece_value seg_value]. now rewrite IH.
Qed.

Section Levels.
  Context (ls : list level).
  Hypothesis OK : levels_ok ls.
  Lemma level_in l : In l ls -> level_ok l.
  Proof. destruct OK as [F _]. rewrite Forall_forall in F. apply F. Qed.
  Lemma field_in b F a : In (Valued b F a) ls -> In F (level_fields ls).
  Proof. intros H. apply in_flat_map. exists (Valued b F a). split; [exact H|left; reflexivity]. Qed.
  Lemma fields_of F : In F (level_fields ls) -> exists b a, In (Valued b F a) ls.
  Proof. intros H. apply in_flat_map in H as (l & Hl & H). destruct l as [t|b F' a]; [destruct H|]. destruct H as [->|[]]. eauto. Qed.
  Lemma template_field F : In (Field F) (levels_template ls) <-> In F (level_fields ls).
  Proof.
    split.
    - intros H. apply In_between in H as [H|(x & Hx & H)]; [discriminate|]. apply in_map_iff in Hx as (l & <- & Hl).
      destruct l as [t|b F' a]; cbn [level_pieces] in H.
      + apply in_map_iff in H as (g & C & _). discriminate.
      + destruct H as [H|[H|[H|[]]]]; try discriminate. injection H as ->. now apply field_in in Hl.
    - intros H. destruct (fields_of F H) as (b & a & Hl). apply (between_In _ _ _ (level_pieces (Valued b F a))); [now apply in_map|].
      right. left. reflexivity.
  Qed.
  Lemma template_pieces : pieces_ok (levels_template ls).
  Proof.
    split.
    - intros s H. apply In_between in H as [H|(x & Hx & H)].
      + injection H as ->. split; simpl; intuition discriminate.
      + apply in_map_iff in Hx as (l & <- & Hl). pose proof (level_in l Hl) as Q. destruct l as [t|b F a]; cbn [level_pieces level_ok] in *.
        * apply in_map_iff in H as (g & [= ->] & Hg). now apply Q in Hg as [? _].
        * destruct Q as ((Qb & _) & (Qa & _) & _). destruct H as [H|[H|[H|[]]]]; try discriminate; injection H as <-; auto.
    - intros n H. apply template_field in H. destruct (fields_of n H) as (b & a & Hl). apply (level_in _ Hl).
  Qed.

  Section Values.
    Context (values : str -> str).
    Hypothesis VO : values_ok ls values.
    Lemma value_chars F c : In F (level_fields ls) -> In c (values F) -> valid_character c = true.
    Proof. intros HF Hc. destruct (VO F HF) as [E _]. rewrite <- E in Hc. now apply kept_chars in Hc. Qed.
    Lemma level_lits l s : In l ls -> In (Lit s) (level_segs values l) -> folder_text s.
    Proof.
      intros Hl H. pose proof (level_in l Hl) as Q. destruct l as [t|b F a]; cbn [level_segs level_ok] in *.
      - now apply Q.
      - destruct Q as (Qb & Qa & _). destruct H as [H|[H|[H|[]]]]; injection H as <-; auto.
        assert (N : forall c, valid_character c = false -> ~ In c (values F)).
        { intros c Hc H. apply (value_chars F) in H; [congruence|]. now apply field_in in Hl. }
        repeat split; apply N; reflexivity.
    Qed.
    Lemma level_no_slash l now : In l ls -> ~ In "/"%char (level_text values now l).
    Proof.
      intros Hl H. unfold level_text in H. rewrite (fill_partition _ _ (fun _ => [])) in H. apply partition_chars in H as [H|[(s & Hs & Hc)|(n & [])]].
      - discriminate.
      - apply in_map_iff in Hs as (g & [= ->] & Hg). now apply (level_lits l s Hl Hg).
    Qed.
    Lemma level_named l now : In l ls -> exists c, In c (level_text values now l).
    Proof.
      intros Hl. pose proof (level_in l Hl) as Q. unfold level_text. destruct l as [t|b F a]; cbn [level_segs level_ok] in *.
      - destruct Q as (_ & g & Hg & Ng). assert (E : seg_value now g <> []).
        { assert (D : forall k n, dec_pad k n <> []).
          { intros k n. unfold dec_pad. intros E. apply app_eq_nil in E as [_ E]. now apply dec_nonempty in E. }
          destruct g; cbn [seg_value]; auto; try apply D. - intros E. subst. now apply Ng. - apply dec_nonempty. }
        destruct (seg_value now g) as [|c r] eqn:Es; [congruence|]. exists c. unfold fill. apply in_concat. exists (c :: r).
        split; [rewrite <- Es; now apply in_map|left; reflexivity].
      - destruct (VO F) as [_ N]; [now apply field_in in Hl|]. destruct (values F) as [|c r] eqn:Ev; [congruence|].
        exists c. unfold fill. cbn [map seg_value concat]. apply in_app_iff. right. left. reflexivity.
    Qed.
    Lemma levels_text now : fill (levels_of values ls) now = join $"/" (map (level_text values now) ls).
    Proof. unfold levels_of. rewrite fill_between, map_map. reflexivity. Qed.
    Lemma levels_split now : split "/"%char (fill (levels_of values ls) now) = map (level_text values now) ls.
    Proof.
      rewrite levels_text. apply split_join.
      - destruct OK as [_ L]. destruct ls; [cbn in L; lia|discriminate].
      - intros w Hw. apply in_map_iff in Hw as (l & <- & Hl). now apply level_no_slash.
    Qed.
    Lemma levels_lits s : In (Lit s) (levels_of values ls) -> s = $"/" \/ folder_text s.
    Proof.
      intros H. apply In_between in H as [H|(x & Hx & H)]; [left; congruence|]. apply in_map_iff in Hx as (l & <- & Hl). right.
      now apply (level_lits l).
    Qed.
    Lemma levels_proper : proper_template (map Date (levels_of values ls)).
    Proof.
      split; [|split].
      - split; [|intros n H; apply in_map_iff in H as (g & C & _); discriminate].
        intros s H. apply in_map_iff in H as (g & [= ->] & Hg). apply levels_lits in Hg as [->|Hg]; [split; simpl; intuition discriminate|apply Hg].
      - intros s H. apply in_map_iff in H as (g & [= ->] & Hg). apply levels_lits in Hg as [->|Hg]; [simpl; intuition discriminate|apply Hg].
      - intros now. rewrite <- fill_partition.
        assert (S : solid (fill (levels_of values ls) now)).
        { unfold solid. rewrite levels_split. intros w Hw. apply in_map_iff in Hw as (l & <- & Hl).
          destruct (level_named l now Hl) as (c & Hc). exists c. split; [exact Hc|]. intros ->.
          unfold level_text in Hc. rewrite (fill_partition _ _ (fun _ => [])) in Hc.
          apply partition_chars in Hc as [Hc|[(s & Hs & Hc)|(n & [])]]; [discriminate|].
          apply in_map_iff in Hs as (g & [= ->] & Hg). destruct (level_lits l s Hl Hg) as (_ & N & _). now apply N. }
        split; [exact S|]. rewrite solid_split, levels_split, map_length by exact S. apply OK.
    Qed.
  End Values.

  (** a folder tells the values it is named after *)
  Lemma same_levels v v' now now' : values_ok ls v -> values_ok ls v' ->
    fill (levels_of v ls) now = fill (levels_of v' ls) now' -> forall F, In F (level_fields ls) -> v F = v' F.
  Proof.
    intros O O' E F HF. apply (f_equal (split "/"%char)) in E. rewrite !levels_split in E by auto.
    destruct (fields_of F HF) as (b & a & Hl). assert (E1 : level_text v now (Valued b F a) = level_text v' now' (Valued b F a)).
    { clear -E Hl. induction ls as [|l r IH]; [destruct Hl|]. cbn [map] in E. injection E as E1 E2. destruct Hl as [->|Hl]; auto. }
    unfold level_text, fill in E1. cbn [level_segs map seg_value concat] in E1. rewrite !app_nil_r in E1.
    apply app_inv_head in E1. now apply app_inv_tail in E1.
  Qed.
  Lemma levels_ext v v' : (forall F, In F (level_fields ls) -> v F = v' F) -> levels_of v ls = levels_of v' ls.
  Proof.
    intros E. unfold levels_of. f_equal. apply map_ext_in. intros l Hl. destruct l as [t|b F a]; [reflexivity|]. cbn [level_segs].
    rewrite (E F); [reflexivity|]. now apply field_in in Hl.
  Qed.

  (** *** where records go *)
  Context {R V : Type} (M : streaming R V).
  Hypothesis SM : sets_ok M.
  Hypothesis T : m_template M = stream_template (levels_template ls).

  Lemma value_in_head names (c : list V) n v : value_in M (n :: names) (v :: c) n = kept_text (m_show M v).
  Proof. unfold value_in. cbn [chosen]. now rewrite str_eqb_refl. Qed.
  Lemma value_in_tail names (c : list V) n m v : n <> m -> value_in M (n :: names) (v :: c) m = value_in M names c m.
  Proof. intros N. unfold value_in. cbn [chosen]. now rewrite (proj2 (str_eqb_neq n m) N). Qed.
  Lemma value_in_member r names c n : Forall2 (fun n v => In v (m_get M r n)) names c -> In n names ->
    exists v, In v (m_get M r n) /\ value_in M names c n = kept_text (m_show M v).
  Proof.
    intros F. induction F as [|m v names c Hv F IH]; [intros []|]. intros Hn. destruct (str_eqb m n) eqn:E.
    - apply str_eqb_eq in E. subst. exists v. split; [exact Hv|apply value_in_head].
    - apply str_eqb_neq in E. destruct Hn as [->|Hn]; [congruence|]. rewrite value_in_tail by exact E. now apply IH.
  Qed.
  Lemma combination_once r names : NoDup names -> (forall n, In n names -> texts_differ M n r) ->
    forall c c', Forall2 (fun n v => In v (m_get M r n)) names c -> Forall2 (fun n v => In v (m_get M r n)) names c' ->
    (forall n, In n names -> value_in M names c n = value_in M names c' n) -> c = c'.
  Proof.
    induction 1 as [|n names Nn ND IH]; intros TD c c' F F' E.
    - inversion F; inversion F'; subst. reflexivity.
    - inversion F as [|? v ? d Hv Fd]; subst. inversion F' as [|? v' ? d' Hv' Fd']; subst. f_equal.
      + pose proof (E n (or_introl eq_refl)) as E1. rewrite !value_in_head in E1. apply (TD n (or_introl eq_refl)); auto.
      + apply IH; auto; [intros m Hm; apply TD; now right|]. intros m Hm. specialize (E m (or_intror Hm)).
        rewrite !value_in_tail in E by (intros ->; contradiction). exact E.
  Qed.
  Lemma combination_found r names (values : str -> str) : NoDup names ->
    (forall n, In n names -> has_text M n (values n) r = true) ->
    exists c, Forall2 (fun n v => In v (m_get M r n)) names c /\ forall n, In n names -> value_in M names c n = values n.
  Proof.
    induction 1 as [|n names Nn ND IH]; intros HT.
    - exists []. split; [constructor|intros n []].
    - destruct IH as (c & F & E); [intros m Hm; apply HT; now right|].
      specialize (HT n (or_introl eq_refl)). unfold has_text in HT. apply existsb_exists in HT as (v & Hv & Ev). apply str_eqb_eq in Ev.
      exists (v :: c). split; [constructor; auto|]. intros m [<-|Hm].
      + rewrite value_in_head. exact Ev.
      + rewrite value_in_tail by (intros ->; contradiction). now apply E.
  Qed.

  Lemma level_targets r now : names_folders M ls r -> exists names combos,
    NoDup names /\ (forall n, In n names <-> In n (level_fields ls)) /\ NoDup combos /\
    (forall c, In c combos <-> Forall2 (fun n v => In v (m_get M r n)) names c) /\
    (forall c, In c combos -> values_ok ls (value_in M names c)) /\
    targets M r now = map (fun c => fill (levels_of (value_in M names c) ls) now ++ suffix_of M r) combos.
  Proof.
    intros NF. destruct (targets_eq M (levels_template ls) SM T template_pieces r now) as (names & combos & NN & HN & NC & HC & E).
    assert (HN' : forall n, In n names <-> In n (level_fields ls)) by (intros n; rewrite HN; apply template_field).
    exists names, combos. split; [exact NN|]. split; [exact HN'|]. split; [exact NC|]. split; [exact HC|]. split.
    - intros c Hc F HF. apply HC in Hc. destruct (value_in_member r names c F Hc) as (v & Hv & ->); [now apply HN'|].
      split; [|apply (NF F HF); exact Hv]. unfold kept_text. rewrite filter_all; [reflexivity|].
      intros a Ha. apply filter_In in Ha. tauto.
    - rewrite E. apply map_ext. intros c. now rewrite partition_levels.
  Qed.

  Context (values : str -> str).
  Hypothesis VO : values_ok ls values.
  Notation t := (levels_of values ls).
  Hypothesis DT : daily_template t.

  Lemma fill_not_backout v now v' now' : values_ok ls v -> values_ok ls v' ->
    fill (levels_of v ls) now <> fill (levels_of v' ls) now' ++ $"/BACKOUT/".
  Proof.
    intros O O' E. apply (f_equal (fun s => length (split "/"%char s))) in E.
    change $"/BACKOUT/" with ($"/" ++ $"BACKOUT" ++ $"/") in E. change $"/" with ["/"%char] in E. rewrite split_app_sep, app_length in E.
    rewrite !levels_split, !map_length in E by auto. change (length (split "/"%char ($"BACKOUT" ++ ["/"%char]))) with 2%nat in E. lia.
  Qed.

  Lemma level_folder date v at_ : valid_day date -> clock_time at_ -> values_ok ls v ->
    (day_folder t date = fill (levels_of v ls) at_ <-> on_day date at_ = true /\ forall F, In F (level_fields ls) -> v F = values F).
  Proof.
    intros Vd Ca Ov. rewrite (day_folder_fill t (levels_proper values VO)). rewrite <- (same_folder t DT date at_ Vd Ca). split.
    - intros E. assert (EF : forall F, In F (level_fields ls) -> v F = values F).
      { intros F HF. symmetry. now apply (same_levels values v _ _ VO Ov E). }
      split; [|exact EF]. rewrite (levels_ext v values EF) in E. exact E.
    - intros [E EF]. now rewrite (levels_ext v values EF).
  Qed.

  Lemma one_target date r at_ : valid_day date -> clock_time at_ -> names_folders M ls r ->
    map (fun _ => r) (filter (str_eqb (day_folder t date)) (targets M r at_))
    = if m_valid M r && on_day date at_ then filter (has_texts M ls values) [r] else [].
  Proof.
    intros Vd Ca NF. destruct (level_targets r at_ NF) as (names & combos & NN & HN & NC & HC & HO & ->). unfold suffix_of.
    destruct (m_valid M r); cbn [andb].
    - set (f := fun c => fill (levels_of (value_in M names c) ls) at_ ++ []).
      set (g := fun c => on_day date at_ && forallb (fun F => str_eqb (value_in M names c F) (values F)) (level_fields ls)).
      assert (EF : filter (str_eqb (day_folder t date)) (map f combos) = map f (filter g combos)).
      { clear NC HC. induction combos as [|c l IH]; [reflexivity|]. cbn [map filter].
        rewrite IH by (intros c' Hc'; apply HO; now right).
        replace (str_eqb (day_folder t date) (f c)) with (g c); [destruct (g c); reflexivity|].
        apply Bool.eq_true_iff_eq. rewrite str_eqb_eq. unfold f, g. rewrite app_nil_r.
        rewrite (level_folder date (value_in M names c) at_ Vd Ca (HO c (or_introl eq_refl))).
        rewrite andb_true_iff, forallb_forall. split; intros [H1 H2]; (split; [exact H1|]); intros F HF; specialize (H2 F HF); now apply str_eqb_eq. }
      rewrite EF, map_map. clear EF. destruct (on_day date at_) eqn:On.
      + cbn [filter]. destruct (has_texts M ls values r) eqn:HT.
        * unfold has_texts in HT. rewrite forallb_forall in HT.
          destruct (combination_found r names values NN) as (c & Fc & Ec); [intros n Hn; apply HT; now apply HN|].
          assert (Hc : In c (filter g combos)).
          { apply filter_In. split; [now apply HC|]. unfold g. cbn [andb]. apply forallb_forall. intros F HF. apply str_eqb_eq. apply Ec. now apply HN. }
          assert (U : forall c', In c' (filter g combos) -> c' = c).
          { intros c' Hc'. apply filter_In in Hc' as [Hc' Hg]. unfold g in Hg. cbn [andb] in Hg. rewrite forallb_forall in Hg.
            apply (combination_once r names NN); auto.
            - intros n Hn. apply (NF n). now apply HN.
            - now apply HC.
            - intros n Hn. rewrite Ec by exact Hn. apply str_eqb_eq. apply Hg. now apply HN. }
          pose proof (NoDup_filter g NC) as ND. destruct (filter g combos) as [|c1 [|c2 l]]; [destruct Hc|reflexivity|].
          exfalso. inversion ND as [|? ? N _]; subst. apply N. left. rewrite (U c1), (U c2); auto; cbn; auto.
        * replace (filter g combos) with (@nil (list V)); [reflexivity|]. symmetry. apply filter_nil. intros c Hc.
          apply not_true_iff_false. intros Hg. unfold g in Hg. cbn [andb] in Hg. rewrite forallb_forall in Hg.
          apply not_true_iff_false in HT. apply HT. unfold has_texts. apply forallb_forall. intros F HF.
          apply HC in Hc. destruct (value_in_member r names c F Hc) as (v & Hv & Ev); [now apply HN|].
          unfold has_text. apply existsb_exists. exists v. split; [exact Hv|]. rewrite <- Ev. now apply Hg.
      + replace (filter g combos) with (@nil (list V)); [reflexivity|]. symmetry. apply filter_nil. intros c Hc. reflexivity.
    - replace (filter _ (map _ combos)) with (@nil str); [reflexivity|]. symmetry. apply filter_nil. intros id Hid.
      apply in_map_iff in Hid as (c & <- & Hc). apply str_eqb_neq. rewrite (day_folder_fill t (levels_proper values VO)).
      apply fill_not_backout; auto.
  Qed.

  Lemma sent_levels date : valid_day date ->
    forall es os, (forall r at_, In (SAppend r at_) es -> clock_time at_ /\ names_folders M ls r) ->
    sent M (es ++ [SFinalize]) os (day_folder t date) = filter (has_texts M ls values) (accepted_on M (on_day date) es os).
  Proof.
    intros Vd. induction es as [|e es IH]; intros os HC.
    - destruct os; reflexivity.
    - destruct os as [|o os]; [destruct e; reflexivity|]. cbn [app].
      assert (HC' : forall r at_, In (SAppend r at_) es -> clock_time at_ /\ names_folders M ls r) by (intros r a H; apply (HC r a); right; exact H).
      destruct e as [r at_| |]; cbn [sent accepted_on]; auto. destruct o as [k|k]; auto.
      destruct (HC r at_ (or_introl eq_refl)) as [Ca NF].
      rewrite filter_app, IH by auto. f_equal. rewrite (one_target date r at_ Vd Ca NF). now destruct (m_valid M r && on_day date at_).
  Qed.
  Lemma sent_level es os id r : In r (sent M (es ++ [SFinalize]) os id) ->
    (forall r at_, In (SAppend r at_) es -> clock_time at_ /\ names_folders M ls r) ->
    exists at_ v, clock_time at_ /\ values_ok ls v /\ id = fill (levels_of v ls) at_ ++ suffix_of M r.
  Proof.
    intros H HC. apply sent_In in H as (at_ & Ha & Ht).
    assert (Q : clock_time at_ /\ names_folders M ls r) by (apply in_app_iff in Ha as [Ha|[Ha|[]]]; [eapply HC; eauto|discriminate]).
    destruct Q as [Ca NF]. destruct (level_targets r at_ NF) as (names & combos & _ & _ & _ & _ & HO & E).
    rewrite E in Ht. apply in_map_iff in Ht as (c & <- & Hc). exists at_, (value_in M names c). auto.
  Qed.
End Levels.

(** blobs of ascending attempts are read day by day *)
Section Rowed.
  Context (parse : str -> result value) (unzstd : str -> result str)
          (other : str -> str -> generator value) (read_blob : str -> result str).
  Context (fits : value -> Prop) (image : value -> value).
  Context {V : Type} (M : streaming value V) (ls : list level) (values : str -> str).
  Notation t := (levels_of values ls).
  Context (columns : value -> result value) (filters : value -> result bool) (cf : value -> value) (pf : value -> bool).
  Notation records := (blob_records parse unzstd other read_blob columns filters None).
  Notation selected l := (filter pf (map cf (map image l))).
  Hypothesis HW : read_as parse unzstd other (m_base M) (extension (s_format (m_base M)) (m_ext M)) fits image.
  Hypothesis PN : plain (s_node (m_base M)).
  Hypothesis PE : plain (m_ext M).
  Hypothesis OK : levels_ok ls.
  Hypothesis VO : values_ok ls values.
  Hypothesis DT : daily_template t.
  Let P : proper_template (map Date t) := levels_proper ls OK values VO.

  Lemma levels_rowed days blobs w store hash loads n (rows : list (nat * (str * list value) * str)) :
    puts w = map (put_of M) rows -> blobs = map (fun x => snd (fst x)) rows ->
    StronglySorted Peano.lt (map (fun x => fst (fst x)) rows) ->
    Forall (fun x => (fst (fst x) < attempts w)%nat /\ holds (m_base M) (snd (snd (fst x))) (snd x) /\ snd (snd (fst x)) <> []) rows ->
    good_clock (m_base M) (attempts w) -> reads_log read_blob (puts w) ->
    (forall b, In b blobs -> snd b <> [] -> exists at_ v r, clock_time at_ /\ values_ok ls v /\ fst b = fill (levels_of v ls) at_ ++ suffix_of M r) ->
    (forall date, In date days -> valid_day date /\ clean_folder (day_folder t date) /\
                                  lists_folder store (puts w) (day_folder t date)) ->
    StronglySorted (fun a b => str_compare a b = Lt) (map (day_folder t) days) ->
    (forall a b, In a days -> In b days -> length (day_folder t a) = length (day_folder t b)) ->
    let wanted := flat_map (fun date => stored_for (day_folder t date) blobs) days in
    (forall r, In r wanted -> fits r /\ applies columns filters cf pf (image r)) ->
    gives wanted (firstn n (selected wanted)) (read_records hash loads (fun _ => get_list_of_blobs None store (map (day_folder t) days)) 0 records NoCursor n).
  Proof.
    intros R1 R2 R3 R4 CL RL IB0 HD HS HL. cbv zeta.
    set (roots := map (day_folder t) days) in *. set (keys := [None : option (str * str)]).
    assert (EI : ids roots keys = roots).
    { unfold ids, keys. clear. induction roots as [|p r IH]; [reflexivity|]. cbn [flat_map]. rewrite IH. unfold id_of. cbn [map app]. now rewrite app_nil_r. }
    assert (EW : flat_map (fun date => stored_for (day_folder t date) blobs) days = flat_map (fun id => stored_for id blobs) (ids roots keys)).
    { rewrite EI. unfold roots. now rewrite flat_map_map. }
    rewrite EW. clear EW. intros HR.
    assert (IR : forall p, In p roots -> exists date, In date days /\ p = day_folder t date).
    { intros p Hp. apply in_map_iff in Hp as (date & <- & Hd). eauto. }
    assert (IK : forall p k, In k keys -> id_of p k = p).
    { intros p k [<-|[]]. unfold id_of. apply app_nil_r. }
    assert (IB : forall b, In b blobs -> exists at_ v r, clock_time at_ /\ values_ok ls v /\ fst b = fill (levels_of v ls) at_ ++ suffix_of M r).
    { intros b Hb. apply IB0; [exact Hb|].
      rewrite R2 in Hb. apply in_map_iff in Hb as (x & <- & Hx). rewrite Forall_forall in R4. now apply R4. }
    destruct HW as (e_ & x_ & HX & HDc).
    apply (core parse unzstd other read_blob M columns filters cf pf e_ x_ fits image HX HDc PN PE blobs w CL RL roots keys) with (rows := rows); auto.
    - intros b Hb. destruct (IB b Hb) as (at_ & v & r & _ & Ov & ->). unfold suffix_of. destruct (m_valid M r).
      + exists (fill (levels_of v ls) at_). intros k. rewrite app_nil_r. apply (fill_name _ (levels_proper ls OK v Ov) M PE).
      + exists (fill (levels_of v ls) at_ ++ $"/BACKOUT"). intros k. apply (backout_name _ (levels_proper ls OK v Ov) M PE).
    - intros p k Hp Hk x. rewrite IK by exact Hk. destruct (IR p Hp) as (date & Hd & ->). rewrite (day_folder_fill t P).
      apply (fill_name t P M PE).
    - intros b x p Hb Hp Hs Hn. exists None. split; [left; reflexivity|]. rewrite IK by (left; reflexivity).
      destruct (IB b Hb) as (at_ & v & r & Ca & Ov & Eb). rewrite Eb in *. unfold suffix_of in *.
      destruct (m_valid M r).
      + rewrite app_nil_r in *. rewrite (fill_name _ (levels_proper ls OK v Ov) M PE) in Hs. destruct (IR p Hp) as (date & Hd & ->).
        rewrite (day_folder_fill t P) in *. apply startswith_iff in Hs as (rest & Hs).
        apply (f_equal (split "/"%char)) in Hs. rewrite <- !app_assoc in Hs. change $"/" with ["/"%char] in Hs.
        rewrite !split_app_sep in Hs. apply app_inj_length in Hs as [Hs _].
        * rewrite <- (join_split "/"%char (fill t (midnight date))), <- Hs. symmetry. apply join_split.
        * now rewrite !levels_split, !map_length by auto.
      + exfalso. rewrite (backout_name _ (levels_proper ls OK v Ov) M PE) in Hn. apply not_true_iff_false in Hn. apply Hn.
        apply contains_iff. exists (fill (levels_of v ls) at_ ++ $"/"), ($"/" ++ file_of M x). rewrite <- !app_assoc. reflexivity.
    - intros p k x Hp Hk. rewrite IK by exact Hk. apply not_true_iff_false. intros C. destruct (IR p Hp) as (date & Hd & ->).
      pose proof (day_folder_fill t P date) as Ef.
      apply (name_contains M PN PE (day_folder t date) x) in C.
      + destruct C as (c0 & Hw & C). destruct (HD date Hd) as (_ & Cl & _).
        destruct (Cl c0) as (_ & _ & _ & Cb); [|congruence].
        unfold components_of in Hw. apply filter_In in Hw. tauto.
      + rewrite Ef. apply fill_relative, P.
      + rewrite Ef. apply fill_depth, P.
      + rewrite Ef. intros Cd. apply (fill_no_dot t P (midnight date)). eapply components_chars; [|exact Cd].
        destruct (two_ends _ (fill_depth t P (midnight date))) as (b & mid & z & ->). change (b :: mid ++ [z]) with ((b :: mid) ++ [z]).
        rewrite last_last. apply in_app_iff. right. left. auto.
      + rewrite Ef. apply fill_no_brace, P.
    - rewrite EI. rewrite <- (map_id roots). revert HS. apply sorted_map. intros a b Ha Hb L x y.
      destruct (IR a Ha) as (da & Hda & ->). destruct (IR b Hb) as (db & Hdb & ->). apply str_compare_app; auto.
    - intros id Hi. rewrite EI in Hi. destruct (IR id Hi) as (date & Hd & ->). rewrite (day_folder_fill t P). apply fill_folder, P.
    - intros p Hp. destruct (IR p Hp) as (date & Hd & ->). now apply HD.
    - intros b f [Hk|[]]. discriminate.
    - intros k k' [<-|[]] [<-|[]]. exact I.
    - intros p c Hp Hc. destruct (IR p Hp) as (date & Hd & ->). destruct (HD date Hd) as (_ & Cl & _).
      destruct (Cl c Hc) as (C1 & C2 & C3 & _).
      split; [|split; [exact C2|split; [exact C3|]]].
      + apply not_true_iff_false. intros S0. apply startswith_iff in S0 as (r & ->). apply not_true_iff_false in C1. apply C1.
        apply contains_iff. exists [], r. reflexivity.
      + intros b f [Hk|[]]. discriminate.
  Qed.
End Rowed.

Section Written.
  Context (parse : str -> result value) (unzstd : str -> result str)
          (other : str -> str -> generator value) (read_blob : str -> result str).
  Context (fits : value -> Prop) (image : value -> value).
  Context {V : Type} (M : streaming value V) (ls : list level) (values : str -> str).
  Notation t := (levels_of values ls).
  Context (columns : value -> result value) (filters : value -> result bool) (cf : value -> value) (pf : value -> bool).
  Notation records := (blob_records parse unzstd other read_blob columns filters None).
  Notation selected l := (filter pf (map cf (map image l))).
  Hypothesis HM : stream_settings parse unzstd other fits image M.
  Hypothesis OK : levels_ok ls.
  Hypothesis VO : values_ok ls values.
  Hypothesis DT : daily_template t.
  Hypothesis T : m_template M = stream_template (levels_template ls).
  Let P : proper_template (map Date t) := levels_proper ls OK values VO.

  Lemma levels_stored days blobs w store hash loads n :
    timed M blobs w -> good_clock (m_base M) (attempts w) -> reads_log read_blob (puts w) ->
    (forall b, In b blobs -> snd b <> [] -> exists at_ v r, clock_time at_ /\ values_ok ls v /\ fst b = fill (levels_of v ls) at_ ++ suffix_of M r) ->
    (forall date, In date days -> valid_day date /\ clean_folder (day_folder t date) /\
                                  lists_folder store (puts w) (day_folder t date)) ->
    StronglySorted (fun a b => str_compare a b = Lt) (map (day_folder t) days) ->
    (forall a b, In a days -> In b days -> length (day_folder t a) = length (day_folder t b)) ->
    let wanted := flat_map (fun date => stored_for (day_folder t date) blobs) days in
    (forall r, In r wanted -> fits r /\ applies columns filters cf pf (image r)) ->
    gives wanted (firstn n (selected wanted)) (read_records hash loads (fun _ => get_list_of_blobs None store (map (day_folder t) days)) 0 records NoCursor n).
  Proof.
    intros TM CL RL IB HD HS HL. destruct HM as (HW & PN & PE & SM & RE).
    destruct (timed_rows M blobs w TM) as (rows & R1 & R2 & R3 & R4).
    apply (levels_rowed parse unzstd other read_blob fits image M ls values columns filters cf pf HW PN PE OK VO) with (w := w) (rows := rows); auto.
  Qed.

  Context (es : list (event (R:=value))) (os : list (result nat)) (s : sstate (R:=value)) (store : str -> list str).
  Hypothesis HR : stream_ran read_blob M es os s.
  Hypothesis HN : forall r at_, In (SAppend r at_) es -> names_folders M ls r.
  Notation wanted_on date := (filter (has_texts M ls values) (accepted_on M (on_day date) es os)).

  Lemma levels_days days hash loads n :
    (forall date, In date days -> valid_day date /\ clean_folder (day_folder t date) /\
                                  lists_folder store (puts (world_of s)) (day_folder t date)) ->
    StronglySorted (fun a b => str_compare a b = Lt) (map (day_folder t) days) ->
    (forall a b, In a days -> In b days -> length (day_folder t a) = length (day_folder t b)) ->
    let wanted := flat_map (fun date => wanted_on date) days in
    (forall r, In r wanted -> fits r /\ applies columns filters cf pf (image r)) ->
    gives wanted (firstn n (selected wanted)) (read_records hash loads (fun _ => get_list_of_blobs None store (map (day_folder t) days)) 0 records NoCursor n).
  Proof.
    intros HD HS HL wanted HRD. destruct HM as (HW & PN & PE & SM & RE). destruct HR as (E & HC & CL & RL).
    assert (HCN : forall r at_, In (SAppend r at_) es -> clock_time at_ /\ names_folders M ls r) by eauto.
    destruct (all_timed M RE _ _ _ E) as (blobs & TM & ST).
    assert (W : flat_map (fun date => stored_for (day_folder t date) blobs) days = wanted).
    { apply flat_map_same. intros date Hd. rewrite ST. apply (sent_levels ls OK M SM T values VO DT); auto. now apply HD. }
    rewrite <- W in *. clear wanted W.
    apply levels_stored with (w := world_of s); auto.
    intros b Hb Nb. destruct (snd b) as [|r g] eqn:Eg; [congruence|].
    assert (Hr : In r (sent M (es ++ [SFinalize]) os (fst b))).
    { rewrite <- ST. apply (in_stored_for b blobs r Hb). rewrite Eg. left. reflexivity. }
    destruct (sent_level ls OK M SM T es os (fst b) r Hr HCN) as (at_ & v & A1 & A2 & A3). eauto 6.
  Qed.

  Lemma levels_range_of now rnd y m d hh mm ss y' m' d' hh' mm' ss' hash loads n :
    valid_date y m d -> valid_time hh mm ss -> valid_date y' m' d' -> valid_time hh' mm' ss' ->
    (of_fields y m d hh mm ss <= of_fields y' m' d' hh' mm' ss')%Z ->
    (forall date, within (y, m, d) (y', m', d') date ->
       clean_folder (day_folder t date) /\ lists_folder store (puts (world_of s)) (day_folder t date)) ->
    (forall a b, within (y, m, d) (y', m', d') a -> within (y, m, d) (y', m', d') b ->
       length (day_folder t a) = length (day_folder t b) /\
       (day_lt a b -> str_compare (day_folder t a) (day_folder t b) = Lt)) ->
    exists days, consecutive days /\ hd_error days = Some (y, m, d) /\ last days (y', m', d') = (y', m', d') /\
    let wanted := flat_map (fun date => wanted_on date) days in
    ((forall r, In r wanted -> fits r /\ applies columns filters cf pf (image r)) ->
    gives wanted (firstn n (selected wanted)) (read_records hash loads
      (fun _ => list_range None store now rnd (template_text t ++ $"/") (of_fields y m d hh mm ss) (of_fields y' m' d' hh' mm' ss'))
      0 records NoCursor n)).
  Proof.
    intros V1 T1 V2 T2 L HF HO.
    destruct (ReadRange.range_each_day_once None store now rnd t y m d hh mm ss y' m' d' hh' mm' ss' DT V1 T1 V2 T2 L)
      as (days & C & Hd & Hl & _ & E).
    assert (Hl' : last days (y', m', d') = (y', m', d')).
    { rewrite <- Hl at 2. apply last_any. intros ->. discriminate. }
    exists days. split; [exact C|]. split; [exact Hd|]. split; [exact Hl'|]. intros wanted HR'.
    apply valid_date_spec in V1.
    pose proof (consecutive_valid days C _ Hd V1) as HV.
    assert (HI : forall x, In x days -> within (y, m, d) (y', m', d') x).
    { intros x Hx. split; [specialize (HV x Hx); destruct x as [[? ?] ?]; now apply valid_date_spec|].
      apply (consecutive_all days C (y, m, d) (y', m', d') Hd V1 x (HV x Hx)) in Hx. rewrite Hl' in Hx.
      now apply andb_prop in Hx. }
    rewrite E. apply levels_days; auto.
    - apply (sorted_map _ day_lt); [|now apply consecutive_sorted]. intros a b Ha Hb. apply HO; now apply HI.
    - intros a b Ha Hb. apply HO; now apply HI.
  Qed.

  Lemma levels_range now rnd y m d hh mm ss y' m' d' hh' mm' ss' hash loads n :
    chronological t ->
    valid_date y m d -> valid_time hh mm ss -> valid_date y' m' d' -> valid_time hh' mm' ss' -> (1000 <= y)%Z -> (y' <= 9999)%Z ->
    (of_fields y m d hh mm ss <= of_fields y' m' d' hh' mm' ss')%Z ->
    (forall date, within (y, m, d) (y', m', d') date ->
       clean_folder (day_folder t date) /\ lists_folder store (puts (world_of s)) (day_folder t date)) ->
    exists days, consecutive days /\ hd_error days = Some (y, m, d) /\ last days (y', m', d') = (y', m', d') /\
    let wanted := flat_map (fun date => wanted_on date) days in
    ((forall r, In r wanted -> fits r /\ applies columns filters cf pf (image r)) ->
    gives wanted (firstn n (selected wanted)) (read_records hash loads
      (fun _ => list_range None store now rnd (template_text t ++ $"/") (of_fields y m d hh mm ss) (of_fields y' m' d' hh' mm' ss'))
      0 records NoCursor n)).
  Proof.
    intros CH V1 T1 V2 T2 Y1 Y2 L HF. apply levels_range_of; auto.
    intros a b Ha Hb. destruct (within_four _ _ _ _ _ _ a Y1 Y2 Ha) as [Va Fa]. destruct (within_four _ _ _ _ _ _ b Y1 Y2 Hb) as [Vb Fb].
    rewrite !day_folder_fill by exact P. now apply fills_lt.
  Qed.

  Lemma levels_day now rnd y m d hh mm ss hh' mm' ss' hash loads n :
    valid_date y m d -> valid_time hh mm ss -> valid_time hh' mm' ss' ->
    (of_fields y m d hh mm ss <= of_fields y m d hh' mm' ss')%Z ->
    clean_folder (day_folder t (y, m, d)) -> lists_folder store (puts (world_of s)) (day_folder t (y, m, d)) ->
    let wanted := wanted_on (y, m, d) in
    (forall r, In r wanted -> fits r /\ applies columns filters cf pf (image r)) ->
    gives wanted (firstn n (selected wanted)) (read_records hash loads
      (fun _ => list_range None store now rnd (template_text t ++ $"/") (of_fields y m d hh mm ss) (of_fields y m d hh' mm' ss'))
      0 records NoCursor n).
  Proof.
    intros V1 T1 T2 L Cl LF wanted HR'.
    assert (W : forall date, within (y, m, d) (y, m, d) date -> date = (y, m, d)).
    { intros date (_ & A & B). apply date_leb_spec in A, B. destruct A as [A|A]; auto. destruct B as [B|B]; auto.
      destruct date as [[a b] c]. unfold day_lt in *. lia. }
    destruct (levels_range_of now rnd y m d hh mm ss y m d hh' mm' ss' hash loads n) as (days & C & Hd & Hl & Q); auto.
    - intros date Hw. apply W in Hw. subst. auto.
    - intros a b Ha Hb. apply W in Ha, Hb. subst. split; [reflexivity|]. unfold day_lt. lia.
    - assert (E : days = [(y, m, d)]).
      { pose proof (consecutive_sorted days C) as S. destruct days as [|x l]; [discriminate|]. injection Hd as ->.
        destruct l as [|x' l]; auto. exfalso. apply StronglySorted_inv in S as [_ F]. rewrite Forall_forall in F.
        assert (I : In (y, m, d) (x' :: l)).
        { change (last ((y, m, d) :: x' :: l) (y, m, d)) with (last (x' :: l) (y, m, d)) in Hl.
          destruct (exists_last (l := x' :: l)) as (p & w & Ep); [discriminate|]. rewrite Ep in *. rewrite last_last in Hl. subst.
          apply in_app_iff. right. left. reflexivity. }
        apply F in I. unfold day_lt in I. lia. }
      subst days. cbn [flat_map] in Q. rewrite !app_nil_r in Q. auto.
  Qed.
End Written.
