(** Proofs: streams partitioned by a field of their records, read by its values. *)
From Coq Require Import Sorted Permutation.
From Verif.Base Require Import Py PyFacts Value ValueFacts.
From Verif.Model Require Import Paths Dates Frames ReadRange Cursor Storage Writers Stream Reader.
From Verif.Spec Require Import Paths Dates Frames Cursor Json Writers Stream Reader StreamRead StreamField.
From Verif.Proofs Require Import Paths Dates Writers Stream StreamPaths StreamPool StreamRead StreamRange.
From Verif.Proofs Require ReadRange GroupBy.
Local Open Scope Z_scope.

(** ** Names *)
Lemma kept_sanitize s : kept_text s = sanitize s.
Proof. reflexivity. Qed.
Lemma kept_chars s c : In c (kept_text s) -> valid_character c = true.
Proof. rewrite kept_sanitize. apply sanitize_chars. Qed.

(** the part of the folder of a value *)
Definition value_key (F x : str) : option (str * str) := Some ($"by_" ++ F, F ++ $"=" ++ x).

Section Cycle.
  Context (p F : str).
  Hypothesis PC : clean_folder p.
  Hypothesis FC : forall c, In c F -> valid_character c = true.
  Definition valued (b x file : str) : Prop :=
    b = id_of p (value_key F x) ++ $"/" ++ file /\ (forall c, In c x -> valid_character c = true) /\ plain file.
  Lemma valued_split b x file : valued b x file -> split "/"%char b = split "/"%char p ++ [$"by_" ++ F; F ++ $"=" ++ x; file].
  Proof.
    intros (-> & Hx & Hf). unfold id_of, value_key. rewrite <- !app_assoc. change $"/" with ["/"%char].
    rewrite split_app_sep. f_equal.
    assert (N1 : ~ In "/"%char ($"by_" ++ F)).
    { intros H. apply in_app_iff in H as [H|H]; [simpl in H; intuition discriminate|]. apply FC in H. discriminate. }
    assert (N2 : ~ In "/"%char (F ++ $"=" ++ x)).
    { intros H. apply in_app_iff in H as [H|H]; [apply FC in H; discriminate|].
      apply in_app_iff in H as [H|H]; [simpl in H; intuition discriminate|]. apply Hx in H. discriminate. }
    assert (N3 : ~ In "/"%char file) by (apply plain_no; auto).
    change ($"by_" ++ F ++ ["/"%char] ++ F ++ $"=" ++ x ++ ["/"%char] ++ file)
      with ($"by_" ++ F ++ "/"%char :: F ++ $"=" ++ x ++ "/"%char :: file).
    replace ($"by_" ++ F ++ "/"%char :: F ++ $"=" ++ x ++ "/"%char :: file)
      with (($"by_" ++ F) ++ "/"%char :: (F ++ $"=" ++ x) ++ "/"%char :: file) by (rewrite <- !app_assoc; reflexivity).
    rewrite !split_app_no_sep, split_single by auto. reflexivity.
  Qed.
  Lemma no_underscore_key x : (forall c, In c x -> valid_character c = true) -> ~ In "_"%char (F ++ $"=" ++ x).
  Proof.
    intros Hx H. apply in_app_iff in H as [H|H]; [apply FC in H; discriminate|].
    apply in_app_iff in H as [H|H]; [simpl in H; intuition discriminate|]. apply Hx in H. discriminate.
  Qed.
  Lemma not_by c : In c (split "/"%char p) -> startswith $"by_" c = false /\ c <> $"by_" ++ F.
  Proof.
    intros Hc. destruct (PC c Hc) as (C & _).
    assert (S : startswith $"by_" c = false).
    { apply not_true_iff_false. intros S. apply startswith_iff in S as (r & ->). apply not_true_iff_false in C. apply C.
      apply contains_iff. exists [], r. reflexivity. }
    split; [exact S|]. intros ->. rewrite startswith_app in S. discriminate.
  Qed.
  Lemma first_after l b q : (forall c, In c l -> startswith q c = false) -> startswith q b = true -> forall r, first_starting q (l ++ b :: r) = Some b.
  Proof.
    intros Hl Hb r. induction l as [|a l IH]; cbn [app first_starting]; [now rewrite Hb|].
    rewrite (Hl a) by now left. apply IH. intros c Hc. apply Hl. now right.
  Qed.
  Lemma next_after l b x r : (forall c, In c l -> c <> b) -> safe_get_next (l ++ b :: x :: r) b = Some x.
  Proof.
    intros Hl. induction l as [|a l IH]; cbn [app safe_get_next]; [now rewrite str_eqb_refl|].
    rewrite (proj2 (str_eqb_neq a b)) by (apply Hl; now left). apply IH. intros c Hc. apply Hl. now right.
  Qed.
  Lemma valued_extract b x file : valued b x file -> extract_by b = Some ($"by_" ++ F).
  Proof.
    intros H. unfold extract_by. change slash with "/"%char. rewrite (valued_split _ _ _ H). apply first_after.
    - intros c Hc. now apply not_by.
    - apply startswith_app.
  Qed.
  Lemma valued_next b x file : valued b x file -> safe_get_next (split slash b) ($"by_" ++ F) = Some (F ++ $"=" ++ x).
  Proof.
    intros H. change slash with "/"%char. rewrite (valued_split _ _ _ H). apply next_after. intros c Hc. now apply not_by.
  Qed.
  Lemma valued_contains b x file : valued b x file ->
    contains $"/by_" b = true /\ contains ($"/" ++ ($"by_" ++ F) ++ $"/") b = true /\
    contains (($"by_" ++ F) ++ $"/" ++ F ++ $"=" ++ x) b = true.
  Proof.
    intros (-> & _). unfold id_of, value_key. repeat split; apply contains_iff.
    - exists p, (F ++ $"/" ++ F ++ $"=" ++ x ++ $"/" ++ file). rewrite <- !app_assoc. reflexivity.
    - exists p, (F ++ $"=" ++ x ++ $"/" ++ file). rewrite <- !app_assoc. reflexivity.
    - exists (p ++ $"/"), ($"/" ++ file). rewrite <- !app_assoc. reflexivity.
  Qed.
  Lemma valued_no_frame b x file : valued b x file -> contains $"as_at_" b = false.
  Proof.
    intros H. apply not_true_iff_false. intros C. rewrite <- (join_split "/"%char b) in C. rewrite contains_join_in in C.
    - destruct C as (w & Hw & C). rewrite (valued_split _ _ _ H) in Hw. apply in_app_iff in Hw as [Hw|Hw].
      + destruct (PC w Hw) as (_ & C' & _). congruence.
      + destruct H as (_ & Hx & Hf). assert (U : forall s, contains $"as_at_" s = true -> In "_"%char s).
        { intros s Hs. apply contains_iff in Hs as (u & v & ->). apply in_app_iff. right. right. right. left. reflexivity. }
        destruct Hw as [<-|[<-|[<-|[]]]].
        * apply contains_iff in C as (u & v & C).
          assert (L : (2 <= length (filter (Ascii.eqb "_"%char) ($"by_" ++ F)))%nat).
          { rewrite C, !filter_app, !app_length. cbn. lia. }
          rewrite filter_app, app_length in L. cbn [list_ascii_of_string filter Ascii.eqb Bool.eqb length] in L.
          assert (Z : filter (Ascii.eqb "_"%char) F = []).
          { clear L C PC. induction F as [|a f IH]; [reflexivity|]. cbn [filter].
            destruct (Ascii.eqb_spec "_"%char a) as [<-|N].
            - specialize (FC "_"%char (or_introl eq_refl)). discriminate.
            - apply IH. intros c Hc. apply FC. now right. }
          rewrite Z in L. cbn in L. lia.
        * now apply (no_underscore_key x Hx), U.
        * apply U in C. apply plain_no in C; auto.
    - simpl. intuition discriminate.
    - apply split_nonempty.
    - intros w. apply split_no_sep.
  Qed.
  Lemma same_tail {A} (b : A) l1 r1 l2 r2 : l1 ++ b :: r1 = l2 ++ b :: r2 -> ~ In b l1 -> ~ In b r1 -> r1 = r2.
  Proof.
    revert l2. induction l1 as [|a l1 IH]; intros [|c l2] E N1 N2; cbn [app] in E.
    - congruence.
    - exfalso. injection E as _ E. apply N2. rewrite E. apply in_app_iff. right. now left.
    - exfalso. injection E as -> _. apply N1. now left.
    - injection E as -> E. eapply IH; eauto. intros H. apply N1. now right.
  Qed.
  Lemma valued_pattern b x file v : valued b x file -> (forall c, In c v -> valid_character c = true) ->
    (contains ($"/by_" ++ F ++ $"/" ++ F ++ $"=" ++ v ++ $"/") b = true <-> x = v).
  Proof.
    intros H Hv. split.
    - intros C. apply contains_iff in C as (u & w & C). pose proof (valued_split _ _ _ H) as E.
      assert (E2 : split "/"%char b = split "/"%char u ++ ($"by_" ++ F) :: (F ++ $"=" ++ v) :: split "/"%char w).
      { rewrite C. change $"/by_" with ($"/" ++ $"by_"). rewrite <- !app_assoc. change $"/" with ["/"%char]. rewrite split_app_sep. f_equal.
        replace ($"by_" ++ F ++ ["/"%char] ++ F ++ $"=" ++ v ++ ["/"%char] ++ w)
          with (($"by_" ++ F) ++ "/"%char :: (F ++ $"=" ++ v) ++ "/"%char :: w) by (rewrite <- !app_assoc; reflexivity).
        rewrite !split_app_no_sep; [reflexivity| |].
        - intros K. apply in_app_iff in K as [K|K]; [apply FC in K; discriminate|].
          apply in_app_iff in K as [K|K]; [simpl in K; intuition discriminate|]. apply Hv in K. discriminate.
        - intros K. apply in_app_iff in K as [K|K]; [simpl in K; intuition discriminate|]. apply FC in K. discriminate. }
      rewrite E in E2. apply same_tail in E2.
      + injection E2 as E2 _. apply app_inv_head in E2. injection E2 as E2. exact E2.
      + intros K. now apply not_by in K.
      + intros K. destruct H as (_ & Hx & Hf). assert (U : In "_"%char ($"by_" ++ F)) by (right; right; left; reflexivity).
        destruct K as [K|[K|[]]].
        * rewrite <- K in U. now apply (no_underscore_key x Hx) in U.
        * rewrite <- K in U. apply plain_no in U; auto.
    - intros ->. destruct H as (-> & _). apply contains_iff. exists p, file. unfold id_of, value_key. rewrite <- !app_assoc. reflexivity.
  Qed.

  (** *** what is listed of a folder all of whose blobs are in folders of values *)
  Lemma frame_id l : (forall b, In b l -> contains $"as_at_" b = false) -> select_frame l = l.
  Proof.
    intros H. unfold select_frame. rewrite (filter_nil (contains $"as_at_") l H). reflexivity.
  Qed.
  Lemma parts_same l : (forall b, In b l -> exists x file, valued b x file) -> l <> [] -> partitions_of l = [$"by_" ++ F].
  Proof.
    intros H Hne. unfold partitions_of. rewrite filter_all.
    2:{ intros b Hb. destruct (H b Hb) as (x & file & Hv). now apply valued_contains in Hv. }
    assert (E : forall l', incl l' l -> dedup str_eqb (flat_map (fun b => match extract_by b with Some x => [x] | None => [] end) l')
      = match l' with [] => [] | _ => [$"by_" ++ F] end).
    { intros l' Hi. assert (E : flat_map (fun b => match extract_by b with Some x => [x] | None => [] end) l' = map (fun _ => $"by_" ++ F) l').
      { clear Hne. induction l' as [|a l' IH]; [reflexivity|]. cbn [flat_map map].
        destruct (H a) as (x & file & Hv); [apply Hi; now left|]. rewrite (valued_extract _ _ _ Hv). cbn [app]. f_equal.
        apply IH. intros b Hb. apply Hi. now right. }
      rewrite E. clear E Hi. induction l' as [|a l' IH]; [reflexivity|]. cbn [map dedup]. rewrite IH.
      destruct l'; cbn [filter]; [reflexivity|]. now rewrite str_eqb_refl. }
    rewrite E by (intros b Hb; exact Hb). now destruct l.
  Qed.
  Lemma folders_read l : (forall b, In b l -> exists x file, valued b x file) ->
    forall b, In b (read_folders ($"by_" ++ F) l) <-> In b l.
  Proof.
    intros H b. unfold read_folders. rewrite in_flat_map. unfold partitioned_folders.
    change (match $"by_" ++ F with [] => [[]] | _ => dedup str_eqb (map (fun b => fmt (safe_get_next (split slash b) ($"by_" ++ F))) l) end)
      with (dedup str_eqb (map (fun b => fmt (safe_get_next (split slash b) ($"by_" ++ F))) l)).
    split.
    - intros (f & _ & Hb). rewrite frame_id in Hb; [now apply filter_In in Hb|].
      intros a Ha. apply filter_In in Ha as [Ha _]. destruct (H a Ha) as (x & file & Hv). eapply valued_no_frame; eauto.
    - intros Hb. destruct (H b Hb) as (x & file & Hv). exists (F ++ $"=" ++ x). split.
      + apply (dedup_In str_eqb str_eqb_eq). apply in_map_iff. exists b. rewrite (valued_next _ _ _ Hv). split; [reflexivity|exact Hb].
      + rewrite frame_id; [apply filter_In; split; [exact Hb|]; now apply (valued_contains _ _ _ Hv)|].
        intros a Ha. apply filter_In in Ha as [Ha _]. destruct (H a Ha) as (x' & file' & Hv'). eapply valued_no_frame; eauto.
  Qed.
  Lemma chosen_same l : (forall b, In b l -> exists x file, valued b x file) -> choose_partition l [$"by_" ++ F] = ($"by_" ++ F, l).
  Proof.
    intros H. unfold choose_partition. change (rev (sorted_str [$"by_" ++ F])) with [$"by_" ++ F]. cbv iota.
    f_equal. apply filter_all. intros b Hb. destruct (H b Hb) as (x & file & Hv). now apply valued_contains in Hv.
  Qed.
  Notation alive := (fun b => negb (contains $"BACKOUT" b)).
  Lemma cycle_all listing : (forall b, In b (filter alive listing) -> exists x file, valued b x file) ->
    exists out, cycle_blobs_of None listing = Ok out /\ forall b, In b out <-> In b (filter alive listing).
  Proof.
    intros H. unfold cycle_blobs_of. set (l := filter alive listing) in *. cbn [apply_partition_filter bind].
    destruct l as [|b0 l0] eqn:El.
    - eexists. split; [reflexivity|]. intros b. cbn. tauto.
    - rewrite <- El in *. assert (Hne : l <> []) by (rewrite El; discriminate). clearbody l.
      rewrite (parts_same l H Hne), (chosen_same l H). eexists. split; [reflexivity|]. now apply folders_read.
  Qed.
  Lemma cycle_value listing op v : In op [$"="; $"=="] -> sanitize F = F ->
    (forall b, In b (filter alive listing) -> exists x file, valued b x file) ->
    exists out, cycle_blobs_of (Some (F, op, v)) listing = Ok out /\
      forall b, In b out <-> In b (filter alive listing) /\ exists file, valued b (sanitize v) file.
  Proof.
    intros Hop HF H. unfold cycle_blobs_of. set (l := filter alive listing) in *. unfold apply_partition_filter.
    replace (str_mem op [$"="; $"=="]) with true by (symmetry; apply str_mem_In; exact Hop). cbn [negb]. rewrite HF.
    destruct l as [|b0 l0] eqn:El.
    - eexists. split; [reflexivity|]. intros b. cbn. tauto.
    - rewrite <- El in *. assert (Hne : l <> []) by (rewrite El; discriminate). clearbody l.
      rewrite (parts_same l H Hne). cbn [existsb]. rewrite contains_self. cbn [orb bind].
      set (k := filter _ l).
      assert (Hk : forall b, In b k -> exists x file, valued b x file) by (intros b Hb; apply filter_In in Hb as [Hb _]; auto).
      rewrite (chosen_same k Hk). eexists. split; [reflexivity|]. intros b. rewrite (folders_read k Hk). unfold k. rewrite filter_In.
      assert (Hv : forall c, In c (sanitize v) -> valid_character c = true) by apply sanitize_chars.
      split; intros [Hb C]; split; auto.
      + destruct (H b Hb) as (x & file & Hx). apply (valued_pattern _ _ _ _ Hx Hv) in C. subst x. eauto.
      + destruct C as (file & Hx). now apply (valued_pattern _ _ _ _ Hx Hv).
  Qed.
End Cycle.

(** ** Order of the texts *)
Lemma texts_order x y : ~ In "/"%char x -> ~ In "/"%char y -> str_ltb (x ++ $"/") (y ++ $"/") = true ->
  forall u v, str_compare (x ++ $"/" ++ u) (y ++ $"/" ++ v) = Lt.
Proof.
  unfold str_ltb. revert y. induction x as [|a x IH]; intros [|b y] Nx Ny H u v; cbn [app str_compare] in *.
  - change $"/" with ["/"%char] in H. cbn [app str_compare] in H. rewrite N.compare_refl in H. discriminate.
  - change $"/" with ["/"%char] in *. cbn [app str_compare] in *. destruct (N.compare_spec (N_of_ascii "/") (N_of_ascii b)) as [E|E|E]; auto; try discriminate.
    exfalso. apply Ny. left. apply (f_equal ascii_of_N) in E. rewrite !ascii_N_embedding in E. auto.
  - change $"/" with ["/"%char] in *. cbn [app str_compare] in *. destruct (N.compare_spec (N_of_ascii a) (N_of_ascii "/")) as [E|E|E]; auto; try discriminate.
    exfalso. apply Nx. left. apply (f_equal ascii_of_N) in E. rewrite !ascii_N_embedding in E. auto.
  - destruct (N_of_ascii a ?= N_of_ascii b)%N; auto; try discriminate. apply IH; auto; intros C; [apply Nx|apply Ny]; now right.
Qed.

(** ** The stream *)
Section Stream.
  Context (t : list seg) (F : str).
  Notation ps := (field_template t F).
  Hypothesis DT : daily_template t.
  Hypothesis P : proper_template (map Date t).
  Hypothesis FN : field_name F.
  Lemma name_chars c : In c F -> valid_character c = true.
  Proof. destruct FN as (E & _). rewrite <- E. apply kept_chars. Qed.
  Notation valid_text x := (forall c, In c x -> valid_character c = true).
  Notation part p x := (id_of p (value_key F x)).

  Lemma field_pieces : pieces_ok ps.
  Proof.
    destruct P as ((P1 & P2) & _). destruct FN as (_ & N1 & N2 & _).
    assert (NB : no_braces F). { split; intros C; apply name_chars in C; discriminate. }
    split.
    - intros s H. unfold field_template in H. apply in_app_iff in H as [H|[H|[H|[]]]]; [auto| |discriminate].
      assert (Es : s = $"/by_" ++ F ++ $"/" ++ F ++ $"=") by congruence. rewrite Es. clear H Es. destruct NB as [B1 B2]. split; intros C; rewrite !in_app_iff in C; simpl in C; intuition discriminate.
    - intros n H. unfold field_template in H. apply in_app_iff in H as [H|[H|[H|[]]]]; [auto|discriminate|].
      injection H as <-. auto.
  Qed.
  Lemma field_partition now v : partition_of ps now v = part (fill t now) (v F).
  Proof.
    unfold field_template, partition_of. rewrite map_app, concat_app. cbn [map concat piece_value seg_value].
    change (concat (map (piece_value now v) (map Date t))) with (partition_of (map Date t) now v).
    rewrite <- fill_partition. unfold id_of, value_key. rewrite app_nil_r, <- !app_assoc. reflexivity.
  Qed.

  Lemma part_split p x : valid_text x -> split "/"%char (part p x) = split "/"%char p ++ [$"by_" ++ F; F ++ $"=" ++ x].
  Proof.
    intros Hx. unfold id_of, value_key. change $"/" with ["/"%char]. rewrite split_app_sep. f_equal.
    assert (N1 : ~ In "/"%char ($"by_" ++ F)).
    { intros H. apply in_app_iff in H as [H|H]; [simpl in H; intuition discriminate|]. apply name_chars in H. discriminate. }
    assert (N2 : ~ In "/"%char (F ++ $"=" ++ x)).
    { intros H. apply in_app_iff in H as [H|H]; [apply name_chars in H; discriminate|].
      apply in_app_iff in H as [H|H]; [simpl in H; intuition discriminate|]. apply Hx in H. discriminate. }
    change (($"by_" ++ F) ++ ["/"%char] ++ F ++ $"=" ++ x) with (($"by_" ++ F) ++ "/"%char :: (F ++ $"=" ++ x)).
    rewrite split_app_no_sep, split_single by auto. reflexivity.
  Qed.
  Lemma part_inj p q x y : valid_text x -> valid_text y -> part p x = part q y -> p = q /\ x = y.
  Proof.
    intros Hx Hy E. apply (f_equal (split "/"%char)) in E. rewrite !part_split in E by auto.
    apply app_inj_length_r in E as [E1 E2]; [|reflexivity]. split.
    - rewrite <- (join_split "/"%char p), E1. apply join_split.
    - injection E2 as E2. apply app_inv_head in E2. injection E2 as E2. exact E2.
  Qed.
  Lemma part_solid now x : valid_text x -> solid (part (fill t now) x).
  Proof.
    intros Hx c Hc. rewrite part_split in Hc by auto. apply in_app_iff in Hc as [Hc|[<-|[<-|[]]]].
    - now apply (fill_solid t P now).
    - exists "b"%char. split; [left; reflexivity|discriminate].
    - exists "="%char. split; [apply in_app_iff; right; left; reflexivity|discriminate].
  Qed.
  Lemma part_relative now x : relative (part (fill t now) x).
  Proof.
    intros r E. pose proof (fill_relative t P now) as Q. pose proof (fill_depth t P now) as D. unfold id_of in E.
    destruct (fill t now) as [|c0 f0]; [cbn in D; lia|]. injection E as -> _. now apply (Q f0).
  Qed.
  Lemma part_depth now x : valid_text x -> (2 <= length (components_of (part (fill t now) x)))%nat.
  Proof. intros Hx. rewrite solid_split by (apply part_solid; auto). rewrite part_split, app_length by auto. cbn. lia. Qed.
  Lemma part_no c now x : valid_text x -> valid_character c = false -> c <> "="%char -> c <> "_"%char -> c <> "/"%char ->
    ~ In c (fill t now) -> ~ In c (part (fill t now) x).
  Proof.
    intros Hx V N1 N2 N3 Nf H. unfold id_of, value_key in H. rewrite !in_app_iff in H.
    assert (Lit : forall s, forallb (fun c => valid_character c || existsb (Ascii.eqb c) ["="%char; "_"%char; "/"%char]) s = true -> ~ In c s).
    { intros s A C. rewrite forallb_forall in A. apply A in C. rewrite V in C. cbn [orb existsb] in C.
      destruct (Ascii.eqb_spec c "="); [congruence|]. destruct (Ascii.eqb_spec c "_"); [congruence|]. destruct (Ascii.eqb_spec c "/"); [congruence|]. discriminate. }
    destruct H as [H|[H|[[H|H]|[H|[H|[H|H]]]]]]; auto.
    - now apply (Lit $"/") in H.
    - now apply (Lit $"by_") in H.
    - apply name_chars in H. congruence.
    - now apply (Lit $"/") in H.
    - apply name_chars in H. congruence.
    - now apply (Lit $"=") in H.
    - apply Hx in H. congruence.
  Qed.
  Lemma part_last now x : valid_text x -> no_extension (last (components_of (part (fill t now) x)) []).
  Proof.
    intros Hx C. rewrite solid_split in C by (apply part_solid; auto). rewrite part_split in C by auto.
    replace (split "/"%char (fill t now) ++ [$"by_" ++ F; F ++ $"=" ++ x])
      with ((split "/"%char (fill t now) ++ [$"by_" ++ F]) ++ [F ++ $"=" ++ x]) in C by (rewrite <- app_assoc; reflexivity).
    rewrite last_last in C. apply in_app_iff in C as [C|C]; [apply name_chars in C; discriminate|].
    apply in_app_iff in C as [C|C]; [simpl in C; intuition discriminate|]. apply Hx in C. discriminate.
  Qed.
  Lemma part_folder now x : valid_text x -> relative_folder (part (fill t now) x).
  Proof.
    intros Hx. split; [apply part_relative|]. exists "="%char. split; [|split; discriminate].
    unfold id_of, value_key. rewrite !in_app_iff. simpl. tauto.
  Qed.

  Context {R V : Type} (M : streaming R V).
  Hypothesis SM : sets_ok M.
  Hypothesis T : m_template M = stream_template ps.
  Hypothesis PN : plain (s_node (m_base M)).
  Hypothesis PE : plain (m_ext M).
  Notation name id k := (blob_name (s_filename (m_writer M id)) (s_node (m_base M)) k).

  Lemma part_name now x k : valid_text x -> name (part (fill t now) x) k = part (fill t now) x ++ $"/" ++ file_of M k.
  Proof.
    intros Hx. change (s_node (m_base M)) with (s_node (m_writer M (part (fill t now) x))).
    rewrite (name_eq M PE (part (fill t now) x) k);
      [|apply part_relative|now apply part_depth|now apply part_last|apply part_no; auto; try discriminate; apply fill_no_brace, P].
    rewrite solid_split by (apply part_solid; auto). change $"/" with ["/"%char].
    rewrite join_app by (try discriminate; apply split_nonempty). now rewrite join_split.
  Qed.
  Lemma part_backout now x k : valid_text x -> name (part (fill t now) x ++ $"/BACKOUT/") k = (part (fill t now) x ++ $"/BACKOUT") ++ $"/" ++ file_of M k.
  Proof.
    intros Hx. set (id := part (fill t now) x ++ $"/BACKOUT/").
    assert (Ec : components_of id = split "/"%char (part (fill t now) x) ++ [$"BACKOUT"]).
    { unfold id. change $"/BACKOUT/" with ($"/" ++ $"BACKOUT/"). rewrite components_app_slash, solid_split by (apply part_solid; auto). reflexivity. }
    change (s_node (m_base M)) with (s_node (m_writer M id)). rewrite (name_eq M PE id k).
    - rewrite Ec. change $"/" with ["/"%char]. rewrite join_app by (try discriminate; destruct (split _ _); discriminate).
      rewrite join_app by (try discriminate; apply split_nonempty). rewrite join_split. cbn [join]. rewrite <- !app_assoc. reflexivity.
    - intros r E. pose proof (fill_relative t P now) as Q. pose proof (fill_depth t P now) as D. unfold id, id_of in E.
      destruct (fill t now) as [|c0 f0]; [cbn in D; lia|]. injection E as -> _. now apply (Q f0).
    - rewrite Ec, app_length, part_split, app_length by auto. cbn. lia.
    - rewrite Ec, last_last. unfold no_extension. simpl. intuition discriminate.
    - unfold id. intros H. apply in_app_iff in H as [H|H].
      + revert H. apply part_no; auto; try discriminate. apply fill_no_brace, P.
      + revert H. simpl. intuition discriminate.
  Qed.

  (** *** where records go *)
  Lemma field_targets r now : exists vs, NoDup vs /\ (forall v, In v vs <-> In v (m_get M r F)) /\
    targets M r now = map (fun v => part (fill t now) (kept_text (m_show M v)) ++ suffix_of M r) vs.
  Proof.
    destruct (targets_eq M ps SM T field_pieces r now) as (names & combos & NN & HN & NC & HC & ->).
    assert (EN : names = [F]).
    { assert (A : forall n, In n names <-> n = F).
      { intros n. rewrite HN. unfold field_template. rewrite in_app_iff. split.
        - intros [H|[H|[H|[]]]]; [|discriminate|congruence]. apply in_map_iff in H as (g & C & _). discriminate.
        - intros ->. right. right. left. reflexivity. }
      destruct names as [|n l]; [destruct (proj2 (A F) eq_refl)|]. pose proof (proj1 (A n) (or_introl eq_refl)) as ->. f_equal.
      destruct l as [|m l]; auto. exfalso. inversion NN as [|? ? N _]; subst. apply N. left. apply A. right. left. auto. }
    subst names. exists (flat_map (fun c => c) combos).
    assert (HC1 : forall c, In c combos -> exists v, c = [v] /\ In v (m_get M r F)).
    { intros c Hc. apply HC in Hc. inversion Hc as [|? v ? c' Hv Hc']; subst. inversion Hc'; subst. eauto. }
    assert (HC2 : forall v, In v (m_get M r F) -> In [v] combos) by (intros v Hv; apply HC; repeat constructor; exact Hv).
    split; [|split].
    - clear HC HC2. induction NC as [|c l Nc NC IH]; [constructor|]. cbn [flat_map].
      destruct (HC1 c (or_introl eq_refl)) as (v & -> & _). cbn [app]. constructor.
      + intros H. apply Nc. apply in_flat_map in H as (c' & Hc' & Hv). destruct (HC1 c' (or_intror Hc')) as (v' & -> & _).
        destruct Hv as [->|[]]. exact Hc'.
      + apply IH. intros c' Hc'. apply HC1. now right.
    - intros v. rewrite in_flat_map. split.
      + intros (c & Hc & Hv). destruct (HC1 c Hc) as (v' & -> & Hv'). destruct Hv as [->|[]]. exact Hv'.
      + intros Hv. exists [v]. split; [now apply HC2|left; reflexivity].
    - clear HC HC2 NC. induction combos as [|c l IH]; [reflexivity|]. cbn [map flat_map].
      destruct (HC1 c (or_introl eq_refl)) as (v & -> & _). cbn [app map]. f_equal.
      + f_equal. rewrite field_partition. unfold value_in. cbn [chosen]. rewrite str_eqb_refl. reflexivity.
      + apply IH. intros c' Hc'. apply HC1. now right.
  Qed.

  Lemma part_day date at_ x y : valid_day date -> clock_time at_ -> valid_text x -> valid_text y ->
    (part (day_folder t date) x = part (fill t at_) y <-> on_day date at_ = true /\ x = y).
  Proof.
    intros Vd Ca Hx Hy. rewrite day_folder_fill by auto. rewrite <- (same_folder t DT date at_ Vd Ca). split.
    - intros E. now apply part_inj in E.
    - intros [-> ->]. reflexivity.
  Qed.
  Lemma part_not_backout p x q y : valid_text x -> part p x <> part q y ++ $"/BACKOUT/".
  Proof.
    intros Hx E. apply (f_equal (split "/"%char)) in E. rewrite part_split in E by auto.
    change $"/BACKOUT/" with ($"/" ++ $"BACKOUT" ++ $"/") in E. change $"/" with ["/"%char] in E. rewrite split_app_sep in E.
    apply (f_equal (fun l => last l [])) in E.
    change (split "/"%char ($"BACKOUT" ++ ["/"%char])) with ([$"BACKOUT"] ++ [[]] : list str) in E.
    rewrite (app_assoc (split "/"%char (part q y))), last_last in E.
    replace (split "/"%char p ++ [$"by_" ++ F; F ++ $"=" ++ x])
      with ((split "/"%char p ++ [$"by_" ++ F]) ++ [F ++ $"=" ++ x]) in E by (rewrite <- app_assoc; reflexivity).
    rewrite last_last in E. apply app_eq_nil in E as [_ E]. discriminate.
  Qed.

  Lemma sent_values times date x : valid_day date -> valid_text x ->
    forall es os, (forall r at_, In (SAppend r at_) es -> clock_time at_) -> (forall r at_, In (SAppend r at_) es -> members_with M F x r (times x r)) ->
    sent M (es ++ [SFinalize]) os (part (day_folder t date) x) = day_copies M times date es os x.
  Proof.
    intros Vd Hx. unfold day_copies. induction es as [|e es IH]; intros os HC HT.
    - destruct os; reflexivity.
    - destruct os as [|o os]; [destruct e; reflexivity|]. cbn [app].
      assert (HC' : forall r at_, In (SAppend r at_) es -> clock_time at_) by (intros r a H; apply (HC r a); right; exact H).
      assert (HT' : forall r at_, In (SAppend r at_) es -> members_with M F x r (times x r)) by (intros r a H; apply (HT r a); right; exact H).
      destruct e as [r at_| |]; cbn [sent accepted_on]; auto. destruct o as [k|k]; auto.
      rewrite flat_map_app, IH by auto. f_equal.
      specialize (HC r at_ (or_introl eq_refl)). specialize (HT r at_ (or_introl eq_refl)). clear IH HC' HT'.
      destruct (field_targets r at_) as (vs & NV & HV & ->). unfold suffix_of.
      assert (KV : forall v, valid_text (kept_text (m_show M v))) by (intros v c; apply kept_chars).
      destruct (m_valid M r); cbn [andb].
      + destruct (on_day date at_) eqn:On.
        * cbn [flat_map]. rewrite app_nil_r.
          assert (EF : filter (str_eqb (part (day_folder t date) x)) (map (fun v => part (fill t at_) (kept_text (m_show M v)) ++ []) vs)
            = map (fun v => part (fill t at_) (kept_text (m_show M v)) ++ []) (filter (fun v => str_eqb (kept_text (m_show M v)) x) vs)).
          { clear NV HV. induction vs as [|v vs IH]; [reflexivity|]. cbn [map filter]. rewrite app_nil_r at 1.
            replace (str_eqb (part (day_folder t date) x) (part (fill t at_) (kept_text (m_show M v)))) with (str_eqb (kept_text (m_show M v)) x).
            - destruct (str_eqb (kept_text (m_show M v)) x); cbn [map]; rewrite IH; reflexivity.
            - apply Bool.eq_true_iff_eq. rewrite !str_eqb_eq. rewrite (part_day date at_ x (kept_text (m_show M v)) Vd HC Hx (KV v)), On. split; intros H; [split; congruence|]. destruct H; congruence. }
          rewrite EF, map_map. clear EF. destruct HT as (ws & NW & HW & <-).
          assert (EL : length (filter (fun v => str_eqb (kept_text (m_show M v)) x) vs) = length ws).
          { apply Permutation_length, NoDup_Permutation; [now apply NoDup_filter|exact NW|].
            intros v. rewrite filter_In, HW, HV, str_eqb_eq. tauto. }
          rewrite <- EL. clear. induction (filter _ vs) as [|v l IH]; [reflexivity|]. cbn [map length repeat]. now rewrite IH.
        * replace (filter _ (map _ vs)) with (@nil str); [reflexivity|]. symmetry. apply filter_nil. intros id Hid.
          apply in_map_iff in Hid as (v & <- & _). rewrite app_nil_r. apply str_eqb_neq. intros E.
          apply (part_day date at_ x (kept_text (m_show M v)) Vd HC Hx (KV v)) in E as [E _]. congruence.
      + replace (filter _ (map _ vs)) with (@nil str); [reflexivity|]. symmetry. apply filter_nil. intros id Hid.
        apply in_map_iff in Hid as (v & <- & _). apply str_eqb_neq. now apply part_not_backout.
  Qed.
  (** members which differ: each record once or not at all *)
  Lemma differ_once x r : texts_differ M F r -> members_with M F x r (if has_text M F x r then 1 else 0).
  Proof.
    intros D. unfold has_text. destruct (existsb _ _) eqn:E.
    - apply existsb_exists in E as (v & Hv & Ev). apply str_eqb_eq in Ev. exists [v]. split; [repeat constructor; intros []|]. split; [|reflexivity].
      intros w. split.
      + intros [<-|[]]. auto.
      + intros [Hw Ew]. left. apply D; auto. congruence.
    - exists []. split; [constructor|]. split; [|reflexivity]. intros w. split; [intros []|]. intros [Hw Ew].
      assert (C : existsb (fun v => str_eqb (kept_text (m_show M v)) x) (m_get M r F) = true); [|congruence].
      apply existsb_exists. exists w. split; auto. now apply str_eqb_eq.
  Qed.
  Lemma copies_once date es os x : day_copies M (fun x r => if has_text M F x r then 1%nat else 0%nat) date es os x
    = filter (has_text M F x) (accepted_on M (on_day date) es os).
  Proof. unfold day_copies. induction (accepted_on _ _ _ _) as [|r l IH]; [reflexivity|]. cbn [flat_map filter]. rewrite IH. destruct (has_text M F x r); reflexivity. Qed.
  Lemma members_has times x r : members_with M F x r (times x r) -> (0 < times x r)%nat -> has_text M F x r = true.
  Proof.
    intros (vs & _ & H & <-) L. destruct vs as [|v vs]; [cbn in L; lia|]. destruct (proj1 (H v) (or_introl eq_refl)) as [Hv Ev].
    apply existsb_exists. exists v. split; auto. now apply str_eqb_eq.
  Qed.
  Lemma sent_place es os id r : In r (sent M (es ++ [SFinalize]) os id) -> (forall r at_, In (SAppend r at_) es -> clock_time at_) ->
    exists at_ x, clock_time at_ /\ valid_text x /\ id = part (fill t at_) x ++ suffix_of M r.
  Proof.
    intros H HC. apply sent_In in H as (at_ & Ha & Ht). destruct (field_targets r at_) as (vs & _ & _ & E). rewrite E in Ht.
    apply in_map_iff in Ht as (v & <- & _). exists at_, (kept_text (m_show M v)). split; [|split; [intros c; apply kept_chars|reflexivity]].
    apply in_app_iff in Ha as [Ha|[Ha|[]]]; [eapply HC; eauto|discriminate].
  Qed.
End Stream.

Lemma accepted_appended {R V} (M : streaming R V) q es : forall os r, In r (accepted_on M q es os) -> exists at_, In (SAppend r at_) es.
Proof.
  induction es as [|e es IH]; intros os r H; [destruct os; destruct H|].
  destruct os as [|o os]; [destruct e; destruct H|].
  destruct e as [r' a| |]; cbn [accepted_on] in H; try (destruct (IH _ _ H) as (at_ & Ha); exists at_; now right).
  destruct o; [apply in_app_iff in H as [H|H]|]; try (destruct (IH _ _ H) as (at_ & Ha); exists at_; now right).
  exists a. left. destruct (_ && _); [destruct H as [->|[]]; reflexivity|destruct H].
Qed.

(** ** What readers get *)
Section Rowed.
  Context (parse : str -> result value) (unzstd : str -> result str)
          (other : str -> str -> generator value) (read_blob : str -> result str).
  Context (fits : value -> Prop) (image : value -> value).
  Context {V : Type} (M : streaming value V) (t : list seg) (F : str).
  Context (columns : value -> result value) (filters : value -> result bool) (cf : value -> value) (pf : value -> bool).
  Notation records := (blob_records parse unzstd other read_blob columns filters None).
  Notation selected l := (filter pf (map cf (map image l))).
  Context (store : str -> list str).
  Hypothesis HW : read_as parse unzstd other (m_base M) (extension (s_format (m_base M)) (m_ext M)) fits image.
  Hypothesis PN : plain (s_node (m_base M)).
  Hypothesis PE : plain (m_ext M).
  Hypothesis P : proper_template (map Date t).
  Hypothesis FN : field_name F.
  Notation part p x := (id_of p (value_key F x)).
  Notation valid_text x := (forall c, In c x -> valid_character c = true).

  (** from the blobs of the log to what is read of the folders of some texts *)
  Lemma field_rowed days texts listing blobs wd hash loads n (rows : list (nat * (str * list value) * str)) :
    puts wd = map (put_of M) rows -> blobs = map (fun x => snd (fst x)) rows ->
    StronglySorted Peano.lt (map (fun x => fst (fst x)) rows) ->
    Forall (fun x => (fst (fst x) < attempts wd)%nat /\ holds (m_base M) (snd (snd (fst x))) (snd x) /\ snd (snd (fst x)) <> []) rows ->
    good_clock (m_base M) (attempts wd) -> reads_log read_blob (puts wd) ->
    (forall b, In b blobs -> snd b <> [] -> exists at_ x r, clock_time at_ /\ valid_text x /\ fst b = part (fill t at_) x ++ suffix_of M r) ->
    (forall date, In date days -> valid_day date /\ clean_folder (day_folder t date) /\
                                  lists_folder store (puts wd) (day_folder t date)) ->
    StronglySorted (fun a b => str_compare a b = Lt) (map (day_folder t) days) ->
    (forall a b, In a days -> In b days -> length (day_folder t a) = length (day_folder t b)) ->
    (forall x, In x texts -> valid_text x /\ contains $"BACKOUT" x = false) ->
    StronglySorted (fun x y => str_ltb (x ++ $"/") (y ++ $"/") = true) texts ->
    (forall p, In p (map (day_folder t) days) ->
       (forall b, In b (filter (fun b => negb (contains $"BACKOUT" b)) (store p)) ->
          exists x file, valued p F b x file /\ ((exists r, In r (stored_for (part p x) blobs)) /\ contains $"BACKOUT" x = false)) ->
       exists out, cycle_blobs_of listing (store p) = Ok out /\
         forall b, In b out <-> In b (filter (fun b => negb (contains $"BACKOUT" b)) (store p)) /\ exists x file, In x texts /\ valued p F b x file) ->
    let wanted := flat_map (fun date => flat_map (fun x => stored_for (part (day_folder t date) x) blobs) texts) days in
    (forall r, In r wanted -> fits r /\ applies columns filters cf pf (image r)) ->
    gives wanted (firstn n (selected wanted)) (read_records hash loads (fun _ => get_list_of_blobs listing store (map (day_folder t) days)) 0 records NoCursor n).
  Proof.
    intros R1 R2 R3 R4 CL RL IB0 HD HS HL HX HO HC wanted.
    set (roots := map (day_folder t) days) in *. set (keys := map (value_key F) texts).
    assert (W : flat_map (fun id => stored_for id blobs) (ids roots keys) = wanted).
    { unfold ids, wanted, roots, keys. rewrite flat_map_flat, flat_map_map. apply flat_map_same. intros date Hd.
      rewrite map_map, flat_map_map. reflexivity. }
    rewrite <- W. clear wanted W. intros HRD.
    assert (IR : forall p, In p roots -> exists date, In date days /\ p = day_folder t date).
    { intros p Hp. apply in_map_iff in Hp as (date & <- & Hd). eauto. }
    assert (II : forall id, In id (ids roots keys) -> exists date x, In date days /\ In x texts /\ id = part (fill t (midnight date)) x).
    { intros id Hi. unfold ids in Hi. apply in_flat_map in Hi as (p & Hp & Hi). apply in_map_iff in Hi as (k & <- & Hk).
      destruct (IR p Hp) as (date & Hd & ->). apply in_map_iff in Hk as (x & <- & Hx). exists date, x. rewrite day_folder_fill by auto. auto. }
    assert (NB : forall z, In z rows -> snd (snd (fst z)) <> []).
    { intros z Hz. rewrite Forall_forall in R4. now apply R4. }
    assert (IB : forall b, In b blobs -> exists at_ x r, clock_time at_ /\ valid_text x /\ In r (stored_for (fst b) blobs) /\ exists r0, fst b = part (fill t at_) x ++ suffix_of M r0).
    { intros b Hb. assert (Nb : snd b <> []).
      { rewrite R2 in Hb. apply in_map_iff in Hb as (z & <- & Hz). now apply NB. }
      destruct (IB0 b Hb Nb) as (at_ & x & r0 & Ca & Hx & Ei). destruct (snd b) as [|r g] eqn:Eb; [congruence|].
      exists at_, x, r. split; [exact Ca|]. split; [exact Hx|]. split; [|exists r0; exact Ei].
      apply (in_stored_for b blobs r Hb). rewrite Eb. left. reflexivity. }
    assert (IZ : forall z, In z rows -> In (snd (fst z)) blobs).
    { intros z Hz. rewrite R2. change (snd (fst z)) with ((fun z : nat * (str * list value) * str => snd (fst z)) z). now apply in_map. }
    (** the identity a name stands for *)
    assert (ID : forall z date x file, In z rows -> fst (put_of M z) = part (day_folder t date) x ++ $"/" ++ file -> valid_text x -> plain file ->
      fst (snd (fst z)) = part (day_folder t date) x).
    { intros z date x file Hz En Hx Hf. destruct (IB (snd (fst z)) (IZ z Hz)) as (at_ & y & r0 & Ca & Hy & _ & r & Ei).
      unfold put_of, nth_name in En. cbn [fst snd] in En. rewrite Ei in En |- *. unfold suffix_of in *.
      rewrite day_folder_fill in En |- * by auto.
      assert (Lf : ~ In "/"%char file) by (apply plain_no; auto).
      assert (Lg : forall k, ~ In "/"%char (file_of M k)) by (intros k; apply plain_no; [apply plain_file; auto|reflexivity]).
      assert (Ln : length (split "/"%char (fill t at_)) = length (split "/"%char (fill t (midnight date)))) by apply split_length_fill.
      destruct (m_valid M r).
      - rewrite app_nil_r in *. rewrite (part_name t F P FN M PE) in En by auto. apply (f_equal (split "/"%char)) in En.
        change $"/" with ["/"%char] in En. rewrite !split_app_sep, (split_single _ (file_of M _)), (split_single _ file) in En by auto.
        apply app_inj_length_r in En as [En _]; [|reflexivity].
        rewrite <- (join_split "/"%char (part (fill t at_) y)), En. apply join_split.
      - exfalso. rewrite (part_backout t F P FN M PE) in En by auto. apply (f_equal (split "/"%char)) in En.
        change $"/BACKOUT" with (["/"%char] ++ $"BACKOUT") in En. change $"/" with ["/"%char] in En.
        rewrite !split_app_sep, !(part_split F FN), (split_single _ (file_of M _)), (split_single _ file) in En by auto.
        apply (f_equal (@length str)) in En. rewrite !app_length in En. cbn [length] in En. cbn in En. lia. }
    destruct HW as (e_ & x_ & HX' & HDc).
    assert (LI : forall p k, In p roots -> In k keys -> forall j, blob_name (s_filename (m_writer M (id_of p k))) (s_node (m_base M)) j = id_of p k ++ $"/" ++ file_of M j).
    { intros p k Hp Hk j. destruct (IR p Hp) as (date & Hd & ->). apply in_map_iff in Hk as (x & <- & Hx).
      rewrite day_folder_fill by auto. apply (part_name t F P FN M PE). now apply HX. }
    (** the listing *)
    assert (LIST : exists out, get_list_of_blobs listing store roots = Ok out /\
      forall b, In b out <-> In b (map fst (map (put_of M) (stored_rows roots keys rows)))).
    { assert (EACH : forall p, In p roots -> exists out, cycle_blobs_of listing (store p) = Ok out /\
        forall b, In b out <-> In b (filter (fun b => negb (contains $"BACKOUT" b)) (store p)) /\ exists x file, In x texts /\ valued p F b x file).
      { intros p Hp. apply HC; [exact Hp|]. intros b Hb. apply filter_In in Hb as [Hb Al]. apply negb_true_iff in Al.
        destruct (IR p Hp) as (date & Hd & Ep). destruct (HD date Hd) as (Vd & Cl & (_ & LF)). rewrite <- Ep in LF. apply LF in Hb as [Hb Hs].
        rewrite R1, map_map in Hb. apply in_map_iff in Hb as (z & Ez & Hz).
        destruct (IB (snd (fst z)) (IZ z Hz)) as (at_ & y & r0 & Ca & Hy & Hr & r & Ei).
        pose proof Ez as En. unfold put_of, nth_name in En. cbn [fst snd] in En. rewrite Ei in En. unfold suffix_of in *.
        destruct (m_valid M r).
        - rewrite app_nil_r in *. rewrite (part_name t F P FN M PE) in En by auto.
          assert (Et : fill t at_ = p).
          { apply startswith_iff in Hs as (rest & Hs). rewrite <- En in Hs. rewrite Ep, day_folder_fill in Hs |- * by auto.
            assert (Ln : length (split "/"%char (fill t at_)) = length (split "/"%char (fill t (midnight date)))) by apply split_length_fill.
            unfold id_of, value_key in Hs. rewrite <- !app_assoc in Hs. apply (f_equal (split "/"%char)) in Hs. change $"/" with ["/"%char] in Hs.
            rewrite split_app_sep, (split_app_sep _ (fill t (midnight date))) in Hs. apply app_inj_length in Hs as [Hs _]; auto.
            rewrite <- (join_split "/"%char (fill t (midnight date))), <- Hs. symmetry. apply join_split. }
          exists y, (file_of M (s_clock (m_base M) (fst (fst z)))). split; [split; [rewrite <- Et; auto|split; [exact Hy|apply plain_file; auto]]|].
          split.
          + exists r0. rewrite <- Et, <- Ei. exact Hr.
          + apply not_true_iff_false. intros C. apply not_true_iff_false in Al. apply Al. rewrite <- En. apply contains_iff in C as (u & v & ->).
            apply contains_iff. unfold id_of, value_key. exists (fill t at_ ++ $"/" ++ ($"by_" ++ F) ++ $"/" ++ F ++ $"=" ++ u).
            exists (v ++ $"/" ++ file_of M (s_clock (m_base M) (fst (fst z)))). rewrite <- !app_assoc. reflexivity.
        - exfalso. rewrite (part_backout t F P FN M PE) in En by auto. apply not_true_iff_false in Al. apply Al. rewrite <- En.
          apply contains_iff. exists (part (fill t at_) y ++ $"/"), ($"/" ++ file_of M (s_clock (m_base M) (fst (fst z)))). rewrite <- !app_assoc. reflexivity. }
      unfold get_list_of_blobs.
      destruct (GroupBy.mapM_Forall2 (fun p => cycle_blobs_of listing (store p))
        (fun p out => forall b, In b out <-> In b (filter (fun b => negb (contains $"BACKOUT" b)) (store p)) /\ exists x file, In x texts /\ valued p F b x file)
        (dedup str_eqb roots)) as (found & -> & FF).
      { intros p Hp. apply EACH. revert Hp. apply (dedup_In str_eqb str_eqb_eq). }
      cbn [bind]. eexists. split; [reflexivity|]. intros b. rewrite sorted_str_In, in_concat.
      assert (IN : (exists out, In out found /\ In b out) <-> exists p, In p roots /\ In b (filter (fun b => negb (contains $"BACKOUT" b)) (store p)) /\
        exists x file, In x texts /\ valued p F b x file).
      { assert (G : forall l, Forall2 (fun p out => forall b, In b out <-> In b (filter (fun b => negb (contains $"BACKOUT" b)) (store p)) /\ exists x file, In x texts /\ valued p F b x file) l found ->
          ((exists out, In out found /\ In b out) <-> exists p, In p l /\ In b (filter (fun b => negb (contains $"BACKOUT" b)) (store p)) /\ exists x file, In x texts /\ valued p F b x file)).
        { clear. intros l FF. induction FF as [|p out l found H FF IH]; [split; intros (? & [] & _)|]. split.
          - intros (o & [<-|Ho] & Hb); [exists p; split; [left; reflexivity|now apply H]|].
            destruct (proj1 IH) as (q & Hq & Q); [eauto|]. exists q. split; [right; exact Hq|exact Q].
          - intros (q & [<-|Hq] & Q); [exists out; split; [left; reflexivity|now apply H]|].
            destruct (proj2 IH) as (o & Ho & Q'); [eauto|]. exists o. split; [right; exact Ho|exact Q']. }
        rewrite (G _ FF). split; intros (p & Hp & Q); exists p; (split; [|exact Q]); revert Hp; apply (dedup_In str_eqb str_eqb_eq). }
      rewrite IN. clear IN FF EACH. rewrite map_map, in_map_iff. split.
      - intros (p & Hp & Hb & x & file & Hx & (Eb & Vx & Pf)). apply filter_In in Hb as [Hb _].
        destruct (IR p Hp) as (date & Hd & Ep). destruct (HD date Hd) as (Vd & Cl & (_ & LF)). rewrite <- Ep in LF. apply LF in Hb as [Hb _].
        rewrite R1, map_map in Hb. apply in_map_iff in Hb as (z & Ez & Hz). exists z. split; [exact Ez|].
        rewrite Ep in Eb. rewrite Eb in Ez. unfold stored_rows. apply in_flat_map. exists (part (day_folder t date) x). split.
        + unfold ids. apply in_flat_map. exists p. split; auto. rewrite Ep. apply in_map. unfold keys. now apply in_map.
        + apply filter_In. split; auto. apply str_eqb_eq. symmetry. eapply ID; eauto.
      - intros (z & Ez & Hz). unfold stored_rows in Hz. apply in_flat_map in Hz as (id & Hi & Hz). apply filter_In in Hz as [Hz Ei].
        apply str_eqb_eq in Ei. unfold ids in Hi. apply in_flat_map in Hi as (p & Hp & Hi). apply in_map_iff in Hi as (k & Ek & Hk).
        pose proof Ez as En. unfold put_of, nth_name in En. cbn [fst snd] in En. rewrite <- Ei, <- Ek, (LI p k Hp Hk) in En.
        apply in_map_iff in Hk as (x & <- & Hx). destruct (IR p Hp) as (date & Hd & Ep). destruct (HD date Hd) as (Vd & Cl & (_ & LF)). rewrite <- Ep in LF, Cl.
        assert (VB : valued p F b x (file_of M (s_clock (m_base M) (fst (fst z))))).
        { split; [auto|]. split; [now apply HX|apply plain_file; auto]. }
        exists p. split; [exact Hp|]. split; [|eauto]. apply filter_In. split.
        + apply LF. split; [|rewrite <- En; unfold id_of, value_key; rewrite <- !app_assoc; apply startswith_iff; eexists; rewrite <- app_assoc; reflexivity].
          rewrite R1, map_map. apply in_map_iff. exists z. auto.
        + apply negb_true_iff, not_true_iff_false. intros C. rewrite <- (join_split "/"%char b) in C. rewrite contains_join_in in C.
          * destruct C as (w & Hw & C). rewrite (valued_split p F (name_chars F FN) _ _ _ VB) in Hw. apply in_app_iff in Hw as [Hw|Hw].
            -- destruct (Cl w Hw) as (_ & _ & _ & C'). congruence.
            -- destruct FN as (_ & _ & _ & FB). destruct Hw as [<-|[<-|[<-|[]]]].
               ++ destruct (contains_iff $"BACKOUT" ($"by_" ++ F)) as [C1 _]. destruct (C1 C) as (u & v & Q).
                  destruct u as [|u1 [|u2 [|u3 u]]]; try discriminate. cbn in Q. injection Q as _ _ _ Q.
                  apply not_true_iff_false in FB. apply FB. apply contains_iff. exists u, v. exact Q.
               ++ apply contains_iff in C as (u & v & Q).
                  assert (Hb : contains $"BACKOUT" (join ["="%char] [F; x]) = true).
                  { apply contains_iff. exists u, v. cbn [join]. rewrite <- Q. reflexivity. }
                  rewrite contains_join_in in Hb.
                  ** destruct Hb as (w & [<-|[<-|[]]] & Hw); [congruence|]. destruct (HX x Hx) as [_ Hx']. congruence.
                  ** simpl. intuition discriminate.
                  ** discriminate.
                  ** intros w [<-|[<-|[]]] Hw; [apply (name_chars F FN) in Hw; discriminate|]. apply (HX x Hx) in Hw. discriminate.
               ++ rewrite contains_no_B in C; [discriminate|]. apply plain_no; [apply plain_file; auto|reflexivity].
          * simpl. intuition discriminate.
          * apply split_nonempty.
          * intros w. apply split_no_sep. }
    destruct LIST as (out & LO & OO).
    apply (core_listed parse unzstd other read_blob M columns filters cf pf e_ x_ fits image HX' HDc PN PE blobs wd CL RL roots keys) with (rows := rows) (out := out); auto.
    - intros b Hb. destruct (IB b Hb) as (at_ & x & r0 & _ & Hx & _ & r & ->). unfold suffix_of. destruct (m_valid M r).
      + exists (part (fill t at_) x). intros k. rewrite app_nil_r. now apply (part_name t F P FN M PE).
      + exists (part (fill t at_) x ++ $"/BACKOUT"). intros k. now apply (part_backout t F P FN M PE).
    - unfold ids. apply (sorted_flat _ _ (fun a b => str_compare a b = Lt)); [exact HS| |].
      + intros p Hp. unfold keys. rewrite map_map. revert HO. apply sorted_map.
        intros a b Ha Hb L u v. unfold id_of, value_key. rewrite <- !app_assoc. rewrite !str_compare_prefix.
        apply texts_order; [intros C; apply (proj1 (HX a Ha)) in C; discriminate|intros C; apply (proj1 (HX b Hb)) in C; discriminate|exact L].
      + intros a b x y Ha Hb L Hx Hy u v. destruct (IR a Ha) as (da & Hda & ->). destruct (IR b Hb) as (db & Hdb & ->).
        apply in_map_iff in Hx as (k & <- & _). apply in_map_iff in Hy as (k' & <- & _).
        unfold id_of. rewrite <- !app_assoc. apply str_compare_app; auto.
    - intros id Hi. destruct (II id Hi) as (date & x & Hd & Hx & ->). apply part_folder; auto. now apply HX.
  Qed.
End Rowed.

Section Written.
  Context (parse : str -> result value) (unzstd : str -> result str)
          (other : str -> str -> generator value) (read_blob : str -> result str).
  Context (fits : value -> Prop) (image : value -> value).
  Context {V : Type} (M : streaming value V) (t : list seg) (F : str).
  Context (columns : value -> result value) (filters : value -> result bool) (cf : value -> value) (pf : value -> bool).
  Notation records := (blob_records parse unzstd other read_blob columns filters None).
  Notation selected l := (filter pf (map cf (map image l))).
  Context (es : list (event (R:=value))) (os : list (result nat)) (s : sstate (R:=value)) (store : str -> list str).
  Hypothesis HM : stream_settings parse unzstd other fits image M.
  Hypothesis HR : stream_ran read_blob M es os s.
  Hypothesis DT : daily_template t.
  Hypothesis P : proper_template (map Date t).
  Hypothesis FN : field_name F.
  Hypothesis T : m_template M = stream_template (field_template t F).
  Context (times : str -> value -> nat).
  Hypothesis TD : forall x r at_, In (SAppend r at_) es -> members_with M F x r (times x r).
  Notation part p x := (id_of p (value_key F x)).
  Notation valid_text x := (forall c, In c x -> valid_character c = true).

  Lemma field_days days texts listing hash loads n :
    (forall date, In date days -> valid_day date /\ clean_folder (day_folder t date) /\
                                  lists_folder store (puts (world_of s)) (day_folder t date)) ->
    StronglySorted (fun a b => str_compare a b = Lt) (map (day_folder t) days) ->
    (forall a b, In a days -> In b days -> length (day_folder t a) = length (day_folder t b)) ->
    (forall x, In x texts -> valid_text x /\ contains $"BACKOUT" x = false) ->
    StronglySorted (fun x y => str_ltb (x ++ $"/") (y ++ $"/") = true) texts ->
    (** what is listed: the blobs of the days' folders in the folders of the texts *)
    (forall p, In p (map (day_folder t) days) ->
       (forall b, In b (filter (fun b => negb (contains $"BACKOUT" b)) (store p)) ->
          exists x file, valued p F b x file /\ ((forall date, In date days -> p = day_folder t date -> exists r, In r (day_copies M times date es os x)) /\ contains $"BACKOUT" x = false)) ->
       exists out, cycle_blobs_of listing (store p) = Ok out /\
         forall b, In b out <-> In b (filter (fun b => negb (contains $"BACKOUT" b)) (store p)) /\ exists x file, In x texts /\ valued p F b x file) ->
    let wanted := flat_map (fun date => flat_map (day_copies M times date es os) texts) days in
    (forall r, In r wanted -> fits r /\ applies columns filters cf pf (image r)) ->
    gives wanted (firstn n (selected wanted)) (read_records hash loads (fun _ => get_list_of_blobs listing store (map (day_folder t) days)) 0 records NoCursor n).
  Proof.
    intros HD HS HL HX HO HC wanted.
    destruct HM as (HW & PN & PE & SM & RE). destruct HR as (E & CT & CL & RL).
    destruct (all_timed M RE _ _ _ E) as (blobs & TM & ST).
    assert (W : flat_map (fun date => flat_map (fun x => stored_for (part (day_folder t date) x) blobs) texts) days = wanted).
    { apply flat_map_same. intros date Hd. apply flat_map_same. intros x Hx. rewrite ST.
      apply (sent_values t F DT P FN M SM T); auto; [now apply HD|now apply HX|now eauto]. }
    rewrite <- W. clear wanted W. intros HRD.
    destruct (timed_rows M blobs (world_of s) TM) as (rows & R1 & R2 & R3 & R4).
    apply (field_rowed parse unzstd other read_blob fits image M t F columns filters cf pf store HW PN PE P FN) with (wd := world_of s) (rows := rows); auto.
    - intros b Hb Nb. destruct (snd b) as [|r g] eqn:Eb; [congruence|].
      assert (Hs : In r (sent M (es ++ [SFinalize]) os (fst b))).
      { rewrite <- ST. apply (in_stored_for b); [exact Hb|rewrite Eb; left; reflexivity]. }
      destruct (sent_place t F P FN M SM T es os (fst b) r Hs CT) as (at_ & x & Ca & Hx & Ei). eauto 8.
    - intros p Hp HB. apply HC; [exact Hp|]. intros b Hb. destruct (HB b Hb) as (x & file & Hv & (r & Hr) & HN).
      exists x, file. split; [exact Hv|]. split; [|exact HN]. intros date Hd Ep. exists r.
      rewrite <- (sent_values t F DT P FN M SM T times date x); [|now apply HD|apply Hv|exact CT|now eauto].
      rewrite <- Ep, <- ST. exact Hr.
  Qed.

  (** *** ranges of days *)
  Lemma field_range listing texts now rnd y m d hh mm ss y' m' d' hh' mm' ss' hash loads n :
    valid_date y m d -> valid_time hh mm ss -> valid_date y' m' d' -> valid_time hh' mm' ss' ->
    of_fields y m d hh mm ss <= of_fields y' m' d' hh' mm' ss' ->
    (forall date, within (y, m, d) (y', m', d') date ->
       clean_folder (day_folder t date) /\ lists_folder store (puts (world_of s)) (day_folder t date)) ->
    (forall a b, within (y, m, d) (y', m', d') a -> within (y, m, d) (y', m', d') b ->
       length (day_folder t a) = length (day_folder t b) /\
       (day_lt a b -> str_compare (day_folder t a) (day_folder t b) = Lt)) ->
    (forall x, In x texts -> valid_text x /\ contains $"BACKOUT" x = false) ->
    StronglySorted (fun x y => str_ltb (x ++ $"/") (y ++ $"/") = true) texts ->
    match listing with
    | Some (f, op, v) => f = F /\ In op [$"="; $"=="] /\ texts = [kept_text v]
    | None => forall date r x, within (y, m, d) (y', m', d') date -> In r (day_copies M times date es os x) -> contains $"BACKOUT" x = false -> In x texts
    end ->
    exists days, consecutive days /\ hd_error days = Some (y, m, d) /\ last days (y', m', d') = (y', m', d') /\
    let wanted := flat_map (fun date => flat_map (day_copies M times date es os) texts) days in
    ((forall r, In r wanted -> fits r /\ applies columns filters cf pf (image r)) ->
    gives wanted (firstn n (selected wanted)) (read_records hash loads
      (fun _ => list_range listing store now rnd (template_text t ++ $"/") (of_fields y m d hh mm ss) (of_fields y' m' d' hh' mm' ss'))
      0 records NoCursor n)).
  Proof.
    intros V1 T1 V2 T2 L HF HO HX HS HL.
    destruct (ReadRange.range_each_day_once listing store now rnd t y m d hh mm ss y' m' d' hh' mm' ss' DT V1 T1 V2 T2 L)
      as (days & C & Hd & Hl & _ & E).
    assert (Hl' : last days (y', m', d') = (y', m', d')).
    { rewrite <- Hl at 2. apply last_any. intros ->. discriminate. }
    exists days. split; [exact C|]. split; [exact Hd|]. split; [exact Hl'|]. intros wanted HR'.
    apply valid_date_spec in V1.
    pose proof (consecutive_valid days C _ Hd V1) as HV.
    assert (HI : forall x, In x days -> within (y, m, d) (y', m', d') x).
    { intros x Hx. split; [specialize (HV x Hx); destruct x as [[? ?] ?]; now apply valid_date_spec|].
      apply (consecutive_all days C (y, m, d) (y', m', d') Hd V1 x (HV x Hx)) in Hx. rewrite Hl' in Hx.
      now apply andb_prop in Hx. }
    rewrite E. apply field_days; auto.
    - apply (sorted_map _ day_lt); [|now apply consecutive_sorted]. intros a b Ha Hb. apply HO; now apply HI.
    - intros a b Ha Hb. apply HO; now apply HI.
    - intros p Hp HB. apply in_map_iff in Hp as (date & Ep & Hdate). destruct (HF date (HI date Hdate)) as [PC _]. rewrite Ep in PC.
      destruct listing as [[[f op] v]|].
      + destruct HL as (-> & Hop & ->).
        destruct (cycle_value p F PC (name_chars F FN) (store p) op v Hop) as (out & EO & O).
        * apply FN.
        * intros b Hb. destruct (HB b Hb) as (x & file & Hv & _). eauto.
        * exists out. split; [exact EO|]. intros b. rewrite O. split.
          -- intros [Hb (file & Hv)]. split; [exact Hb|]. exists (kept_text v), file. split; [left; reflexivity|exact Hv].
          -- intros [Hb (x & file & [<-|[]] & Hv)]. split; [exact Hb|]. exists file. exact Hv.
      + destruct (cycle_all p F PC (name_chars F FN) (store p)) as (out & EO & O).
        * intros b Hb. destruct (HB b Hb) as (x & file & Hv & _). eauto.
        * exists out. split; [exact EO|]. intros b. rewrite O. split; [|tauto].
          intros Hb. split; [exact Hb|]. destruct (HB b Hb) as (x & file & Hv & HE & HN). exists x, file. split; [|exact Hv].
          destruct (HE date Hdate (eq_sym Ep)) as (r & Hr). eapply HL; eauto.
  Qed.
  Lemma kept_valid v : valid_text (kept_text v).
  Proof. intros c. apply kept_chars. Qed.

  Lemma copies_value_range op v now rnd y m d hh mm ss y' m' d' hh' mm' ss' hash loads n :
    chronological t -> In op [$"="; $"=="] -> contains $"BACKOUT" (kept_text v) = false ->
    valid_date y m d -> valid_time hh mm ss -> valid_date y' m' d' -> valid_time hh' mm' ss' -> 1000 <= y -> y' <= 9999 ->
    of_fields y m d hh mm ss <= of_fields y' m' d' hh' mm' ss' ->
    (forall date, within (y, m, d) (y', m', d') date ->
       clean_folder (day_folder t date) /\ lists_folder store (puts (world_of s)) (day_folder t date)) ->
    exists days, consecutive days /\ hd_error days = Some (y, m, d) /\ last days (y', m', d') = (y', m', d') /\
    let wanted := flat_map (fun date => day_copies M times date es os (kept_text v)) days in
    ((forall r, In r wanted -> fits r /\ applies columns filters cf pf (image r)) ->
    gives wanted (firstn n (selected wanted)) (read_records hash loads
      (fun _ => list_range (Some (F, op, v)) store now rnd (template_text t ++ $"/") (of_fields y m d hh mm ss) (of_fields y' m' d' hh' mm' ss'))
      0 records NoCursor n)).
  Proof.
    intros CH Hop HB V1 T1 V2 T2 Y1 Y2 L HF.
    destruct (field_range (Some (F, op, v)) [kept_text v] now rnd y m d hh mm ss y' m' d' hh' mm' ss' hash loads n V1 T1 V2 T2 L HF) as (days & C & Hd & Hl & Q).
    - intros a b Ha Hb. destruct (within_four _ _ _ _ _ _ a Y1 Y2 Ha) as [Va Fa]. destruct (within_four _ _ _ _ _ _ b Y1 Y2 Hb) as [Vb Fb].
      rewrite !day_folder_fill by exact P. now apply fills_lt.
    - intros x [<-|[]]. split; [apply kept_valid|exact HB].
    - repeat constructor.
    - auto.
    - exists days. repeat (split; [assumption|]). rewrite (flat_map_same _ (fun date => day_copies M times date es os (kept_text v))) in Q; [exact Q|].
      intros date _. cbn [flat_map]. apply app_nil_r.
  Qed.
  Lemma copies_all_range texts now rnd y m d hh mm ss y' m' d' hh' mm' ss' hash loads n :
    chronological t ->
    (forall x, In x texts -> valid_text x /\ contains $"BACKOUT" x = false) ->
    StronglySorted (fun x y => str_ltb (x ++ $"/") (y ++ $"/") = true) texts ->
    (forall date r x, within (y, m, d) (y', m', d') date -> In r (accepted_on M (on_day date) es os) -> has_text M F x r = true -> contains $"BACKOUT" x = false -> In x texts) ->
    valid_date y m d -> valid_time hh mm ss -> valid_date y' m' d' -> valid_time hh' mm' ss' -> 1000 <= y -> y' <= 9999 ->
    of_fields y m d hh mm ss <= of_fields y' m' d' hh' mm' ss' ->
    (forall date, within (y, m, d) (y', m', d') date ->
       clean_folder (day_folder t date) /\ lists_folder store (puts (world_of s)) (day_folder t date)) ->
    exists days, consecutive days /\ hd_error days = Some (y, m, d) /\ last days (y', m', d') = (y', m', d') /\
    let wanted := flat_map (fun date => flat_map (day_copies M times date es os) texts) days in
    ((forall r, In r wanted -> fits r /\ applies columns filters cf pf (image r)) ->
    gives wanted (firstn n (selected wanted)) (read_records hash loads
      (fun _ => list_range None store now rnd (template_text t ++ $"/") (of_fields y m d hh mm ss) (of_fields y' m' d' hh' mm' ss'))
      0 records NoCursor n)).
  Proof.
    intros CH HX HS HT V1 T1 V2 T2 Y1 Y2 L HF.
    apply (field_range None); auto.
    - intros a b Ha Hb. destruct (within_four _ _ _ _ _ _ a Y1 Y2 Ha) as [Va Fa]. destruct (within_four _ _ _ _ _ _ b Y1 Y2 Hb) as [Vb Fb].
      rewrite !day_folder_fill by exact P. now apply fills_lt.
    - intros date r x Hw Hr. unfold day_copies in Hr. apply in_flat_map in Hr as (r' & Hr & Hx). pose proof (repeat_spec _ _ _ Hx) as ->.
      apply (HT date r' x); auto. destruct (accepted_appended M _ _ _ r' Hr) as (at_ & Ha).
      apply (members_has F M times x r' (TD x r' at_ Ha)). destruct (times x r'); [destruct Hx|lia].
  Qed.
  Lemma copies_value_day op v now rnd y m d hh mm ss hh' mm' ss' hash loads n :
    In op [$"="; $"=="] -> contains $"BACKOUT" (kept_text v) = false ->
    valid_date y m d -> valid_time hh mm ss -> valid_time hh' mm' ss' ->
    of_fields y m d hh mm ss <= of_fields y m d hh' mm' ss' ->
    clean_folder (day_folder t (y, m, d)) -> lists_folder store (puts (world_of s)) (day_folder t (y, m, d)) ->
    let wanted := day_copies M times (y, m, d) es os (kept_text v) in
    (forall r, In r wanted -> fits r /\ applies columns filters cf pf (image r)) ->
    gives wanted (firstn n (selected wanted)) (read_records hash loads
      (fun _ => list_range (Some (F, op, v)) store now rnd (template_text t ++ $"/") (of_fields y m d hh mm ss) (of_fields y m d hh' mm' ss'))
      0 records NoCursor n).
  Proof.
    intros Hop HB V1 T1 T2 L Cl LF wanted HR'.
    assert (W : forall date, within (y, m, d) (y, m, d) date -> date = (y, m, d)).
    { intros date (_ & A & B). apply date_leb_spec in A, B. destruct A as [A|A]; auto. destruct B as [B|B]; auto.
      destruct date as [[a b] c]. unfold day_lt in *. lia. }
    destruct (field_range (Some (F, op, v)) [kept_text v] now rnd y m d hh mm ss y m d hh' mm' ss' hash loads n V1 T1 V1 T2 L) as (days & C & Hd & Hl & Q).
    - intros date Hw. apply W in Hw. subst. auto.
    - intros a b Ha Hb. apply W in Ha, Hb. subst. split; [reflexivity|]. unfold day_lt. lia.
    - intros x [<-|[]]. split; [apply kept_valid|exact HB].
    - repeat constructor.
    - auto.
    - assert (E : days = [(y, m, d)]).
      { pose proof (consecutive_sorted days C) as S. destruct days as [|x l]; [discriminate|]. injection Hd as ->.
        destruct l as [|x' l]; auto. exfalso. apply StronglySorted_inv in S as [_ FS]. rewrite Forall_forall in FS.
        assert (I : In (y, m, d) (x' :: l)).
        { change (last ((y, m, d) :: x' :: l) (y, m, d)) with (last (x' :: l) (y, m, d)) in Hl.
          destruct (exists_last (l := x' :: l)) as (p & w & Ep); [discriminate|]. rewrite Ep in *. rewrite last_last in Hl. subst.
          apply in_app_iff. right. left. reflexivity. }
        apply FS in I. unfold day_lt in I. lia. }
      subst days. cbn [flat_map] in Q. rewrite !app_nil_r in Q. exact (Q HR').
  Qed.
End Written.

(** ** Records whose members differ *)
Section Once.
  Context (parse : str -> result value) (unzstd : str -> result str)
          (other : str -> str -> generator value) (read_blob : str -> result str).
  Context (fits : value -> Prop) (image : value -> value).
  Context {V : Type} (M : streaming value V) (t : list seg) (F : str).
  Context (columns : value -> result value) (filters : value -> result bool) (cf : value -> value) (pf : value -> bool).
  Notation records := (blob_records parse unzstd other read_blob columns filters None).
  Notation selected l := (filter pf (map cf (map image l))).
  Context (es : list (event (R:=value))) (os : list (result nat)) (s : sstate (R:=value)) (store : str -> list str).
  Hypothesis HM : stream_settings parse unzstd other fits image M.
  Hypothesis HR : stream_ran read_blob M es os s.
  Hypothesis DT : daily_template t.
  Hypothesis P : proper_template (map Date t).
  Hypothesis FN : field_name F.
  Hypothesis T : m_template M = stream_template (field_template t F).
  Hypothesis TD : forall r at_, In (SAppend r at_) es -> texts_differ M F r.
  Notation valid_text x := (forall c, In c x -> valid_character c = true).
  Notation once := (fun x r => if has_text M F x r then 1%nat else 0%nat).
  Let TD' x r at_ : In (SAppend r at_) es -> members_with M F x r (once x r).
  Proof. intros H. apply (differ_once F M), (TD r at_ H). Qed.
  Lemma read_value_range op v now rnd y m d hh mm ss y' m' d' hh' mm' ss' hash loads n :
    chronological t -> In op [$"="; $"=="] -> contains $"BACKOUT" (kept_text v) = false ->
    valid_date y m d -> valid_time hh mm ss -> valid_date y' m' d' -> valid_time hh' mm' ss' -> 1000 <= y -> y' <= 9999 ->
    of_fields y m d hh mm ss <= of_fields y' m' d' hh' mm' ss' ->
    (forall date, within (y, m, d) (y', m', d') date ->
       clean_folder (day_folder t date) /\ lists_folder store (puts (world_of s)) (day_folder t date)) ->
    exists days, consecutive days /\ hd_error days = Some (y, m, d) /\ last days (y', m', d') = (y', m', d') /\
    let wanted := flat_map (fun date => filter (has_text M F (kept_text v)) (accepted_on M (on_day date) es os)) days in
    ((forall r, In r wanted -> fits r /\ applies columns filters cf pf (image r)) ->
    gives wanted (firstn n (selected wanted)) (read_records hash loads
      (fun _ => list_range (Some (F, op, v)) store now rnd (template_text t ++ $"/") (of_fields y m d hh mm ss) (of_fields y' m' d' hh' mm' ss'))
      0 records NoCursor n)).
  Proof.
    intros CH Hop HB V1 T1 V2 T2 Y1 Y2 L HF.
    destruct (copies_value_range parse unzstd other read_blob fits image M t F columns filters cf pf es os s store HM HR DT P FN T once TD' op v now rnd y m d hh mm ss y' m' d' hh' mm' ss' hash loads n CH Hop HB V1 T1 V2 T2 Y1 Y2 L HF) as (days & C1 & C2 & C3 & Q).
    exists days. repeat (split; [assumption|]).
    rewrite (flat_map_same _ (fun date => filter (has_text M F (kept_text v)) (accepted_on M (on_day date) es os))) in Q; [exact Q|].
    intros date _. apply (copies_once F M).
  Qed.
  Lemma read_all_range texts now rnd y m d hh mm ss y' m' d' hh' mm' ss' hash loads n :
    chronological t ->
    (forall x, In x texts -> valid_text x /\ contains $"BACKOUT" x = false) ->
    StronglySorted (fun x y => str_ltb (x ++ $"/") (y ++ $"/") = true) texts ->
    (forall date r x, within (y, m, d) (y', m', d') date -> In r (accepted_on M (on_day date) es os) -> has_text M F x r = true -> contains $"BACKOUT" x = false -> In x texts) ->
    valid_date y m d -> valid_time hh mm ss -> valid_date y' m' d' -> valid_time hh' mm' ss' -> 1000 <= y -> y' <= 9999 ->
    of_fields y m d hh mm ss <= of_fields y' m' d' hh' mm' ss' ->
    (forall date, within (y, m, d) (y', m', d') date ->
       clean_folder (day_folder t date) /\ lists_folder store (puts (world_of s)) (day_folder t date)) ->
    exists days, consecutive days /\ hd_error days = Some (y, m, d) /\ last days (y', m', d') = (y', m', d') /\
    let wanted := flat_map (fun date => flat_map (fun x => filter (has_text M F x) (accepted_on M (on_day date) es os)) texts) days in
    ((forall r, In r wanted -> fits r /\ applies columns filters cf pf (image r)) ->
    gives wanted (firstn n (selected wanted)) (read_records hash loads
      (fun _ => list_range None store now rnd (template_text t ++ $"/") (of_fields y m d hh mm ss) (of_fields y' m' d' hh' mm' ss'))
      0 records NoCursor n)).
  Proof.
    intros CH HX HS HT V1 T1 V2 T2 Y1 Y2 L HF.
    destruct (copies_all_range parse unzstd other read_blob fits image M t F columns filters cf pf es os s store HM HR DT P FN T once TD' texts now rnd y m d hh mm ss y' m' d' hh' mm' ss' hash loads n CH HX HS HT V1 T1 V2 T2 Y1 Y2 L HF) as (days & C1 & C2 & C3 & Q).
    exists days. repeat (split; [assumption|]).
    rewrite (flat_map_same _ (fun date => flat_map (fun x => filter (has_text M F x) (accepted_on M (on_day date) es os)) texts)) in Q; [exact Q|].
    intros date _. apply flat_map_same. intros x _. apply (copies_once F M).
  Qed.
  Lemma read_value_day op v now rnd y m d hh mm ss hh' mm' ss' hash loads n :
    In op [$"="; $"=="] -> contains $"BACKOUT" (kept_text v) = false ->
    valid_date y m d -> valid_time hh mm ss -> valid_time hh' mm' ss' ->
    of_fields y m d hh mm ss <= of_fields y m d hh' mm' ss' ->
    clean_folder (day_folder t (y, m, d)) -> lists_folder store (puts (world_of s)) (day_folder t (y, m, d)) ->
    let wanted := filter (has_text M F (kept_text v)) (accepted_on M (on_day (y, m, d)) es os) in
    (forall r, In r wanted -> fits r /\ applies columns filters cf pf (image r)) ->
    gives wanted (firstn n (selected wanted)) (read_records hash loads
      (fun _ => list_range (Some (F, op, v)) store now rnd (template_text t ++ $"/") (of_fields y m d hh mm ss) (of_fields y m d hh' mm' ss'))
      0 records NoCursor n).
  Proof.
    intros Hop HB V1 T1 T2 L Cl LF.
    pose proof (copies_value_day parse unzstd other read_blob fits image M t F columns filters cf pf es os s store HM HR DT P FN T once TD' op v now rnd y m d hh mm ss hh' mm' ss' hash loads n Hop HB V1 T1 T2 L Cl LF) as Q. cbv zeta in Q.
    rewrite (copies_once F M) in Q. exact Q.
  Qed.
End Once.
