(** Proofs: a batch writer, a storage adapter and a reader together. *)
From Coq Require Import Sorted.
From Verif.Base Require Import Py PyFacts Value ValueFacts.
From Verif.Model Require Import Paths Dates Frames ReadRange Cursor Storage Writers Adapters Reader.
From Verif.Spec Require Import Paths Dates Frames Cursor Json Writers Reader.
From Verif.Spec Require Adapters.
From Verif.Spec Require Import System.
From Verif.Proofs Require Import Paths Dates Writers Adapters AdaptersUse.
From Verif.Proofs Require Batch BatchFolder RoundTrip ReadRange Frames StreamRange.

Notation folder := Adapters.folder.
Notation proper := Adapters.proper.
Notation fit_names := Adapters.fit_names.
Notation blob_file := Adapters.blob_file.
Notation holds_at := Adapters.holds.

(** ** Reads depend on the listed blobs only *)
Section Congruence.
  Context {R : Type} (hash : str -> Z) (loads : str -> result cdict) (f g : str -> list R).

  Lemma next_blob_in c p nb c' : next_blob c p = Ok (nb, c') ->
    readable_blobs c' = readable_blobs c /\ forall b, nb = Some b -> In b (readable_blobs c).
  Proof.
    unfold next_blob.
    set (c0 := match p with Some (x :: q) => _ | _ => c end).
    assert (E0 : readable_blobs c0 = readable_blobs c) by (unfold c0; destruct p as [[|x q]|]; reflexivity).
    destruct (negb (str_eqb (partition c0) []) && (0 <=? location c0)%Z) eqn:E1.
    - destruct (str_mem (partition c0) (readable_blobs c0)) eqn:E2; [|discriminate].
      intros [= <- <-]. split; auto. intros b [= <-]. rewrite <- E0. apply str_mem_In. auto.
    - destruct (filter (fun b => negb (str_mem b (read_blobs c0))) (readable_blobs c0)) as [|b l] eqn:E2;
        intros [= <- <-]; (split; [auto|]); intros b' [= <-].
      rewrite <- E0. assert (H: In b (b :: l)) by (left; auto). rewrite <- E2 in H. apply filter_In in H. tauto.
  Qed.

  Lemma advance_same fuel : forall c blob it loc, (forall b, In b (readable_blobs c) -> f b = g b) ->
    advance f fuel c blob it loc = advance g fuel c blob it loc /\
    forall r c' st, advance f fuel c blob it loc = Ok (r, c', st) -> readable_blobs c' = readable_blobs c /\ st <> NotStarted.
  Proof.
    induction fuel as [|fuel IH]; intros c blob it loc H; destruct it as [|x it]; cbn [advance].
    - split; [reflexivity|discriminate].
    - split; [reflexivity|]. intros r c' st [= <- <- <-]. split; [reflexivity|discriminate].
    - destruct (next_blob c (Some blob)) as [[nb c1]|e] eqn:E; cbn [bind]; [|split; [reflexivity|discriminate]].
      destruct (next_blob_in _ _ _ _ E) as [E1 E2].
      destruct nb as [[|x b]|]; try (split; [reflexivity|]; intros r c' st [= <- <- <-]; split; [auto|discriminate]).
      rewrite <- (H (x :: b)) by (apply E2; auto).
      destruct (skip_to_cursor c1 (f (x :: b))) as [it' loc'].
      destruct (IH c1 (x :: b) it' loc') as [A B]; [rewrite E1; auto|]. split; auto.
      intros r c' st HH. rewrite <- E1. eauto.
    - split; [reflexivity|]. intros r c' st [= <- <- <-]. split; [reflexivity|discriminate].
  Qed.

  Definition reads (blobs : list str) (rd : reader (R:=R)) : Prop :=
    rd_blobs rd = blobs /\
    match rd_gen rd with
    | Finished => True
    | NotStarted => rd_cursor rd = NoCursor
    | InBlob _ _ _ => exists c, rd_cursor rd = AsObject c /\ forall b, In b (readable_blobs c) -> In b blobs
    end.
  Lemma next_same blobs rd : (forall b, In b blobs -> f b = g b) -> reads blobs rd ->
    py_next hash loads f rd = py_next hash loads g rd /\
    forall r rd', py_next hash loads f rd = Ok (r, rd') -> reads blobs rd'.
  Proof.
    intros H (Eb & Hg). unfold py_next. destruct (rd_gen rd) as [|blob rest loc|] eqn:Gn.
    - rewrite Hg. cbn [new_cursor bind]. rewrite Eb.
      set (c0 := mkCursor (sorted_str blobs) [] [] (-1)).
      assert (Hc : forall b, In b (readable_blobs c0) -> In b blobs) by (intros b Hb; apply sorted_str_In; auto).
      destruct (next_blob c0 None) as [[nb c1]|e] eqn:E; cbn [bind]; [|split; [reflexivity|discriminate]].
      destruct (next_blob_in _ _ _ _ E) as [E1 E2].
      destruct nb as [[|x b]|]; try (split; [reflexivity|]; intros r rd' [= <- <-]; split; [reflexivity|exact I]).
      assert (Hx : In (x :: b) blobs) by (apply Hc, E2; auto).
      rewrite <- (H (x :: b)) by auto. destruct (skip_to_cursor c1 (f (x :: b))) as [it loc].
      destruct (advance_same (S (length (readable_blobs c1))) c1 (x :: b) it loc) as [A B].
      { intros b' Hb. apply H, Hc. rewrite <- E1. auto. }
      rewrite <- A. split; [reflexivity|]. intros r rd'.
      destruct (advance f (S (length (readable_blobs c1))) c1 (x :: b) it loc) as [[[r1 c2] st]|e] eqn:EA; cbn [bind]; [|discriminate].
      intros [= <- <-]. split; [reflexivity|]. cbn [rd_gen rd_cursor]. destruct st; auto.
      + destruct (B _ _ _ eq_refl) as [_ []]. reflexivity.
      + exists c2. split; auto. intros b' Hb. apply Hc. rewrite <- E1, <- (proj1 (B _ _ _ eq_refl)). auto.
    - destruct Hg as (c & -> & Hc).
      destruct (advance_same (S (length (readable_blobs c))) c blob rest loc) as [A B]; [auto|].
      rewrite <- A. split; [reflexivity|]. intros r rd'.
      destruct (advance f (S (length (readable_blobs c))) c blob rest loc) as [[[r1 c2] st]|e] eqn:EA; cbn [bind]; [|discriminate].
      intros [= <- <-]. split; [auto|]. cbn [rd_gen rd_cursor]. destruct st; auto.
      + destruct (B _ _ _ eq_refl) as [_ []]. reflexivity.
      + exists c2. split; auto. intros b' Hb. apply Hc. rewrite <- (proj1 (B _ _ _ eq_refl)). auto.
    - split; [reflexivity|]. intros r rd' [= <- <-]. split; [auto|]. now rewrite Gn.
  Qed.
  Lemma read_n_same blobs k : (forall b, In b blobs -> f b = g b) -> forall rd, reads blobs rd ->
    read_n hash loads f k rd = read_n hash loads g k rd.
  Proof.
    intros H. induction k as [|k IH]; intros rd Hr; cbn [read_n]; [reflexivity|].
    destruct (next_same blobs rd H Hr) as [A B]. rewrite <- A.
    destruct (py_next hash loads f rd) as [[[x|] rd']|e] eqn:E; cbn [bind]; auto.
    rewrite IH by eauto. reflexivity.
  Qed.
  Lemma session_same blobs n : (forall b, In b blobs -> f b = g b) ->
    session hash loads f blobs NoCursor n = session hash loads g blobs NoCursor n.
  Proof. intros H. unfold session. rewrite (read_n_same blobs n H); auto. split; reflexivity. Qed.
End Congruence.

(** ** The folders of a dataset's days *)
Lemma digit_value at_ g c : In c (seg_value at_ g) -> (exists s, g = Lit s) \/ is_digit c = true.
Proof. destruct g; cbn [seg_value]; eauto using dec_digits, dec_pad_digits. Qed.
Lemma dec_pad_nonempty w n : dec_pad w n <> [].
Proof. unfold dec_pad, pad_left. intros E. apply app_eq_nil in E as [_ E]. now apply dec_nonempty in E. Qed.
Lemma value_nonempty at_ g : g <> Lit [] -> seg_value at_ g <> [].
Proof. destruct g; cbn [seg_value]; intros H; auto using dec_nonempty, dec_pad_nonempty; congruence. Qed.
Lemma fill_char p at_ c : is_digit c = false -> (forall s, In (Lit s) p -> ~ In c s) -> ~ In c (fill p at_).
Proof.
  intros D H I. unfold fill in I. apply in_concat in I as (v & Hv & I). apply in_map_iff in Hv as (g & <- & Hg).
  destruct (digit_value at_ g c I) as [[s ->]|Q]; [|congruence]. now apply (H s Hg).
Qed.
Lemma fill_nonempty p at_ : (exists g, In g p /\ g <> Lit []) -> fill p at_ <> [].
Proof.
  intros (g & Hg & N) E. apply (value_nonempty at_ g N). unfold fill in E.
  destruct (seg_value at_ g) as [|c r] eqn:Ev; [reflexivity|]. exfalso.
  assert (I : In c (concat (map (seg_value at_) p))).
  { apply in_concat. exists (seg_value at_ g). split; [now apply in_map|]. rewrite Ev. now left. }
  rewrite E in I. destruct I.
Qed.
Lemma fill_partition p at_ : partition_folder p -> component (fill p at_) /\ no_braces (fill p at_) /\ no_extension (fill p at_).
Proof.
  intros [L N].
  assert (G : forall c, is_digit c = false -> In c $"./{}" -> ~ In c (fill p at_)).
  { intros c D Hc. apply fill_char; auto. intros s Hs. destruct (L s Hs) as ((A & B) & C & F).
    destruct Hc as [<-|[<-|[<-|[<-|[]]]]]; assumption. }
  assert (X : no_extension (fill p at_)) by (apply G; [reflexivity|cbn; tauto]).
  split; [split; [now apply fill_nonempty|split]|split; [split|exact X]].
  - intros Q. apply X. rewrite Q. now left.
  - apply G; [reflexivity|cbn; tauto].
  - apply G; [reflexivity|cbn; tauto].
  - apply G; [reflexivity|cbn; tauto].
Qed.
Lemma text_partition p : partition_folder p -> component (template_text p) /\ no_extension (template_text p).
Proof.
  intros [L N].
  assert (G : forall c, In c $"./" -> ~ In c (template_text p)).
  { intros c Hc I. unfold template_text in I. apply in_concat in I as (v & Hv & I). apply in_map_iff in Hv as (g & <- & Hg).
    destruct g as [s| | | | | |]; [destruct (L s Hg) as (_ & B & C); destruct Hc as [<-|[<-|[]]]; auto|..];
      cbv in I; destruct Hc as [<-|[<-|[]]]; intuition discriminate. }
  assert (X : no_extension (template_text p)) by (apply G; cbn; tauto).
  split; [split; [|split]|exact X].
  - destruct N as (g & Hg & N). intros E. unfold template_text in E.
    assert (V : seg_text g <> []) by (destruct g; try discriminate; cbn; congruence).
    destruct (seg_text g) as [|c r] eqn:Ev; [now apply V|].
    assert (I : In c (concat (map seg_text p))).
    { apply in_concat. exists (seg_text g). split; [now apply in_map|]. rewrite Ev. now left. }
    rewrite E in I. destruct I.
  - intros Q. apply X. rewrite Q. now left.
  - apply G; cbn; tauto.
Qed.
Definition slashed (parts : list (list seg)) : list seg := flat_map (fun p => Lit $"/" :: p) parts.
Lemma slashed_join (v : seg -> str) (HL : forall s, v (Lit s) = s) parts : parts <> [] ->
  concat (map v (slashed parts)) = $"/" ++ join $"/" (map (fun p => concat (map v p)) parts).
Proof.
  induction parts as [|p parts IH]; intros N; [congruence|]. cbn [slashed flat_map map join].
  fold (slashed parts). cbn [app]. rewrite map_cons, map_app. cbn [concat]. rewrite concat_app, HL. f_equal.
  destruct parts as [|p' parts]; [cbn; now rewrite app_nil_r|]. rewrite IH by discriminate. reflexivity.
Qed.
Section Folders.
  Variable names : list str.
  Hypothesis HN : folder_names names.
  Variable parts : list (list seg).
  Hypothesis HP : parts <> [] /\ forall p, In p parts -> partition_folder p.
  Let dataset := join $"/" names.
  Let t := dataset_template dataset parts.
  Definition day_names (at_ : moment) : list str := names ++ map (fun p => fill p at_) parts.

  Lemma any_parts_ne : parts <> [].
  Proof. apply HP. Qed.
  Lemma any_part_values_ne at_ : map (fun p => fill p at_) parts <> [].
  Proof. pose proof any_parts_ne. destruct parts; [congruence|discriminate]. Qed.
  Lemma any_day_names_ne at_ : day_names at_ <> [].
  Proof. unfold day_names. intros E. apply app_eq_nil in E as [_ E]. now apply (any_part_values_ne at_). Qed.

  Lemma any_fill_names at_ : fill t at_ = join $"/" (day_names at_).
  Proof.
    unfold day_names. rewrite join_app; [|apply HN|apply any_part_values_ne].
    unfold t, dataset_template, fill. cbn [map concat seg_value]. fold (slashed parts).
    rewrite (slashed_join (seg_value at_)); [reflexivity|reflexivity|apply any_parts_ne].
  Qed.

  Lemma any_day_names_ok at_ c : In c (day_names at_) -> component c /\ no_braces c.
  Proof.
    unfold day_names. rewrite in_app_iff. intros [H|H]; [apply HN; auto|]. apply in_map_iff in H as (p & <- & Hp).
    pose proof (fill_partition p at_ (proj2 HP p Hp)). tauto.
  Qed.
  Lemma any_day_names_last at_ : exists l p, In p parts /\ day_names at_ = l ++ [fill p at_].
  Proof.
    destruct (exists_last any_parts_ne) as (l & p & E). unfold day_names.
    exists (names ++ map (fun p => fill p at_) l), p. split; [rewrite E; apply in_app_iff; right; now left|].
    rewrite E, map_app, app_assoc. reflexivity.
  Qed.
  Lemma any_day_folder_ok at_ : folder (day_names at_).
  Proof.
    split; [|split].
    - unfold day_names. rewrite app_length. pose proof (any_part_values_ne at_) as N. pose proof (proj1 HN).
      destruct names; [congruence|]. destruct (map _ parts); [congruence|]. cbn. lia.
    - apply any_day_names_ok.
    - destruct (any_day_names_last at_) as (l & p & Hp & ->). rewrite last_last. apply fill_partition. now apply HP.
  Qed.
  Lemma any_frame_folder_ok at_ w : folder (day_names at_ ++ [as_at_text w]).
  Proof.
    destruct (BatchFolder.as_at_component w) as (Ca & Xa & Ba). split; [|split].
    - pose proof (proj1 (any_day_folder_ok at_)). rewrite app_length. lia.
    - intros c. rewrite in_app_iff. intros [H|[<-|[]]]; [apply (any_day_names_ok at_); auto|auto].
    - now rewrite last_last.
  Qed.
  Lemma any_day_root y m d : day_folder t (y, m, d) = join $"/" (day_names (a_day y m d)).
  Proof.
    unfold day_folder. change (mkMoment (Z.to_N y) (Z.to_N m) (Z.to_N d) 0 0 0) with (a_day y m d).
    rewrite any_fill_names. pose proof (any_day_folder_ok (a_day y m d)) as (L & C & _).
    pose proof (components_join (day_names (a_day y m d)) (fun c H => proj1 (C c H))) as E.
    rewrite <- (BatchFolder.components_drop_slash (join $"/" (day_names (a_day y m d)))) in E.
    unfold components_of in E.
    rewrite (surjective_pairing (pp_parse (join $"/" (day_names (a_day y m d)) ++ $"/"))).
    assert (S2 : snd (pp_parse (join $"/" (day_names (a_day y m d)) ++ $"/")) = day_names (a_day y m d)) by exact E.
    rewrite S2.
    assert (S1 : fst (pp_parse (join $"/" (day_names (a_day y m d)) ++ $"/")) = []).
    { apply relative_root. intros r Er.
      pose proof (join_components_relative (day_names (a_day y m d)) (fun c H => proj1 (C c H))) as Rl.
      destruct (join $"/" (day_names (a_day y m d))) as [|c j] eqn:Ej.
      - apply (join_nonempty (day_names (a_day y m d))); auto.
        + intros X. rewrite X in L. cbn in L. lia.
        + intros c H. apply C. auto.
      - injection Er as -> _. apply (Rl) with j; auto. intros X. rewrite X in L. cbn in L. lia. }
    rewrite S1. apply pp_str_join. intros X. rewrite X in L. cbn in L. lia.
  Qed.

  Lemma any_frame_id texts rnd w at_ : written_as parts texts -> new_frame_id rnd dataset texts w at_
    = Ok (join $"/" (day_names at_ ++ [as_at_text w]) ++ $"/").
  Proof.
    intros [NT HT]. destruct (BatchFolder.as_at_component w) as (Ca & Xa & Ba). set (a := as_at_text w) in *.
    set (all := parts ++ [[Lit a]]). set (p := tl (slashed all)). set (ps := map template_text parts ++ [a]).
    assert (NA : all <> []) by (unfold all; destruct parts; discriminate).
    assert (S : slashed all = Lit $"/" :: p) by (unfold p, all; destruct parts; reflexivity).
    assert (NP : map template_text parts <> []) by (pose proof any_parts_ne; destruct parts; [congruence|discriminate]).
    assert (TX : forall v : seg -> str, (forall s, v (Lit s) = s) -> concat (map v p) = join $"/" (map (fun p => concat (map v p)) parts ++ [a])).
    { intros v HL. pose proof (slashed_join v HL all NA) as Q. rewrite S, map_cons in Q. cbn [concat] in Q. rewrite HL in Q. apply app_inv_head in Q.
      rewrite Q. unfold all. rewrite map_app. cbn [map concat]. rewrite HL, app_nil_r. reflexivity. }
    destruct (datasets_distinct rnd names names ps p at_) as [HB _].
    - intros x Hx. assert (Hx' : In (Lit x) (slashed all)) by (rewrite S; now right). clear Hx.
      unfold slashed, all in Hx'. apply in_flat_map in Hx' as (q & Hq & [[= <-]|Hx]); [split; cbv; intuition discriminate|].
      apply in_app_iff in Hq as [Hq|[<-|[]]]; [apply (proj2 HP q Hq); auto|]. destruct Hx as [[= <-]|[]]. exact Ba.
    - apply (TX seg_text). reflexivity.
    - unfold ps. destruct (map template_text parts); discriminate.
    - intros c. rewrite !in_app_iff. intros [H|[H|H]]; [apply HN; auto|apply HN; auto|].
      unfold ps in H. apply in_app_iff in H as [H|[<-|[]]]; [|exact Ca]. apply in_map_iff in H as (q & <- & Hq). apply text_partition. now apply HP.
    - intros c. rewrite in_app_iff. intros [H|H]; apply HN; auto.
    - apply HN.
    - apply HN.
    - unfold ps. rewrite last_last. exact Xa.
    - assert (E : join $"/" (names ++ ps) = dataset ++ $"/" ++ join $"/" texts ++ $"/" ++ a).
      { rewrite join_app; [|apply HN|unfold ps; destruct (map template_text parts); discriminate]. unfold ps.
        rewrite join_app by (auto; discriminate). rewrite HT. reflexivity. }
      unfold new_frame_id. destruct texts as [|tx texts]; [congruence|]. cbv zeta. rewrite <- !app_assoc.
      assert (E' : (dataset ++ $"/" ++ join $"/" (tx :: texts) ++ $"/" ++ as_at_text w) = join $"/" (names ++ ps)) by (symmetry; exact E).
      rewrite E', HB. f_equal. unfold fill. rewrite (TX (seg_value at_)) by reflexivity.
      unfold day_names. rewrite <- app_assoc.
      rewrite (join_app _ names); [|apply HN|intros Q; apply app_eq_nil in Q as [_ Q]; discriminate Q]. rewrite <- !app_assoc. reflexivity.
  Qed.
End Folders.

(** every partition of a daily dataset is a folder *)
Lemma daily_folders parts : daily_partitions parts -> parts <> [] /\ forall p, In p parts -> partition_folder p.
Proof. intros (A & Y & _). split; [|exact A]. intros E. rewrite E in Y. apply (Y Year). now left. Qed.

Section Names.
  Variable names : list str.
  Hypothesis HN : folder_names names.
  Variable parts : list (list seg).
  Hypothesis HP : daily_partitions parts.
  Let dataset := join $"/" names.
  Let t := dataset_template dataset parts.
  Lemma parts_ne : parts <> [].
  Proof. exact (any_parts_ne parts (daily_folders parts HP)). Qed.
  Lemma day_names_ne at_ : day_names names parts at_ <> [].
  Proof. exact (any_day_names_ne names parts (daily_folders parts HP) at_). Qed.
  Lemma fill_names at_ : fill t at_ = join $"/" (day_names names parts at_).
  Proof. exact (any_fill_names names HN parts (daily_folders parts HP) at_). Qed.
  Lemma day_names_ok at_ c : In c (day_names names parts at_) -> component c /\ no_braces c.
  Proof. exact (any_day_names_ok names HN parts (daily_folders parts HP) at_ c). Qed.
  Lemma day_names_last at_ : exists l p, In p parts /\ day_names names parts at_ = l ++ [fill p at_].
  Proof. exact (any_day_names_last names parts (daily_folders parts HP) at_). Qed.
  Lemma day_folder_ok at_ : folder (day_names names parts at_).
  Proof. exact (any_day_folder_ok names HN parts (daily_folders parts HP) at_). Qed.
  Lemma frame_folder_ok at_ w : folder (day_names names parts at_ ++ [as_at_text w]).
  Proof. exact (any_frame_folder_ok names HN parts (daily_folders parts HP) at_ w). Qed.
  Lemma day_root y m d : day_folder t (y, m, d) = join $"/" (day_names names parts (a_day y m d)).
  Proof. exact (any_day_root names HN parts (daily_folders parts HP) y m d). Qed.
  Lemma frame_id texts rnd w at_ : written_as parts texts -> new_frame_id rnd dataset texts w at_
    = Ok (join $"/" (day_names names parts at_ ++ [as_at_text w]) ++ $"/").
  Proof. exact (any_frame_id names HN parts (daily_folders parts HP) texts rnd w at_). Qed.
  Lemma template_daily : daily_template t.
  Proof.
    assert (I : forall g, In g t -> (exists s, g = Lit s /\ no_braces s) \/ In g (concat parts) /\ forall s, g = Lit s -> no_braces s).
    { intros g [<-|H].
      - left. exists dataset. split; auto. split; (apply join_no_brace; [|discriminate]); intros c Hc; apply HN; auto.
      - apply in_flat_map in H as (p & Hp & [<-|H]); [left; exists $"/"; split; auto; split; cbv; intuition discriminate|].
        right. split; [apply in_concat; exists p; auto|]. intros s ->. apply (proj1 HP p Hp). exact H. }
    assert (U : forall g, In g (concat parts) -> In g t).
    { intros g Hg. apply in_concat in Hg as (p & Hp & Hg). right. apply in_flat_map. exists p. split; auto. now right. }
    destruct HP as (_ & Y & N). split; [split; [|split; [|split]]|split; [|split]].
    - intros s Hs. destruct (I _ Hs) as [(s' & [= <-] & B)|[_ B]]; auto.
    - apply U, Y. cbn. tauto.
    - apply U, Y. cbn. tauto.
    - apply U, Y. cbn. tauto.
    - intros H. destruct (I _ H) as [(s' & Q & B)|[B _]]; [discriminate|]. revert B. apply N. cbn. tauto.
    - intros H. destruct (I _ H) as [(s' & Q & B)|[B _]]; [discriminate|]. revert B. apply N. cbn. tauto.
    - intros H. destruct (I _ H) as [(s' & Q & B)|[B _]]; [discriminate|]. revert B. apply N. cbn. tauto.
  Qed.
End Names.

(** ** The operations of a writer, done by an adapter *)
Section Operations.
  Context {R : Type} (k : kind) (E : setting R) (ext b : str) (fs : list str).
  Let node := s_node E.
  Let f := s_format E.
  Hypothesis F : folder (b :: fs).
  Hypothesis Fit : fit_names f ext node.
  Let base := join $"/" (b :: fs).
  Hypothesis HF : s_filename E = base ++ $"/" ++ $"{stem}" ++ extension f ext.

  Lemma base_no_brace : ~ In "{"%char base.
  Proof. apply join_no_brace; [|discriminate]. intros c H. apply F. auto. Qed.
  Lemma blob_named t : blob_name (s_filename E) node t = base ++ $"/" ++ blob_file f ext node t.
  Proof.
    rewrite HF. apply blob_name_at; [apply base_no_brace|]. apply extension_no_brace. apply Fit.
  Qed.
  Lemma marker_named : completion_path (s_filename E) = base ++ $"/" ++ $"frame.complete".
  Proof.
    rewrite HF. apply completion_at.
    - apply join_nonempty; [discriminate|]. apply F.
    - apply join_ends; [discriminate|]. apply F.
    - apply extension_no_slash. apply Fit.
  Qed.
  Definition file_of_op (o : operation) : str :=
    match o with StoreBlob t _ => blob_file f ext node t | StoreMarker _ => $"frame.complete" end.
  Lemma file_of_op_ok o : component (file_of_op o) /\ Adapters.with_extension (file_of_op o).
  Proof. destruct o; [apply blob_file_good; auto|apply marker_good]. Qed.
  Lemma op_named e o : (match o with
                        | StoreBlob t data => e = (blob_name (s_filename E) (s_node E) t, data)
                        | StoreMarker t => e = (completion_path (s_filename E), [])
                        end) -> fst e = base ++ $"/" ++ file_of_op o /\ snd e = match o with StoreBlob _ d => d | _ => [] end.
  Proof. destruct o; intros ->; cbn [fst snd file_of_op]; [rewrite <- blob_named|rewrite <- marker_named]; auto. Qed.

  Lemma named_same a a' : component a -> component a' ->
    components_of (base ++ $"/" ++ a) = components_of (base ++ $"/" ++ a') -> a = a'.
  Proof.
    intros Ca Ca'. unfold base. rewrite (named b fs a), (named b fs a').
    rewrite !components_join by (apply (named_comp b fs F); auto). intros H. apply app_inv_head in H. now injection H.
  Qed.

  (** in Google Cloud Storage a marker is where it should be once a blob was stored *)
  Definition ready (i : inner) : Prop :=
    writer_at b fs k (extension f ext) i /\ (k = Gcs -> i_filename i = join $"/" fs ++ $"/" ++ $"{stem}" ++ extension f ext).
  Definition starts_with_blob (ops : list operation) : Prop :=
    match ops with StoreMarker _ :: _ => False | _ => True end.

  Lemma operate_seq ops : forall log i s, operations_of E log ops ->
    writer_at b fs k (extension f ext) i -> (k = Gcs -> ready i \/ starts_with_blob ops) -> proper k s ->
    exists i' s', operate k i node ops s = Ok (i', s') /\ proper k s' /\
      (forall n, (exists data, holds_at k s' n data) <-> (exists data, holds_at k s n data) \/ In n (map fst log)) /\
      (forall n data, content_of log n = Some data -> get_blob_bytes k n s' = Ok data) /\
      (forall n, (forall m, In m (map fst log) -> components_of n <> components_of m) ->
                 get_blob_bytes k n s' = get_blob_bytes k n s).
  Proof.
    induction ops as [|o ops IH]; intros log i s HO W G P.
    - inversion HO; subst. exists i, s. split; [reflexivity|]. split; [auto|]. split; [|split; [discriminate|auto]].
      intros n. cbn. tauto.
    - inversion HO as [|e ? log' ? He HO']; subst. apply op_named in He as [He1 He2].
      destruct (file_of_op_ok o) as [C X].
      assert (ST : exists nm i1, (match o with
                    | StoreBlob t data => commit k i None node t data s
                    | StoreMarker t => mark_complete k i node t s end)
                 = Ok (nm, i1, put (place_in b fs k (file_of_op o)) (snd e) s) /\ ready i1).
      { rewrite He2. destruct o as [t data|t]; cbn [file_of_op].
        - destruct (commit_at b fs F k f ext i node t data s Fit W) as (nm & i1 & E1 & W1 & G1).
          exists nm, i1. split; [exact E1|]. split; auto.
        - assert (G' : k = Gcs -> i_filename i = join $"/" fs ++ $"/" ++ $"{stem}" ++ extension f ext).
          { intros Hk. destruct (G Hk) as [[_ Q]|[]]. auto. }
          destruct (mark_at b fs F k f ext i node t s Fit W G') as (nm & i1 & E1).
          exists nm, i1. split; [exact E1|].
          assert (i1 = i \/ k = Gcs /\ i1 = mkInner (i_bucket i) (i_without_bucket i) (i_without_bucket i)) as Hi.
          { unfold mark_complete, commit in E1. destruct k.
            - destruct (get_parts _); [|discriminate E1]. cbn [bind] in E1. injection E1 as _ -> _. auto.
            - injection E1 as _ -> _. auto.
            - injection E1 as _ <- _. auto. }
          destruct Hi as [->|(Hk & ->)]; [split; auto|].
          destruct W as (W1 & W2 & W3). split; [split; [|split]|]; cbn [i_bucket i_filename i_without_bucket]; auto.
          left. split; auto. rewrite Hk. discriminate. }
      destruct ST as (nm & i1 & ES & RD).
      pose proof (proper_put b fs F k _ (snd e) s C P) as P1.
      destruct (IH log' i1 _ HO' (proj1 RD) (fun _ => or_introl RD) P1) as (i' & s' & E' & P' & H' & Rd & Ro).
      exists i', s'. split.
      { cbn [operate]. destruct o; rewrite ES; cbn [bind]; exact E'. }
      split; [auto|]. destruct e as [en ed]. cbn [fst snd map] in *. subst en. split; [|split].
      + intros n. rewrite H', (holds_put b fs F k _ ed s n C P). fold base. cbn [In]. split.
        * intros [[->|H]|H]; auto.
        * intros [H|[<-|H]]; auto.
      + intros n data. cbn [content_of]. destruct (content_of log' n) as [d'|] eqn:Ec; [intros [= <-]; auto|].
        destruct (str_eqb (base ++ $"/" ++ file_of_op o) n) eqn:En; [|discriminate]. intros [= <-].
        apply str_eqb_eq in En. subst n. rewrite Ro.
        * unfold base. rewrite (read_named b fs F) by auto. rewrite lookup_put. reflexivity.
        * intros m Hm Q. 
          assert (HM : exists o', In o' ops /\ m = base ++ $"/" ++ file_of_op o').
          { clear - HO' Hm HF Fit F. induction HO' as [|e o log ops He HO IH]; [destruct Hm|].
            apply op_named in He as [He1 _]. destruct Hm as [<-|Hm]; [exists o; split; [left|]; auto|].
            destruct (IH Hm) as (o' & Ho & Q). exists o'. split; [right|]; auto. }
          destruct HM as (o' & _ & ->). apply named_same in Q; [|auto|apply file_of_op_ok].
          rewrite Q in Ec. clear - Ec Hm. induction log' as [|[n d] log IH]; [destruct Hm|].
          cbn [content_of map fst In] in *. destruct (content_of log (base ++ $"/" ++ file_of_op o')) eqn:E1; [discriminate|].
          destruct Hm as [->|Hm]; [rewrite str_eqb_refl in Ec; discriminate|]. auto.
      + intros n Hn. rewrite Ro by (intros m Hm; apply Hn; right; auto).
        apply (read_other b fs F); auto. apply Hn. left. auto.
  Qed.
End Operations.

(** ** One day of a range *)
Lemma list_day_asked asked t store now rnd y m d hh mm ss hh' mm' ss' :
  daily_template t -> valid_date y m d -> valid_time hh mm ss -> valid_time hh' mm' ss' ->
  (of_fields y m d hh mm ss <= of_fields y m d hh' mm' ss')%Z ->
  list_range asked store now rnd (template_text t ++ $"/") (of_fields y m d hh mm ss) (of_fields y m d hh' mm' ss')
  = get_list_of_blobs asked (fun _ => store (day_folder t (y, m, d))) [day_folder t (y, m, d)].
Proof.
  intros DT V T1 T2 L.
  destruct (Proofs.ReadRange.range_each_day_once asked store now rnd t y m d hh mm ss y m d hh' mm' ss' DT V T1 V T2 L)
    as (days & C & Hd & Hl & _ & ->).
  assert (E : days = [(y, m, d)]).
  { pose proof (StreamRange.consecutive_sorted days C) as S. destruct days as [|x l]; [discriminate|]. injection Hd as ->.
    destruct l as [|x' l]; auto. exfalso. apply StronglySorted_inv in S as [_ Fa]. rewrite Forall_forall in Fa.
    assert (I : In (y, m, d) (x' :: l)).
    { change (last ((y, m, d) :: x' :: l) (0, 0, 0)%Z) with (last (x' :: l) (0, 0, 0)%Z) in Hl.
      destruct (exists_last (l := x' :: l)) as (p & w & Ep); [discriminate|]. rewrite Ep in *. rewrite last_last in Hl. subst.
      apply in_app_iff. right. left. reflexivity. }
    apply Fa in I. unfold StreamRange.day_lt in I. lia. }
  subst days. reflexivity.
Qed.
Lemma list_one_day t store now rnd y m d hh mm ss hh' mm' ss' :
  daily_template t -> valid_date y m d -> valid_time hh mm ss -> valid_time hh' mm' ss' ->
  (of_fields y m d hh mm ss <= of_fields y m d hh' mm' ss')%Z ->
  list_range None store now rnd (template_text t ++ $"/") (of_fields y m d hh mm ss) (of_fields y m d hh' mm' ss')
  = get_list_of_blobs None (fun _ => store (day_folder t (y, m, d))) [day_folder t (y, m, d)].
Proof. exact (list_day_asked None t store now rnd y m d hh mm ss hh' mm' ss'). Qed.
Lemma some_hours now a b : (a <= b)%Z -> range_hours now a b <> [].
Proof.
  intros L. unfold range_hours. rewrite (date_range_eq now _ _ a b) by reflexivity.
  assert (F : (floor_hour a <= floor_hour b)%Z).
  { unfold floor_hour. pose proof (Z.div_mod a 3600 ltac:(lia)). pose proof (Z.div_mod b 3600 ltac:(lia)).
    pose proof (Z.div_le_mono a b 3600 ltac:(lia) L). lia. }
  destruct (Z.ltb_spec (floor_hour b) (floor_hour a)); [lia|]. unfold hours. cbn [seq map]. discriminate.
Qed.
