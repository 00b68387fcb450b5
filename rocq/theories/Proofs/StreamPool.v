(** Proofs about evictions and about the BACKOUT folder. *)
From Coq Require Import Permutation Sorted.
From Verif.Base Require Import Py PyFacts.
From Verif.Model Require Import Paths Frames Writers Stream.
From Verif.Spec Require Import Paths Writers Stream.
From Verif.Proofs Require Import Paths Writers Stream StreamPaths.
From Verif.Proofs Require Frames.

Lemma firstn_min {A} n m (l : list A) : firstn n (firstn m l) = firstn (Nat.min n m) l.
Proof. apply firstn_firstn. Qed.

Section Pool.
  Context {R : Type}.
  Definition older (a b : pooled (R:=R)) : bool := (p_last a <=? p_last b)%Z.
  Lemma older_total a b : older a b = true \/ older b a = true.
  Proof. unfold older. rewrite !Z.leb_le. lia. Qed.
  Lemma older_trans a b c : older a b = true -> older b c = true -> older a c = true.
  Proof. unfold older. rewrite !Z.leb_le. lia. Qed.

  Lemma sorted_cut (l : list (pooled (R:=R))) k :
    let s := isort older l in
    Permutation (firstn k s ++ skipn k s) l /\
    forall e w, In e (firstn k s) -> In w (skipn k s) -> (p_last e <= p_last w)%Z.
  Proof.
    cbv zeta. split.
    - rewrite firstn_skipn. apply isort_perm.
    - intros e w He Hw.
      pose proof (isort_sorted _ older_total older_trans l) as S.
      rewrite <- (firstn_skipn k (isort older l)) in S.
      apply StronglySorted_app_inv in S. destruct S as (_ & _ & S). apply Z.leb_le. apply (S e w He Hw).
  Qed.

  Lemma nominate_slice size (l : list (pooled (R:=R))) : (0 <= size)%Z ->
    exists k, nominate size l = map p_id (firstn k (isort older l)) /\
      k = Nat.min (if (Z.of_nat (length l) <? size)%Z then Z.to_nat (2 * Z.of_nat (length l) - size)
                   else Z.to_nat (Z.of_nat (length l) - size)) (Z.to_nat size).
  Proof.
    intros Hs. eexists. split; [|reflexivity].
    unfold nominate. cbv zeta. change (fun a b : pooled => (p_last a <=? p_last b)%Z) with older. f_equal.
    rewrite (slice_to_nonneg _ size) by auto. unfold slice_to. rewrite firstn_min.
    rewrite Nat.min_comm. f_equal. f_equal. unfold slice_bound. rewrite isort_length.
    destruct (Z.ltb_spec (Z.of_nat (length l)) size) as [L|L];
    destruct (Z.ltb_spec (Z.of_nat (length l) - size) 0) as [L'|L']; f_equal; lia.
  Qed.

  Lemma lru_evicted size (l : list (pooled (R:=R))) : (0 <= size)%Z -> (size < Z.of_nat (length l))%Z ->
    exists evicted stays, Permutation (evicted ++ stays) l /\ nominate size l = map p_id evicted /\
      Z.of_nat (length evicted) = Z.min (Z.of_nat (length l) - size) size /\
      forall e w, In e evicted -> In w stays -> (p_last e <= p_last w)%Z.
  Proof.
    intros H0 H. destruct (nominate_slice size l H0) as (k & E & K).
    destruct (sorted_cut l k) as [P O].
    exists (firstn k (isort older l)), (skipn k (isort older l)). split; [exact P|]. split; [exact E|].
    split; [|exact O]. rewrite firstn_length, isort_length.
    destruct (Z.ltb_spec (Z.of_nat (length l)) size); lia.
  Qed.
  Lemma within_capacity size (l : list (pooled (R:=R))) : (0 <= size)%Z -> (Z.of_nat (length l) <= size)%Z ->
    length (nominate size l) = Z.to_nat (if (Z.of_nat (length l) =? size)%Z then 0 else 2 * Z.of_nat (length l) - size).
  Proof.
    intros H0 H. destruct (nominate_slice size l H0) as (k & -> & K).
    rewrite map_length, firstn_length, isort_length.
    destruct (Z.eqb_spec (Z.of_nat (length l)) size), (Z.ltb_spec (Z.of_nat (length l)) size); lia.
  Qed.
  Lemma within_capacity_none size (l : list (pooled (R:=R))) : (0 <= size)%Z ->
    (2 * Z.of_nat (length l) <= size \/ Z.of_nat (length l) = size)%Z -> nominate size l = [].
  Proof.
    intros H0 H. apply length_zero_iff_nil. rewrite within_capacity by lia.
    destruct (Z.eqb_spec (Z.of_nat (length l)) size); lia.
  Qed.
  Lemma stale_exact now secs (l : list (pooled (R:=R))) id :
    In id (stale now secs l) <-> exists w, In w l /\ p_id w = id /\ (now - p_last w > secs)%Z.
  Proof.
    unfold stale. rewrite in_map_iff. split.
    - intros (w & E & H). apply filter_In in H. destruct H as [H L]. apply Z.ltb_lt in L. exists w. repeat split; auto. lia.
    - intros (w & H & E & L). exists w. split; auto. apply filter_In. split; auto. apply Z.ltb_lt. lia.
  Qed.
End Pool.

(** ** Blob names *)
Lemma contains_no_B s : ~ In "B"%char s -> contains $"BACKOUT" s = false.
Proof.
  intros H. apply not_true_iff_false. intros C. apply contains_iff in C. destruct C as (a & b & ->).
  apply H. apply in_app_iff. right. left. reflexivity.
Qed.
Lemma plain_no c s : plain s -> plain_char c = false -> ~ In c s.
Proof. intros P E H. apply P in H. congruence. Qed.
Lemma plain_app a b : plain a -> plain b -> plain (a ++ b).
Proof. intros A B c H. apply in_app_iff in H. destruct H; auto. Qed.
Lemma plain_hex n : plain (hex n).
Proof. intros c H. apply hex_chars in H. unfold hex_char in H. unfold plain_char. lia. Qed.
Lemma plain_extension f ext : plain ext -> plain (extension f ext).
Proof.
  intros P. destruct f; cbn [extension]; auto; try (apply plain_app; auto);
    intros c H; cbn in H; repeat (destruct H as [<-|H]; [reflexivity|]); destruct H.
Qed.

Lemma join_no_char (c d : ascii) l : c <> d -> (forall w, In w l -> ~ In c w) -> ~ In c (join [d] l).
Proof.
  intros N. induction l as [|x l IH]; intros Q; [intros []|].
  destruct l as [|y l]; [cbn; apply Q; left; auto|]. rewrite join_cons by discriminate.
  rewrite !in_app_iff. intros [H|[H|H]].
  - revert H. apply Q. left; auto.
  - cbn in H. intuition.
  - revert H. apply IH. intros w Hw. apply Q. right; auto.
Qed.

Section Names.
  Context {R V : Type} (M : streaming R V).
  Hypothesis PN : plain (s_node (m_base M)).
  Hypothesis PE : plain (m_ext M).
  Definition file_of (t : N) : str :=
    hex t ++ $"-" ++ s_node (m_base M) ++ extension (s_format (m_base M)) (m_ext M).
  Lemma plain_file t : plain (file_of t).
  Proof.
    unfold file_of. apply plain_app; [apply plain_hex|]. apply plain_app; [|apply plain_app; auto; apply plain_extension; auto].
    intros c [<-|[]]. reflexivity.
  Qed.

  Lemma name_eq id t : relative id -> (2 <= length (components_of id))%nat ->
    no_extension (last (components_of id) []) -> ~ In "{"%char id ->
    blob_name (s_filename (m_writer M id)) (s_node (m_writer M id)) t = join $"/" (components_of id ++ [file_of t]).
  Proof.
    intros Hr Hl Hx Hb. destruct (two_ends _ Hl) as (b & mid & z & Ec).
    assert (Hcc: forall c, In c (b :: mid ++ [z]) -> component c).
    { intros c H. rewrite <- Ec in H. eapply components_of_component; eauto. }
    assert (Hcb: forall c, In c (b :: mid ++ [z]) -> ~ In "{"%char c).
    { intros c H Hc. apply Hb. rewrite <- Ec in H. apply filter_In in H. destruct H as [H _].
      rewrite <- (join_split "/"%char id). apply in_split in H. destruct H as (l1 & l2 & ->).
      clear -Hc. assert (G: In "{"%char (join ["/"%char] (c :: l2))).
      { destruct l2; [exact Hc|]. rewrite join_cons by discriminate. apply in_app_iff. auto. }
      destruct l1 as [|x l1]; [exact G|]. rewrite join_app by discriminate. rewrite !in_app_iff. auto. }
    assert (Ez: snd (stem_suffix z) = []).
    { rewrite Ec in Hx. change (b :: mid ++ [z]) with ((b :: mid) ++ [z]) in Hx. rewrite last_last in Hx.
      rewrite no_ext_suffix by auto. reflexivity. }
    unfold m_writer. cbn [s_filename s_node]. unfold inner_filename.
    rewrite (get_parts_eq id b mid z Hr Ec), Ez. cbn [bind].
    replace (str_eqb b $"/") with false.
    2:{ symmetry. apply str_eqb_neq. intros ->. destruct (Hcc $"/") as (_ & _ & N); [left; auto|]. apply N. left; auto. }
    rewrite pp_str_join by (destruct mid; discriminate).
    replace (str_eqb (join $"/" (mid ++ [z]) ++ $"/") $"/") with false.
    2:{ symmetry. apply str_eqb_neq. intros E.
        assert (J: join $"/" (mid ++ [z]) = []) by (destruct (join $"/" (mid ++ [z])) as [|c0 [|]]; auto; discriminate).
        assert (K: join $"/" (mid ++ [z]) <> []).
        { destruct (mid ++ [z]) as [|c0 l0] eqn:Em; [destruct mid; discriminate|].
          destruct (Hcc c0) as (N & _); [right; left; auto|]. destruct c0; [congruence|]. destruct l0; discriminate. }
        congruence. }
    assert (Nm: mid ++ [z] <> []) by (destruct mid; discriminate).
    assert (EJ: join $"/" (components_of id ++ [file_of t]) = (b ++ $"/" ++ join $"/" (mid ++ [z]) ++ $"/") ++ file_of t).
    { rewrite Ec. change ((b :: mid ++ [z]) ++ [file_of t]) with (b :: ((mid ++ [z]) ++ [file_of t])).
      rewrite join_cons by (destruct mid; discriminate). rewrite (join_app _ (mid ++ [z])) by (auto; discriminate).
      change (join $"/" [file_of t]) with (file_of t). rewrite <- !app_assoc. reflexivity. }
    rewrite EJ. clear EJ.
    set (J := join $"/" (mid ++ [z])).
    assert (NJ: ~ In "{"%char (b ++ $"/" ++ J ++ $"/")).
    { assert (NJ: ~ In "{"%char J).
      { unfold J. apply join_no_char; [discriminate|]. intros; apply Hcb; right; auto. }
      rewrite !in_app_iff. intros [H|[H|[H|H]]].
      - revert H. apply Hcb. left; auto.
      - cbn in H. intuition discriminate.
      - auto.
      - cbn in H. intuition discriminate. }
    unfold blob_name.
    replace (b ++ $"/" ++ (J ++ $"/") ++ $"{stem}" ++ extension (s_format (m_base M)) (m_ext M))
      with ((b ++ $"/" ++ J ++ $"/") ++ $"{stem}" ++ extension (s_format (m_base M)) (m_ext M))
      by (rewrite <- !app_assoc; reflexivity).
    pose proof (replace_skip "{"%char $"stem}" (hex t ++ $"-" ++ s_node (m_base M)) _
                  ($"{stem}" ++ extension (s_format (m_base M)) (m_ext M)) NJ) as Q.
    change ("{"%char :: $"stem}") with $"{stem}" in Q. rewrite Q.
    rewrite replace_here by discriminate. rewrite replace_none.
    - unfold file_of. f_equal. rewrite <- !app_assoc. reflexivity.
    - discriminate.
    - apply not_contains_brace. apply plain_no; [apply plain_extension; auto|reflexivity].
  Qed.

  Lemma name_contains id t : relative id -> (2 <= length (components_of id))%nat ->
    no_extension (last (components_of id) []) -> ~ In "{"%char id ->
    contains $"BACKOUT" (blob_name (s_filename (m_writer M id)) (s_node (m_writer M id)) t) = true <->
    exists w, In w (components_of id) /\ contains $"BACKOUT" w = true.
  Proof.
    intros H1 H2 H3 H4. rewrite name_eq by auto. change $"/" with ["/"%char]. rewrite contains_join_in.
    - split; intros (w & Hw & C); exists w; split; auto.
      + apply in_app_iff in Hw. destruct Hw as [Hw|[<-|[]]]; auto. exfalso.
        rewrite contains_no_B in C; [discriminate|]. apply plain_no; [apply plain_file|reflexivity].
      + apply in_app_iff. auto.
    - simpl. intuition discriminate.
    - destruct (components_of id); discriminate.
    - intros w Hw. apply in_app_iff in Hw. destruct Hw as [Hw|[<-|[]]].
      + apply components_of_component in Hw. apply Hw.
      + apply plain_no; [apply plain_file|reflexivity].
  Qed.
End Names.

Lemma partition_chars ps d v c : In c (partition_of ps d v) ->
  is_digit c = true \/ (exists s, In (Date (Lit s)) ps /\ In c s) \/ (exists n, In c (v n)).
Proof.
  unfold partition_of. intros H. apply in_concat in H. destruct H as (x & Hx & Hc).
  apply in_map_iff in Hx. destruct Hx as (p & <- & Hp). destruct p as [g|n]; cbn [piece_value] in Hc; [|eauto].
  destruct g; cbn [seg_value] in Hc; try (left; eapply dec_digits; eassumption);
    try (left; eapply dec_pad_digits; eassumption). right. left. eauto.
Qed.
Lemma components_chars s w c : In w (components_of s) -> In c w -> In c s.
Proof.
  intros H Hc. apply filter_In in H. destruct H as [H _].
  rewrite <- (join_split "/"%char s). apply in_split in H. destruct H as (l1 & l2 & ->).
  assert (G: In c (join ["/"%char] (w :: l2))).
  { destruct l2; [exact Hc|]. rewrite join_cons by discriminate. apply in_app_iff. auto. }
  destruct l1 as [|x l1]; [exact G|]. rewrite join_app by discriminate. rewrite !in_app_iff. auto.
Qed.
Lemma components_contains s w n : In w (components_of s) -> contains n w = true -> contains n s = true.
Proof.
  intros H Hc. apply filter_In in H. destruct H as [H _].
  rewrite <- (join_split "/"%char s). apply in_split in H. destruct H as (l1 & l2 & ->).
  assert (G: contains n (join ["/"%char] (w :: l2)) = true).
  { destruct l2; [exact Hc|]. rewrite join_cons by discriminate. apply contains_app_r. auto. }
  destruct l1 as [|x l1]; [exact G|]. rewrite join_app by discriminate. do 2 apply contains_app_l. auto.
Qed.

Section Backout.
  Context {R V : Type} (M : streaming R V) (ps : list piece).
  Hypothesis S : sets_ok M.
  Hypothesis T : m_template M = stream_template ps.
  Hypothesis P : proper_template ps.
  Hypothesis PN : plain (s_node (m_base M)).
  Hypothesis PE : plain (m_ext M).

  Lemma target_shape r now id : In id (targets M r now) ->
    exists v, (forall n c, In c (v n) -> valid_character c = true) /\
      id = partition_of ps now v ++ suffix_of M r.
  Proof.
    intros H. destruct P as (P1 & _). destruct (targets_eq M ps S T P1 r now) as (names & combos & _ & _ & _ & _ & E).
    rewrite E in H. apply in_map_iff in H. destruct H as (c & <- & _). eexists. split; [|reflexivity].
    intros n x. unfold value_in. destruct (chosen names c n); [apply sanitize_chars|intros []].
  Qed.

  Lemma target_name r now id t : In id (targets M r now) ->
    (m_valid M r = true -> contains $"BACKOUT" id = false) ->
    contains $"BACKOUT" (blob_name (s_filename (m_writer M id)) (s_node (m_writer M id)) t) = negb (m_valid M r).
  Proof.
    intros H HB. destruct (target_shape _ _ _ H) as (v & Hv & ->). destruct P as (P1 & P2 & P3).
    destruct (P3 now) as [P4 P5].
    assert (VS: forall n, ~ In "/"%char (v n)) by (intros n Hn; apply Hv in Hn; discriminate).
    assert (D: length (components_of (partition_of ps now v)) = length (components_of (partition_of ps now (fun _ => []))) /\
      ~ In $".." (components_of (partition_of ps now v)) /\ relative (partition_of ps now v)).
    { apply depth_same; auto. intros n (c & [] & _). }
    destruct D as (D1 & _ & D3). rewrite <- D1 in P5. set (base := partition_of ps now v) in *.
    assert (Bb: ~ In "{"%char base).
    { intros Hb. apply partition_chars in Hb. destruct Hb as [Hb|[(s & Hs & Hb)|(n & Hb)]]; [discriminate| |apply Hv in Hb; discriminate].
      destruct P1 as [P1 _]. destruct (P1 s Hs). auto. }
    assert (Bd: ~ In "."%char base).
    { intros Hb. apply partition_chars in Hb. destruct Hb as [Hb|[(s & Hs & Hb)|(n & Hb)]]; [discriminate| |apply Hv in Hb; discriminate].
      apply (P2 s Hs Hb). }
    unfold suffix_of in *. destruct (m_valid M r); cbn [negb].
    - rewrite app_nil_r in *. apply not_true_iff_false. intros C.
      apply name_contains in C; auto.
      + destruct C as (w & Hw & C). apply (components_contains base) in C; auto. rewrite HB in C by auto. discriminate.
      + intros Hd. apply Bd. eapply components_chars; [|exact Hd].
        destruct (two_ends _ P5) as (b & mid & z & ->). change (b :: mid ++ [z]) with ((b :: mid) ++ [z]).
        rewrite last_last. apply in_app_iff. right. left. auto.
    - assert (Ec: components_of (base ++ $"/BACKOUT/") = components_of base ++ [$"BACKOUT"]).
      { change $"/BACKOUT/" with ($"/" ++ $"BACKOUT/"). rewrite components_app_slash. reflexivity. }
      apply name_contains; auto.
      + intros r0 Er. destruct base as [|c0 base0] eqn:Eb; [cbn in P5; lia|]. injection Er as -> _.
        apply (D3 base0). reflexivity.
      + rewrite Ec, app_length. cbn. lia.
      + rewrite Ec, last_last. unfold no_extension. simpl. intuition discriminate.
      + intros Hb. apply in_app_iff in Hb. destruct Hb as [Hb|Hb]; [auto|]. revert Hb. simpl. intuition discriminate.
      + exists $"BACKOUT". split; [|reflexivity]. rewrite Ec. apply in_app_iff. right. left. auto.
  Qed.

  Lemma sent_In es : forall os id r, In r (sent M es os id) ->
    exists now, In (SAppend r now) es /\ In id (targets M r now).
  Proof.
    induction es as [|e es IH]; intros [|o os] id r; cbn [sent]; try (destruct e; intros []; fail); try (intros []; fail).
    assert (G: In r (sent M es os id) -> exists now, In (SAppend r now) (e :: es) /\ In id (targets M r now)).
    { intros H. destruct (IH _ _ _ H) as (now & H1 & H2). exists now. split; [right|]; auto. }
    destruct e as [r' now'| |]; auto. destruct o; auto.
    intros H. apply in_app_iff in H. destruct H as [H|H]; auto.
    apply in_map_iff in H. destruct H as (x & -> & Hx). apply filter_In in Hx. destruct Hx as [Hx E].
    apply str_eqb_eq in E. subst x. exists now'. split; [left|]; auto.
  Qed.

  Lemma backout_only es os s : reliable (m_base M) -> srun M new_stream es = (os, s) ->
    (forall r now id, In (SAppend r now) es -> m_valid M r = true -> In id (targets M r now) ->
       contains $"BACKOUT" id = false) ->
    exists blobs, contents M blobs (puts (world_of s)) /\
      (forall id, exists waiting, stored_for id blobs ++ waiting = sent M es os id) /\
      Forall2 (fun b put => forall r, In r (snd b) -> contains $"BACKOUT" (fst put) = negb (m_valid M r))
              blobs (puts (world_of s)).
  Proof.
    intros Rl E HV. destruct (never_duplicated M Rl es os s E) as (blobs & C & W).
    exists blobs. split; auto. split; auto.
    assert (A: forall b, In b blobs -> forall r, In r (snd b) -> exists now, In (SAppend r now) es /\ In (fst b) (targets M r now)).
    { intros b Hb r Hr. destruct (W (fst b)) as (w & Ew). apply (sent_In es os). rewrite <- Ew.
      apply in_app_iff. left. unfold stored_for. apply in_concat. exists (snd b). split; auto.
      apply in_map. apply filter_In. split; auto. apply str_eqb_refl. }
    unfold contents in C. clear W E. induction C as [|b put blobs log (H & t & Et) C IH]; constructor.
    - intros r Hr. destruct (A b (or_introl eq_refl) r Hr) as (now & Hin & Ht). rewrite Et.
      eapply target_name; eauto.
    - apply IH. intros b' Hb'. apply A. right; auto.
  Qed.
  Lemma backout_never_read es os s : reliable (m_base M) -> srun M new_stream es = (os, s) ->
    (forall r now id, In (SAppend r now) es -> m_valid M r = true -> In id (targets M r now) ->
       contains $"BACKOUT" id = false) ->
    exists blobs, contents M blobs (puts (world_of s)) /\
      (forall id, exists waiting, stored_for id blobs ++ waiting = sent M es os id) /\
      forall pf store paths out, get_list_of_blobs pf store paths = Ok out ->
        Forall2 (fun b put => In (fst put) out -> forall r, In r (snd b) -> m_valid M r = true)
                blobs (puts (world_of s)).
  Proof.
    intros Rl E HV. destruct (backout_only es os s Rl E HV) as (blobs & C & W & F).
    exists blobs. split; auto. split; auto. intros pf store paths out G.
    destruct (Frames.only_listed _ _ _ _ G) as [_ L].
    clear -F L. induction F as [|b put bl log H F IH]; constructor; auto.
    intros Hi r Hr. destruct (L _ Hi) as (_ & L2 & _). rewrite (H r Hr) in L2.
    now apply negb_false_iff in L2.
  Qed.
End Backout.

Lemma append_all_count {R V} (M : streaming R V) ids : forall s r k n s',
  append_all M s ids r k = (Ok n, s') -> n = (k + length ids)%nat.
Proof.
  induction ids as [|id ids IH]; intros s r k n s'; cbn [append_all length].
  - intros [= <- _]. lia.
  - destruct (pool_append M s id r) as [[x|e] s1]; [|discriminate]. intros H. apply IH in H. lia.
Qed.
Lemma stream_append_count {R V} (M : streaming R V) s r now n s' :
  stream_append M s r now = (Ok n, s') -> n = length (targets M r now).
Proof. intros H. apply append_all_count in H. exact H. Qed.

Lemma partition_depth ps d (value : str -> str) :
  solid (partition_of ps d (fun _ => [])) ->
  let p := partition_of ps d (fun n => sanitize (value n)) in
  length (components_of p) = length (components_of (partition_of ps d (fun _ => []))) /\
  ~ In $".." (components_of p) /\ relative p.
Proof.
  intros S. apply depth_same; auto.
  - intros n H. apply sanitize_chars in H. discriminate.
  - intros n (c & [] & _).
Qed.
Lemma partition_depth_fields ps d (value : str -> str) :
  solid (partition_of ps d (fun _ => $"x")) -> (forall n, sanitize (value n) <> []) ->
  let p := partition_of ps d (fun n => sanitize (value n)) in
  length (components_of p) = length (components_of (partition_of ps d (fun _ => $"x"))) /\
  ~ In $".." (components_of p) /\ relative p.
Proof.
  intros S N. apply depth_same; auto.
  - intros n. simpl. intuition discriminate.
  - intros n H. apply sanitize_chars in H. discriminate.
  - intros n _. destruct (sanitize (value n)) as [|c v] eqn:E; [exfalso; eapply N; eauto|].
    exists c. split; [left; auto|]. intros ->.
    assert (H: In "."%char (sanitize (value n))) by (rewrite E; left; auto).
    apply sanitize_chars in H. discriminate.
Qed.
