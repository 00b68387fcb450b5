(** Lemmas about tokens. *)
From Coq Require Import Lia.
From Verif.Base Require Import Py PyFacts Value ValueFacts.
From Verif.Model Require Import Dates Filters Tokens.
From Verif.Spec Require Import Tokens.

(** ** Characters *)
Lemma upper_c_word c : is_word (upper_c c) = is_word c.
Proof. destruct c as [[] [] [] [] [] [] [] []]; reflexivity. Qed.
Lemma upper_c_space c : is_space (upper_c c) = is_space c.
Proof. destruct c as [[] [] [] [] [] [] [] []]; reflexivity. Qed.
Lemma upper_c_quote c : is_quote (upper_c c) = is_quote c.
Proof. destruct c as [[] [] [] [] [] [] [] []]; reflexivity. Qed.
Lemma upper_c_idem c : upper_c (upper_c c) = upper_c c.
Proof. destruct c as [[] [] [] [] [] [] [] []]; reflexivity. Qed.
Lemma upper_idem s : upper (upper s) = upper s.
Proof. unfold upper. rewrite map_map. apply map_ext. exact upper_c_idem. Qed.
Lemma upper_c_not_letter c d : is_alpha d = false -> upper_c c = d -> c = d.
Proof. intros Hd <-. revert Hd. destruct c as [[] [] [] [] [] [] [] []]; cbn; congruence. Qed.
Lemma upper_length s : length (upper s) = length s.
Proof. apply map_length. Qed.
Lemma upper_app a b : upper (a ++ b) = upper a ++ upper b.
Proof. apply map_app. Qed.
Lemma word_not_space c : is_word c = true -> is_space c = false.
Proof. destruct c as [[] [] [] [] [] [] [] []]; cbn; congruence. Qed.
Lemma word_not_quote c : is_word c = true -> is_quote c = false.
Proof. destruct c as [[] [] [] [] [] [] [] []]; cbn; congruence. Qed.
Lemma word_char_spec c : word_char c <-> is_word c = true.
Proof.
  unfold word_char, is_word. rewrite !orb_true_iff, Ascii.eqb_eq. tauto.
Qed.

(** ** Runs of word characters *)
Fixpoint run (s : str) : str := match s with c :: s' => if is_word c then c :: run s' else [] | [] => [] end.
Definition nonword_start (s : str) : Prop := match s with c :: _ => is_word c = false | [] => True end.

Lemma run_app u rest : nonword_start rest -> run (u ++ rest) = run u.
Proof.
  intro H. induction u as [|c u IH]; cbn.
  - destruct rest as [|c r]; auto. cbn in *. now rewrite H.
  - destruct (is_word c); congruence.
Qed.

Lemma run_all x rest : (forall c, In c x -> is_word c = true) -> nonword_start rest -> run (x ++ rest) = x.
Proof.
  intros Hx Hr. rewrite run_app by auto. clear Hr rest. induction x as [|c x IH]; cbn; auto.
  rewrite (Hx c) by now left. f_equal. apply IH. intros; apply Hx; now right.
Qed.

Lemma run_split p : exists r, p = run p ++ r /\ nonword_start r.
Proof.
  induction p as [|c p (r & E & Hr)]; cbn; [now exists []|].
  destruct (is_word c) eqn:Ec.
  - exists r. split; auto. cbn. congruence.
  - exists (c :: p). split; auto.
Qed.

Lemma run_words p c : In c (run p) -> is_word c = true.
Proof. induction p as [|d p IH]; cbn; [contradiction|]. destruct (is_word d) eqn:E; [|contradiction]. intros [<-|H]; auto. Qed.

Lemma run_upper s : run (upper s) = upper (run s).
Proof. unfold upper. induction s as [|c s IH]; auto. cbn [map run]. rewrite upper_c_word. destruct (is_word c); cbn [map]; congruence. Qed.

(** ** The parts of the splitter *)
Definition starts_alpha (s : str) : bool := match s with c :: _ => is_alpha c | [] => false end.
Definition starts_sign (s : str) : bool := match s with c :: _ => mem Ascii.eqb c $"<>=!()[],*" | [] => false end.

Lemma keywords_words : forall k, In (k, true) keywords -> starts_alpha k = true /\ str_mem (run k) reserved = true.
Proof.
  assert (H : forallb (fun k => negb (snd k) || (starts_alpha (fst k) && str_mem (run (fst k)) reserved)) keywords = true)
    by (vm_compute; reflexivity).
  rewrite forallb_forall in H. intros k Hk. specialize (H _ Hk). cbn in H. now apply andb_true_iff in H.
Qed.

Lemma keywords_signs : forall k, In (k, false) keywords -> starts_sign k = true.
Proof.
  assert (H : forallb (fun k => snd k || starts_sign (fst k)) keywords = true) by (vm_compute; reflexivity).
  rewrite forallb_forall in H. intros k Hk. specialize (H _ Hk). exact H.
Qed.

Lemma str_mem_In x l : str_mem x l = true <-> In x l.
Proof.
  unfold str_mem, mem. rewrite existsb_exists. split.
  - intros (y & Hy & E). apply str_eqb_eq in E. now subst.
  - intro H. exists x. split; auto. apply str_eqb_refl.
Qed.

(** a word of the splitter that matches is the run of word characters it matches, or begins with it *)
Lemma word_match prev s k : keyword_matches prev s (k, true) = true -> starts_alpha k = true ->
  not_word_at_end prev = true /\ upper (run s) = run k.
Proof.
  unfold keyword_matches. cbn [fst snd negb orb]. intros H Ha.
  apply andb_true_iff in H as [H1 H2]. apply andb_true_iff in H2 as [H2 H3].
  apply str_eqb_eq in H1. split; auto.
  rewrite <- (firstn_skipn (length k) s).
  set (a := firstn (length k) s) in *. set (b := skipn (length k) s) in *.
  assert (Hb : nonword_start b).
  { unfold nonword_start. destruct b as [|c b']; auto. cbn in H3. now apply negb_true_iff in H3. }
  rewrite run_app by auto. rewrite <- run_upper. now rewrite H1.
Qed.

Lemma sign_match prev s k c : keyword_matches prev (c :: s) (k, false) = true -> starts_sign k = true -> sign_char c.
Proof.
  unfold keyword_matches. cbn [fst snd negb orb andb]. rewrite andb_true_r. intros H Hk.
  destruct k as [|d k]; [discriminate|]. cbn in H. unfold str_eqb in H. cbn [list_eqb] in H.
  apply andb_true_iff in H as [H _]. apply Ascii.eqb_eq in H.
  unfold starts_sign, mem in Hk. apply existsb_exists in Hk as (e & He & Ee). apply Ascii.eqb_eq in Ee. subst e.
  assert (Hall : forallb (fun d => negb (is_alpha d)) $"<>=!()[],*" = true) by reflexivity.
  rewrite forallb_forall in Hall. pose proof (Hall d He) as Hd. apply negb_true_iff in Hd.
  apply (upper_c_not_letter c d Hd) in H. subst. exact He.
Qed.

Lemma keyword_none prev c s : ~ sign_char c ->
  (not_word_at_end prev = false \/ is_word c = false \/ ~ In (upper (run (c :: s))) reserved) ->
  keyword_at prev (c :: s) = None.
Proof.
  intros Hc H. unfold keyword_at. destruct (find _ keywords) as [[k w]|] eqn:E; auto. exfalso.
  apply find_some in E as [Hin Hm]. destruct w.
  - apply keywords_words in Hin as [Ha Hr]. apply str_mem_In in Hr.
    destruct (word_match _ _ _ Hm Ha) as [Hp Hrun]. destruct H as [H|[H|H]].
    + congruence.
    + rewrite <- Hrun in Hr. cbn in Hr. rewrite H in Hr. cbn in Hr.
      vm_compute in Hr. decompose [or] Hr; try discriminate; contradiction.
    + rewrite Hrun in H. contradiction.
  - apply Hc. eapply sign_match; eauto. eapply keywords_signs; eauto.
Qed.

Definition last_or (prev : option ascii) (u : str) : option ascii :=
  match rev u with c :: _ => Some c | [] => prev end.

Lemma last_or_cons prev c u : last_or prev (c :: u) = last_or (Some c) u.
Proof. unfold last_or. cbn. destruct (rev u); reflexivity. Qed.

Lemma words_from_first u : forall acc, exists l, words_from acc u = (rev acc ++ run u) :: l /\
  forall c u', u = c :: u' -> is_word c = false -> l = words_from [] u'.
Proof.
  induction u as [|c u IH]; intro acc; cbn.
  - exists []. rewrite app_nil_r. split; auto. discriminate.
  - change (is_alpha c || is_digit c || Ascii.eqb c "_") with (is_word c). destruct (is_word c) eqn:Ec.
    + destruct (IH (c :: acc)) as (l & E & _). exists l. rewrite E. cbn. rewrite <- app_assoc. split; auto.
      intros d u' Hd. injection Hd as <- _. congruence.
    + exists (words_from [] u). rewrite app_nil_r. split; auto. intros d u' Hd. injection Hd as _ <-. auto.
Qed.

Lemma quiet_run u : forall acc prev cur rest,
  (not_word_at_end prev = true /\ acc = [] \/ not_word_at_end prev = false) ->
  nonword_start rest -> (forall c, In c u -> ~ sign_char c) ->
  (forall w, In w (words_from acc u) -> ~ In (upper w) reserved) ->
  splitter_split 0 prev cur (u ++ rest) = splitter_split 0 (last_or prev u) (rev u ++ cur) rest.
Proof.
  induction u as [|c u IH]; intros acc prev cur rest Hp Hr Hs Hw; auto.
  cbn [app splitter_split]. rewrite keyword_none.
  - rewrite last_or_cons. cbn [rev]. rewrite <- app_assoc. cbn [app].
    cbn [words_from] in Hw. change (is_alpha c || is_digit c || Ascii.eqb c "_") with (is_word c) in Hw.
    destruct (is_word c) eqn:Ec.
    + apply (IH (c :: acc)); auto; [right; cbn; now rewrite Ec|intros; apply Hs; now right].
    + apply (IH []); auto; [left; cbn; now rewrite Ec|intros; apply Hs; now right|]. intros w H. apply Hw. now right.
  - apply Hs. now left.
  - destruct Hp as [[Hp ->]|Hp]; [|now left]. right.
    destruct (is_word c) eqn:Ec; [right|now left].
    change (c :: u ++ rest) with ((c :: u) ++ rest). rewrite run_app by auto.
    destruct (words_from_first (c :: u) []) as (l & E & _). apply Hw. rewrite E. now left.
Qed.

Lemma splitter_skip k : forall prev cur rest n, n = length k ->
  splitter_split n prev cur (k ++ rest) = splitter_split 0 (last_or prev k) cur rest.
Proof.
  induction k as [|c k IH]; intros prev cur rest n ->; auto.
  cbn [app length splitter_split]. rewrite IH by auto. now rewrite last_or_cons.
Qed.

Lemma splitter_keyword k prev cur rest : k <> [] -> keyword_at prev (k ++ rest) = Some (length k) ->
  splitter_split 0 prev cur (k ++ rest) = rev cur :: k :: splitter_split 0 (last_or prev k) [] rest.
Proof.
  intros Hk H. destruct k as [|c k]; [congruence|].
  cbn [app splitter_split]. cbn [app] in H. rewrite H.
  change (c :: k ++ rest) with ((c :: k) ++ rest). rewrite firstn_app, Nat.sub_diag, firstn_all. cbn [firstn].
  rewrite app_nil_r. f_equal. f_equal. cbn [length Nat.pred]. rewrite splitter_skip by auto. now rewrite last_or_cons.
Qed.

(** ** Keywords match *)
Lemma sign_at w prev rest : In w (comparison_signs ++ brackets) ->
  (In w comparison_signs -> forall c r, rest = c :: r -> ~ In c $"<>=!") -> keyword_at prev (w ++ rest) = Some (length w).
Proof.
  intros Hw Hr.
  assert (Hc : forall c r, rest = c :: r -> In w comparison_signs ->
     Ascii.eqb (upper_c c) ">" = false /\ Ascii.eqb (upper_c c) "=" = false).
  { intros c r -> Hin. specialize (Hr Hin c r eq_refl). split; apply Ascii.eqb_neq; intro E;
      apply upper_c_not_letter in E; auto; subst; apply Hr; cbn; tauto. }
  unfold comparison_signs, brackets in Hw. cbn [app In] in Hw.
  decompose [or] Hw; subst; try contradiction; unfold keyword_at;
    (destruct rest as [|c r];
     [vm_compute; reflexivity
     |try (destruct (Hc c r eq_refl ltac:(unfold comparison_signs; cbn [In]; tauto)) as [E1 E2]); clear Hc Hr Hw;
      cbn -[upper_c Ascii.eqb is_word]; unfold keyword_matches, str_eqb; cbn -[upper_c is_word];
      try (change (Ascii.eqb (upper_c c) ">") with false); rewrite ?E1, ?E2; try reflexivity]).
Qed.

Definition two_words : list str := [$"IS NOT"; $"NOT LIKE"; $"GROUP BY"; $"ORDER BY"].

Lemma keywords_single : forall k, In (k, true) keywords -> run k = k \/ In k two_words.
Proof.
  assert (H : forallb (fun k => negb (snd k) || str_eqb (run (fst k)) (fst k) || str_mem (fst k) two_words) keywords = true)
    by (vm_compute; reflexivity).
  rewrite forallb_forall in H. intros k Hk. specialize (H _ Hk). cbn [fst snd negb orb] in H.
  apply orb_true_iff in H as [H|H]; [left; now apply str_eqb_eq|right; now apply str_mem_In].
Qed.

Lemma separating_cases u : In u separating_words ->
  (In (u, true) keywords /\ run u = u /\ u <> $"GROUP" /\ u <> $"ORDER") \/ u = $"IS NOT" \/ u = $"NOT LIKE".
Proof.
  assert (H : forallb (fun u => (existsb (fun k => str_eqb (fst k) u && snd k) keywords && str_eqb (run u) u &&
                                 negb (str_mem u [$"GROUP"; $"ORDER"])) ||
                                str_mem u [$"IS NOT"; $"NOT LIKE"]) separating_words = true) by (vm_compute; reflexivity).
  rewrite forallb_forall in H. intros Hu. specialize (H _ Hu). apply orb_true_iff in H as [H|H].
  - left. rewrite !andb_true_iff in H. destruct H as [[H1 H2] H3]. apply str_eqb_eq in H2.
    apply existsb_exists in H1 as ([k b] & Hk & E). cbn [fst snd] in E. apply andb_true_iff in E as [E1 E2].
    apply str_eqb_eq in E1. subst k b. repeat split; auto; intros ->; discriminate.
  - right. apply str_mem_In in H. cbn [In] in H. destruct H as [<-|[<-|[]]]; auto.
Qed.

Lemma upper_nonempty w : upper w <> [] -> w <> [].
Proof. intros H ->. now apply H. Qed.

Lemma firstn_exact {A} (w rest : list A) n : n = length w -> firstn n (w ++ rest) = w.
Proof. intros ->. rewrite firstn_app, Nat.sub_diag, firstn_all. cbn. apply app_nil_r. Qed.
Lemma skipn_exact {A} (w rest : list A) n : n = length w -> skipn n (w ++ rest) = rest.
Proof. intros ->. rewrite skipn_app, Nat.sub_diag, skipn_all. reflexivity. Qed.

Lemma self_match prev w rest : not_word_at_end prev = true -> nonword_start rest ->
  keyword_matches prev (w ++ rest) (upper w, true) = true.
Proof.
  intros Hp Hr. unfold keyword_matches. cbn [fst snd negb orb]. rewrite upper_length.
  rewrite firstn_exact, skipn_exact by auto. rewrite str_eqb_refl, Hp. cbn.
  destruct rest as [|c r]; auto. cbn in *. now rewrite Hr.
Qed.

(** a word of two words matches: its second word is next *)
Lemma two_words_match prev w rest a b : upper w = a -> is_word " " = false -> (forall c, In c b -> is_word c = true) ->
  keyword_matches prev (w ++ rest) (a ++ " "%char :: b, true) = true ->
  exists r, rest = " "%char :: r /\ upper (run r) = b.
Proof.
  intros Hw _ Hb. unfold keyword_matches. cbn [fst snd negb orb]. intro H.
  apply andb_true_iff in H as [H1 H2]. apply andb_true_iff in H2 as [_ H3].
  assert (Hl : length a = length w) by (rewrite <- Hw; apply upper_length).
  rewrite app_length in H1, H3. cbn [length] in H1, H3. rewrite Hl in H1, H3.
  rewrite firstn_app_2 in H1. rewrite upper_app in H1. apply str_eqb_eq in H1.
  rewrite Hw in H1. apply app_inv_head in H1.
  rewrite skipn_app in H3. rewrite skipn_all2 in H3 by lia. cbn [app] in H3.
  replace (length w + S (length b) - length w) with (S (length b)) in H3 by lia.
  destruct rest as [|c r]; [discriminate|]. cbn [firstn upper map] in H1. injection H1 as Ec Er.
  apply upper_c_not_letter in Ec; auto. subst c. exists r. split; auto.
  cbn [skipn] in H3. rewrite <- (firstn_skipn (length b) r).
  assert (Hn : nonword_start (skipn (length b) r)).
  { destruct (skipn (length b) r) as [|d q]; cbn in *; auto. now apply negb_true_iff in H3. }
  rewrite run_app by auto. rewrite <- run_upper. unfold upper at 1. rewrite Er.
  rewrite <- (app_nil_r b) at 1. apply run_all; auto. exact I.
Qed.

Lemma find_first {A} (f : A -> bool) l1 x l2 : (forall y, In y l1 -> f y = false) -> f x = true ->
  find f (l1 ++ x :: l2) = Some x.
Proof.
  intros H Hx. induction l1 as [|y l1 IH]; cbn; [now rewrite Hx|].
  rewrite (H y) by now left. apply IH. intros; apply H; now right.
Qed.

Lemma word_first_char w : In (upper w) separating_words -> exists c w', w = c :: w' /\ is_alpha c = true.
Proof.
  assert (H : forallb starts_alpha separating_words = true) by (vm_compute; reflexivity).
  rewrite forallb_forall in H. intro Hw. specialize (H _ Hw). destruct w as [|c w]; [discriminate|].
  exists c, w. split; auto. cbn in H. revert H. destruct c as [[] [] [] [] [] [] [] []]; auto.
Qed.

Lemma alpha_not_sign c : is_alpha c = true -> ~ sign_char c.
Proof.
  intros H Hc. assert (Hall : forallb (fun d => negb (is_alpha d)) $"<>=!()[],*" = true) by reflexivity.
  rewrite forallb_forall in Hall. apply Hall in Hc. now rewrite H in Hc.
Qed.

Lemma word_at w prev rest : In (upper w) separating_words -> not_word_at_end prev = true -> nonword_start rest ->
  (forall b r, In (upper w, b) [($"IS", $"NOT"); ($"NOT", $"LIKE")] -> rest = " "%char :: r -> upper (run r) <> b) ->
  keyword_at prev (w ++ rest) = Some (length w).
Proof.
  intros Hw Hp Hr Hext. pose proof (self_match prev w rest Hp Hr) as Hself.
  destruct (word_first_char w Hw) as (c & w' & Ew & Hc).
  assert (Hsign : forall k, In (k, false) keywords -> keyword_matches prev (w ++ rest) (k, false) = false).
  { intros k Hk. destruct (keyword_matches prev (w ++ rest) (k, false)) eqn:E; auto. exfalso.
    rewrite Ew in E. apply (alpha_not_sign c Hc). eapply sign_match; eauto using keywords_signs. }
  destruct (separating_cases _ Hw) as [(Hin & Hrun & N1 & N2)|Htwo].
  - unfold keyword_at. destruct (find _ keywords) as [[k b]|] eqn:E.
    + apply find_some in E as [Hk Hm]. cbn [option_map fst]. f_equal. destruct b; [|rewrite Hsign in Hm; [discriminate|auto]].
      pose proof (keywords_words _ Hk) as [Ha _]. destruct (word_match _ _ _ Hm Ha) as [_ Hrk].
      rewrite run_app, <- run_upper, Hrun in Hrk by auto.
      destruct (keywords_single _ Hk) as [Hs|Ht].
      * rewrite Hs in Hrk. subst k. apply upper_length.
      * exfalso. unfold two_words in Ht. cbn [In] in Ht. destruct Ht as [<-|[<-|[<-|[<-|[]]]]].
        -- change (upper w = $"IS") in Hrk.
           apply (two_words_match prev w rest $"IS" $"NOT") in Hm as (r & -> & Er); auto.
           ++ apply (Hext $"NOT" r); auto. rewrite Hrk. now left.
           ++ apply Forall_forall. repeat constructor.
        -- change (upper w = $"NOT") in Hrk.
           apply (two_words_match prev w rest $"NOT" $"LIKE") in Hm as (r & -> & Er); auto.
           ++ apply (Hext $"LIKE" r); auto. rewrite Hrk. right. now left.
           ++ apply Forall_forall. repeat constructor.
        -- change (upper w = $"GROUP") in Hrk. contradiction.
        -- change (upper w = $"ORDER") in Hrk. contradiction.
    + exfalso. eapply find_none in E; [|exact Hin]. congruence.
  - assert (G : forall n, nth_error keywords n = Some (upper w, true) ->
       forallb (fun k => negb (snd k) || negb (str_eqb (run (fst k)) (run (upper w)))) (firstn n keywords) = true ->
       keyword_at prev (w ++ rest) = Some (length w)).
    { intros n Hn Hf. unfold keyword_at. apply nth_error_split in Hn as (l1 & l2 & El & Hl).
      rewrite El in Hf |- *. rewrite firstn_exact in Hf by auto. rewrite find_first; auto.
      - cbn [option_map fst]. f_equal. apply upper_length.
      - intros [k b] Hk. rewrite forallb_forall in Hf. specialize (Hf _ Hk). cbn [fst snd] in Hf.
        destruct b; [|apply Hsign; rewrite El; apply in_or_app; now left].
        destruct (keyword_matches prev (w ++ rest) (k, true)) eqn:E; auto. exfalso.
        assert (Hkin : In (k, true) keywords) by (rewrite El; apply in_or_app; now left).
        pose proof (keywords_words _ Hkin) as [Ha _]. destruct (word_match _ _ _ E Ha) as [_ Hrk].
        rewrite run_app, <- run_upper in Hrk by auto. rewrite <- Hrk in Hf.
        rewrite str_eqb_refl in Hf. discriminate. }
    destruct Htwo as [Hu|Hu]; rewrite Hu in G; [apply (G 48)|apply (G 50)]; vm_compute; reflexivity.
Qed.

(** ** Strip *)
Lemma lstrip_nonspace c s : is_space c = false -> lstrip (c :: s) = c :: s.
Proof. intro H. cbn. now rewrite H. Qed.

Definition blank (s : str) : Prop := forall c, In c s -> is_space c = true.

Lemma lstrip_blank a s : blank a -> lstrip (a ++ s) = lstrip s.
Proof.
  induction a as [|c a IH]; intro H; auto. cbn. rewrite (H c) by now left. apply IH. intros d Hd. apply H. now right.
Qed.

Lemma strip_blank a : blank a -> strip a = [].
Proof.
  intro H. unfold strip. rewrite <- (app_nil_r a), lstrip_blank by auto. reflexivity.
Qed.

Definition firm (s : str) : Prop :=
  match s, rev s with c :: _, d :: _ => is_space c = false /\ is_space d = false | _, _ => False end.

Lemma strip_firm a s b : blank a -> blank b -> firm s -> strip (a ++ s ++ b) = s.
Proof.
  intros Ha Hb Hs. unfold strip. rewrite lstrip_blank by auto. unfold firm in Hs.
  destruct s as [|c s]; [contradiction|]. destruct (rev (c :: s)) as [|d t] eqn:E; [contradiction|].
  destruct Hs as [Hc Hd]. cbn [app]. rewrite lstrip_nonspace by auto. unfold rstrip.
  change (c :: s ++ b) with ((c :: s) ++ b). rewrite rev_app_distr, lstrip_blank.
  - rewrite E, lstrip_nonspace by auto. rewrite <- E. apply rev_involutive.
  - intros x Hx. apply Hb. now apply in_rev.
Qed.

Lemma firm_strip s : firm s -> strip s = s.
Proof. intro H. rewrite <- (app_nil_r s) at 1. apply (strip_firm [] s []); auto; intros ? []. Qed.

Lemma firm_upper s : firm (upper s) <-> firm s.
Proof.
  unfold firm, upper. destruct s as [|c s]; [tauto|]. cbn [map]. change (upper_c c :: map upper_c s) with (map upper_c (c :: s)).
  rewrite <- map_rev. destruct (rev (c :: s)) as [|d t]; [tauto|]. cbn [map]. now rewrite !upper_c_space.
Qed.

Lemma firm_ends c d m : is_space c = false -> is_space d = false -> firm (c :: m ++ [d]).
Proof.
  intros Hc Hd. unfold firm. change (c :: m ++ [d]) with ((c :: m) ++ [d]). rewrite rev_app_distr. now cbn.
Qed.

Lemma firm_app a b : firm a -> firm b -> forall m, firm (a ++ m ++ b).
Proof.
  unfold firm. intros Ha Hb m. destruct a as [|c a]; [tauto|]. destruct b as [|e b]; [destruct Hb|].
  cbn [app]. change (c :: a ++ m ++ e :: b) with ((c :: a) ++ m ++ e :: b).
  rewrite !rev_app_distr. destruct (rev (e :: b)) as [|d t]; [tauto|]. cbn [app].
  destruct (rev (c :: a)); [tauto|]. tauto.
Qed.

Lemma firm_all s : s <> [] -> (forall c, In c s -> is_space c = false) -> firm s.
Proof.
  intros Hs H. unfold firm. destruct s as [|c s]; [congruence|]. destruct (rev (c :: s)) as [|d t] eqn:E.
  - apply (f_equal (@rev _)) in E. rewrite rev_involutive in E. discriminate.
  - split; [apply H; now left|]. apply H. apply in_rev. rewrite E. now left.
Qed.

(** ** Pieces *)
Definition toks (pieces : list str) : list str :=
  filter (fun t => negb (Nat.eqb (length t) 0)) (map strip (fix_special_chars [] None pieces)).

Lemma toks_blank p ps : blank p -> toks (p :: ps) = toks ps.
Proof. intro H. unfold toks. cbn [fix_special_chars]. rewrite strip_blank by auto. reflexivity. Qed.

Definition unit_text (s : str) : Prop :=
  firm s /\ match s with c :: _ => is_quote c = false \/ exists m, s = c :: m ++ [c] | [] => False end.

Lemma toks_unit a s b ps : blank a -> blank b -> unit_text s -> toks ((a ++ s ++ b) :: ps) = s :: toks ps.
Proof.
  intros Ha Hb [Hf Hu]. unfold toks. cbn [fix_special_chars]. rewrite strip_firm by auto.
  destruct s as [|c s]; [contradiction|].
  assert (G : map strip ((a ++ (c :: s) ++ b) :: fix_special_chars [] None ps) =
              (c :: s) :: map strip (fix_special_chars [] None ps)).
  { cbn [map]. now rewrite strip_firm. }
  destruct (rev (c :: s)) as [|d t] eqn:E.
  { apply (f_equal (@rev _)) in E. rewrite rev_involutive in E. discriminate. }
  destruct Hu as [Hq|[m Hm]].
  - rewrite Hq. cbn [negb]. rewrite G. reflexivity.
  - rewrite Hm in E. change (c :: m ++ [c]) with ((c :: m) ++ [c]) in E. rewrite rev_app_distr in E. cbn in E.
    injection E as <- _. destruct (is_quote c) eqn:Eq; cbn [negb].
    + rewrite Ascii.eqb_refl. cbn [andb]. replace (Nat.ltb 1 (length (c :: s))) with true.
      * rewrite G. reflexivity.
      * symmetry. apply Nat.ltb_lt. rewrite Hm. cbn. rewrite app_length. cbn. lia.
    + rewrite G. reflexivity.
Qed.

(** ** Lexemes *)
Definition separates (l : lexeme) : Prop := match l with Word _ | Bracket _ | Sign _ => True | _ => False end.

Lemma separating_chars u c : In u separating_words -> In c u -> is_space c = false \/ c = " "%char.
Proof.
  assert (H : forallb (forallb (fun c => negb (is_space c) || Ascii.eqb c " ")) separating_words = true)
    by (vm_compute; reflexivity).
  rewrite forallb_forall in H. intros Hu Hc. specialize (H _ Hu). rewrite forallb_forall in H. specialize (H _ Hc).
  apply orb_true_iff in H as [H|H]; [left; now apply negb_true_iff|right; now apply Ascii.eqb_eq].
Qed.

Lemma lexeme_unit x : good_lexeme x -> unit_text (text x).
Proof.
  destruct x as [w|w|w|w|q body]; cbn [good_lexeme text]; intro H.
  - split.
    + apply firm_upper. assert (Hall : forall u, In u separating_words -> firm u).
      { intros u Hu. assert (E : forallb (fun u => match u, rev u with c :: _, d :: _ => negb (is_space c) && negb (is_space d)
                                            | _, _ => false end) separating_words = true) by (vm_compute; reflexivity).
        rewrite forallb_forall in E. specialize (E u Hu). unfold firm. destruct u as [|c u]; [discriminate|].
        destruct (rev (c :: u)); [discriminate|]. apply andb_true_iff in E as [E1 E2].
        split; apply negb_true_iff; [exact E1|exact E2]. }
      now apply Hall.
    + destruct (word_first_char w H) as (c & w' & -> & Hc). left. apply word_not_quote. unfold is_word. now rewrite Hc.
  - unfold brackets, comparison_signs in H. cbn [In] in H. decompose [or] H; subst; try contradiction; (split; [split; reflexivity|left; reflexivity]).
  - unfold brackets, comparison_signs in H. cbn [In] in H. decompose [or] H; subst; try contradiction; (split; [split; reflexivity|left; reflexivity]).
  - destruct H as (Hne & _ & Hc).
    assert (Hsp : forall c, In c w -> is_space c = false /\ is_quote c = false).
    { intros c Hin. destruct (Hc c Hin) as [Hw|[-> | ->]]; [|split; reflexivity..].
      apply word_char_spec in Hw. split; [now apply word_not_space|now apply word_not_quote]. }
    split; [apply firm_all; auto; intros c Hin; now apply Hsp|].
    destruct w as [|c w]; [congruence|]. left. apply Hsp. now left.
  - destruct H as (Hq & _).
    assert (is_space q = false) by (cbn in Hq; decompose [or] Hq; subst; try reflexivity; contradiction).
    split; [now apply firm_ends|]. right. now exists body.
Qed.

Definition prev_char (l : lexeme) : option ascii := last_or None (text l).

Lemma last_or_app prev u : u <> [] -> last_or prev u = last_or None u.
Proof.
  intro H. unfold last_or. destruct (rev u) eqn:E; auto.
  apply (f_equal (@rev _)) in E. rewrite rev_involutive in E. contradiction.
Qed.

Lemma text_nonempty x : good_lexeme x -> text x <> [].
Proof. intros H E. apply lexeme_unit in H as [Hf _]. rewrite E in Hf. exact Hf. Qed.

(** does not end with a word character *)
Lemma ends_nonword x : good_lexeme x -> match x with Bracket _ | Sign _ | Quoted _ _ => True | _ => False end ->
  not_word_at_end (prev_char x) = true.
Proof.
  destruct x as [w|w|w|w|q body]; cbn [good_lexeme]; try contradiction; intros H _.
  - unfold brackets, comparison_signs in H. cbn [In] in H. decompose [or] H; subst; try contradiction; reflexivity.
  - unfold brackets, comparison_signs in H. cbn [In] in H. decompose [or] H; subst; try contradiction; reflexivity.
  - unfold prev_char, last_or. cbn [text]. change (q :: body ++ [q]) with ((q :: body) ++ [q]).
    rewrite rev_app_distr. cbn. destruct H as (Hq & _).
    cbn in Hq. decompose [or] Hq; subst; try reflexivity; contradiction.
Qed.

Lemma starts_nonword x s : good_lexeme x -> match x with Bracket _ | Sign _ | Quoted _ _ => True | _ => False end ->
  nonword_start (text x ++ s).
Proof.
  destruct x as [w|w|w|w|q body]; cbn [good_lexeme]; try contradiction; intros H _.
  - unfold brackets, comparison_signs in H. cbn [In] in H. decompose [or] H; subst; try contradiction; reflexivity.
  - unfold brackets, comparison_signs in H. cbn [In] in H. decompose [or] H; subst; try contradiction; reflexivity.
  - destruct H as (Hq & _). cbn in Hq. decompose [or] Hq; subst; try reflexivity; contradiction.
Qed.

Lemma space_quiet prev cur rest :
  splitter_split 0 prev cur (" "%char :: rest) = splitter_split 0 (Some " "%char) (" "%char :: cur) rest.
Proof.
  cbn [splitter_split]. rewrite keyword_none; auto.
  intro H. cbn in H. decompose [or] H; discriminate || contradiction.
Qed.

Lemma rest_nonword x l : rest_well_written x l -> match x with Plain _ | Word _ => True | _ => False end ->
  nonword_start (rest_text l).
Proof.
  destruct l as [|[sp y] l]; cbn [rest_well_written rest_text]; [intros; exact I|].
  intros (Hy & Hf & _) Hx. destruct sp; [reflexivity|]. cbn [app].
  destruct x as [w|w|w|w|q b]; try contradiction; destruct y as [v|v|v|v|q' b']; cbn [may_follow] in Hf;
    try contradiction; try discriminate; try (destruct Hf; discriminate); now apply starts_nonword.
Qed.

Definition compares_c (c : ascii) : bool := mem Ascii.eqb c $"<>=!".
Lemma compares_c_spec c : compares_c c = false -> ~ In c $"<>=!".
Proof.
  intros H Hin. assert (E : forallb compares_c $"<>=!" = true) by reflexivity. rewrite forallb_forall in E.
  rewrite (E c Hin) in H. discriminate.
Qed.

Lemma first_char_of x c r : good_lexeme x -> match x with Sign _ => False | _ => True end -> text x = c :: r ->
  compares_c c = false.
Proof.
  destruct x as [v|v|v|v|q b]; cbn [good_lexeme text]; intros Hy Hs E; try contradiction.
  - destruct (word_first_char v Hy) as (d & v' & -> & Hd). apply (f_equal (@hd_error ascii)) in E. cbn [hd_error] in E.
    apply (f_equal (fun o => match o with Some a => a | None => c end)) in E. subst d.
    destruct c as [[] [] [] [] [] [] [] []]; try reflexivity; discriminate.
  - assert (F : forallb (fun s => match s with c :: _ => negb (compares_c c) | [] => false end) brackets = true)
      by (vm_compute; reflexivity).
    rewrite forallb_forall in F. specialize (F v Hy). rewrite E in F. now apply negb_true_iff.
  - destruct Hy as (_ & _ & Hc). subst v. specialize (Hc c (or_introl eq_refl)).
    rewrite word_char_spec in Hc. destruct Hc as [Hw|[-> | ->]]; [|reflexivity..].
    destruct c as [[] [] [] [] [] [] [] []]; try reflexivity; discriminate.
  - destruct Hy as (Hq & _). assert (F : forallb (fun c => negb (compares_c c)) [""""%char; "'"%char; "`"%char] = true) by reflexivity.
    rewrite forallb_forall in F. specialize (F q Hq). apply (f_equal (@hd_error ascii)) in E. cbn [hd_error] in E.
    apply (f_equal (fun o => match o with Some a => a | None => c end)) in E. subst q. now apply negb_true_iff.
Qed.

Lemma sign_next w l : rest_well_written (Sign w) l -> forall c r, rest_text l = c :: r -> ~ In c $"<>=!".
Proof.
  destruct l as [|[sp y] l]; cbn [rest_well_written rest_text]; [discriminate|].
  intros (Hy & Hf & _) c r E. apply compares_c_spec. destruct sp.
  - apply (f_equal (@hd_error ascii)) in E. cbn in E. injection E as <-. reflexivity.
  - cbn [app] in E. destruct (text y) as [|d t] eqn:Et; [now apply text_nonempty in Hy|].
    cbn [app] in E. apply (f_equal (@hd_error ascii)) in E. cbn [hd_error] in E.
    apply (f_equal (fun o => match o with Some a => a | None => c end)) in E. subst d.
    eapply first_char_of; eauto. destruct y; try exact I. cbn [may_follow] in Hf. discriminate.
Qed.

Lemma not_reserved : In $"NOT" reserved.
Proof. apply str_mem_In. vm_compute. reflexivity. Qed.
Lemma like_reserved : In $"LIKE" reserved.
Proof. apply str_mem_In. vm_compute. reflexivity. Qed.

Lemma follow_words V W b : In W separating_words -> In (V, b) [($"IS", $"NOT"); ($"NOT", $"LIKE")] -> run W = b ->
  In (V, W) [($"IS", $"NOT"); ($"IS", $"NOT LIKE"); ($"NOT", $"LIKE")].
Proof.
  intros HW Hb E. destruct (separating_cases _ HW) as [(_ & Hrun & _)|[Hu|Hu]].
  - rewrite Hrun in E. subst b. destruct Hb as [Hb|[Hb|[]]]; [left; exact Hb|right; right; left; exact Hb].
  - exfalso. subst W b. destruct Hb as [Hb|[Hb|[]]]; apply (f_equal snd) in Hb; cbn [snd] in Hb; vm_compute in Hb; discriminate.
  - subst W b. destruct Hb as [Hb|[Hb|[]]].
    + right. left. apply (f_equal fst) in Hb. cbn [fst] in Hb. rewrite <- Hb. reflexivity.
    + exfalso. apply (f_equal snd) in Hb. cbn [snd] in Hb. vm_compute in Hb. discriminate.
Qed.

Lemma good_word w : good_lexeme (Word w) -> In (upper w) separating_words.
Proof. cbn [good_lexeme]. intro H. exact H. Qed.

Lemma word_next v l : rest_well_written (Word v) l ->
  forall b r, In (upper v, b) [($"IS", $"NOT"); ($"NOT", $"LIKE")] -> rest_text l = " "%char :: r -> upper (run r) <> b.
Proof.
  destruct l as [|[sp y] l]; cbn [rest_well_written rest_text]; [discriminate|].
  intros (Hy & Hf & Hrest) b r Hb E.
  assert (Hb' : b = $"NOT" \/ b = $"LIKE").
  { cbn [In] in Hb. destruct Hb as [Hb|[Hb|[]]]; apply (f_equal snd) in Hb; cbn [snd] in Hb; auto. }
  assert (Hbr : In b reserved) by (destruct Hb' as [-> | ->]; [exact not_reserved|exact like_reserved]).
  assert (Hb0 : b <> []) by (destruct Hb' as [-> | ->]; discriminate).
  assert (Esp : sp = true /\ r = text y ++ rest_text l).
  { destruct sp; [now injection E|]. exfalso. cbn [app] in E.
    destruct (lexeme_unit y Hy) as [Hfirm _]. unfold firm in Hfirm. destruct (text y) as [|d t]; [exact Hfirm|].
    destruct (rev (d :: t)); [exact Hfirm|]. destruct Hfirm as [Hd _]. injection E as -> _. discriminate. }
  destruct Esp as [-> ->]. clear E.
  assert (Hnw : nonword_start (text y ++ rest_text l) -> upper (run (text y ++ rest_text l)) <> b).
  { intro Hn. destruct (text y ++ rest_text l) as [|c r]; cbn in Hn |- *; [congruence|]. rewrite Hn. cbn. congruence. }
  destruct y as [w|w|w|w|q body].
  2,3,5: apply Hnw; now apply starts_nonword.
  - destruct Hf as [_ Hf].
    assert (Hn : nonword_start (rest_text l)) by (eapply rest_nonword; [exact Hrest|exact I]).
    cbn [text]. rewrite run_app by auto. rewrite <- run_upper. intro Eb. apply Hf.
    apply (follow_words (upper v) (upper w) b (good_word w Hy) Hb Eb).
  - cbn [text].
    assert (Hn : nonword_start (rest_text l)) by (eapply rest_nonword; [exact Hrest|exact I]).
    rewrite run_app by auto. destruct Hy as (_ & (_ & Hq) & _). intro Eb.
    destruct (words_from_first w []) as (ws & Ews & _).
    apply (Hq (run w)); [unfold words; rewrite Ews; now left|]. now rewrite Eb.
Qed.

(** a lexeme that separates is cut out *)
Lemma separator_cut x l prev cur : good_lexeme x -> separates x -> rest_well_written x l ->
  (match x with Word _ => not_word_at_end prev = true | _ => True end) ->
  splitter_split 0 prev cur (text x ++ rest_text l) =
  rev cur :: text x :: splitter_split 0 (prev_char x) [] (rest_text l).
Proof.
  intros Hx Hs Hl Hp. rewrite splitter_keyword.
  - rewrite last_or_app by now apply text_nonempty. reflexivity.
  - now apply text_nonempty.
  - destruct x as [w|w|w|w|q b]; try contradiction; cbn [text].
    + apply (word_at w prev (rest_text l) (good_word w Hx) Hp).
      * eapply rest_nonword; [exact Hl|exact I].
      * now apply word_next.
    + apply sign_at; [apply in_or_app; now right|]. intros Hin. exfalso.
      cbn [good_lexeme] in Hx. unfold brackets in Hx. unfold comparison_signs in Hin. cbn [In] in Hx, Hin.
      decompose [or] Hx; subst; try contradiction; decompose [or] Hin; discriminate || contradiction.
    + apply sign_at; [apply in_or_app; now left|]. intros _. now apply (sign_next w).
Qed.

(** *** Quoted texts *)
Lemma keywords_separators : forall k, In k keywords -> In (fst k) separators.
Proof.
  assert (H : forallb (fun k => str_mem (fst k) separators) keywords = true) by (vm_compute; reflexivity).
  rewrite forallb_forall in H. intros k Hk. apply str_mem_In. now apply H.
Qed.

Lemma keywords_nonempty : forall k, In k keywords -> fst k <> [].
Proof.
  assert (H : forallb (fun k => negb (Nat.eqb (length (fst k)) 0)) keywords = true) by (vm_compute; reflexivity).
  rewrite forallb_forall in H. intros k Hk E. specialize (H k Hk). rewrite E in H. discriminate.
Qed.

Lemma keywords_unquoted : forall k, In k keywords -> forall c, In c (fst k) -> is_quote c = false.
Proof.
  assert (H : forallb (fun k => forallb (fun c => negb (is_quote c)) (fst k)) keywords = true) by (vm_compute; reflexivity).
  rewrite forallb_forall in H. intros k Hk c Hc. specialize (H k Hk). rewrite forallb_forall in H.
  apply negb_true_iff. now apply H.
Qed.

Lemma keywords_firm : forall k, In k keywords -> firm (fst k).
Proof.
  assert (H : forallb (fun k => match fst k, rev (fst k) with c :: _, d :: _ => negb (is_space c) && negb (is_space d)
                                | _, _ => false end) keywords = true) by (vm_compute; reflexivity).
  rewrite forallb_forall in H. intros k Hk. specialize (H k Hk). unfold firm.
  destruct (fst k); [discriminate|]. destruct (rev _); [discriminate|]. apply andb_true_iff in H as [A B].
  apply negb_true_iff in A, B. auto.
Qed.

Lemma keywords_sign_chars : forall k, In (k, false) keywords -> forall c, In c k -> is_word c = false.
Proof.
  assert (H : forallb (fun k => snd k || forallb (fun c => negb (is_word c)) (fst k)) keywords = true) by (vm_compute; reflexivity).
  rewrite forallb_forall in H. intros k Hk c Hc. specialize (H _ Hk). cbn in H. rewrite forallb_forall in H.
  apply negb_true_iff. now apply H.
Qed.

Lemma upper_cons c s : upper (c :: s) = upper_c c :: upper s. Proof. reflexivity. Qed.

Lemma quotes_spec c : In c quotes <-> is_quote c = true.
Proof.
  unfold quotes, is_quote, mem. rewrite existsb_exists. split.
  - intro H. exists c. split; auto. apply Ascii.eqb_refl.
  - intros (d & Hd & E). apply Ascii.eqb_eq in E. now subst.
Qed.

(** a match does not reach over a quote *)
Lemma match_inside prev u q rest n : is_quote q = true -> keyword_at prev (u ++ q :: rest) = Some n ->
  exists w u', u = w ++ u' /\ n = length w /\ w <> [] /\ firm w /\ (forall c, In c w -> is_quote c = false) /\
    In (upper w) separators /\
    (forall c d r, prev = Some c -> w = d :: r -> ~ (word_char c /\ word_char d)) /\
    (forall p d c r, w = p ++ [d] -> u' ++ q :: rest = c :: r -> ~ (word_char d /\ word_char c)).
Proof.
  intros Hq H. unfold keyword_at in H. destruct (find _ keywords) as [[k wd]|] eqn:E; [|discriminate].
  injection H as <-. apply find_some in E as [Hin Hm]. cbn [fst].
  unfold keyword_matches in Hm. cbn [fst snd] in Hm. apply andb_true_iff in Hm as [Hk Hb]. apply str_eqb_eq in Hk.
  assert (Hle : length k <= length u).
  { destruct (Nat.le_gt_cases (length k) (length u)) as [L|L]; auto. exfalso.
    assert (Hqk : In (upper_c q) k).
    { rewrite <- Hk. unfold upper. apply in_map. rewrite firstn_app. apply in_or_app. right.
      destruct (length k - length u) eqn:D; [lia|]. now left. }
    pose proof (keywords_unquoted _ Hin _ Hqk) as F. rewrite upper_c_quote in F. congruence. }
  exists (firstn (length k) u), (skipn (length k) u).
  assert (Ef : firstn (length k) (u ++ q :: rest) = firstn (length k) u).
  { rewrite firstn_app. replace (length k - length u) with 0 by lia. now rewrite firstn_O, app_nil_r. }
  assert (Es : skipn (length k) (u ++ q :: rest) = skipn (length k) u ++ q :: rest).
  { rewrite skipn_app. replace (length k - length u) with 0 by lia. reflexivity. }
  rewrite Ef in Hk. rewrite Es in Hb. set (w := firstn (length k) u) in *. set (u' := skipn (length k) u) in *.
  assert (Hwc : forall c, In c w -> In (upper_c c) k) by (intros c Hc; rewrite <- Hk; now apply in_map).
  repeat split.
  - symmetry. apply firstn_skipn.
  - unfold w. rewrite firstn_length_le by lia. reflexivity.
  - intro Z. apply (keywords_nonempty _ Hin). cbn. rewrite <- Hk, Z. reflexivity.
  - apply firm_upper. rewrite Hk. apply (keywords_firm _ Hin).
  - intros c Hc. rewrite <- upper_c_quote. apply (keywords_unquoted _ Hin). cbn. auto.
  - rewrite Hk. apply (keywords_separators _ Hin).
  - intros c d r -> Ew [Wc Wd]. apply word_char_spec in Wc, Wd. destruct wd; cbn [negb orb] in Hb.
    + apply andb_true_iff in Hb as [Hb _]. cbn in Hb. rewrite Wc in Hb. discriminate.
    + assert (F : In (upper_c d) k) by (apply Hwc; rewrite Ew; now left).
      apply (keywords_sign_chars _ Hin) in F. rewrite upper_c_word in F. congruence.
  - intros p d c r Ew Eu [Wd Wc]. apply word_char_spec in Wc, Wd. destruct wd; cbn [negb orb] in Hb.
    + apply andb_true_iff in Hb as [_ Hb]. rewrite Eu in Hb. cbn in Hb. rewrite Wc in Hb. discriminate.
    + assert (F : In (upper_c d) k) by (apply Hwc; rewrite Ew; apply in_or_app; right; now left).
      apply (keywords_sign_chars _ Hin) in F. rewrite upper_c_word in F. congruence.
Qed.

(** text with something other than spaces in it *)
Lemma blank_or_firm p : blank p \/ exists a m b, p = a ++ m ++ b /\ blank a /\ blank b /\ firm m.
Proof.
  assert (L : forall p, blank p \/ exists a c r, p = a ++ c :: r /\ blank a /\ is_space c = false).
  { clear p. induction p as [|c p IH]; [left; intros ? []|]. destruct (is_space c) eqn:E.
    - destruct IH as [IH|(a & d & r & -> & Ha & Hd)].
      + left. intros d [<-|Hd]; auto.
      + right. exists (c :: a), d, r. split; [reflexivity|]. split; auto. intros x [<-|Hx]; auto.
    - right. exists [], c, p. repeat split; auto. intros ? []. }
  destruct (L p) as [B|(a & c & r & -> & Ha & Hc)]; [now left|right].
  destruct (L (rev r)) as [B|(b & d & t & Er & Hb & Hd)].
  - exists a, [c], r. repeat split; auto. intros x Hx. apply B. now apply -> in_rev.
  - exists a, (c :: rev t ++ [d]), (rev b). repeat split; auto.
    + apply (f_equal (@rev _)) in Er. rewrite rev_involutive in Er. rewrite Er, rev_app_distr. cbn [rev].
      rewrite <- !app_assoc. cbn. now rewrite <- app_assoc.
    + intros x Hx. apply Hb. now apply in_rev.
    + now apply firm_ends.
Qed.

(** the pieces after the first one of a quoted text: nothing, or something that begins with no quote *)
Definition starts_unquoted (m : str) : Prop := match m with c :: _ => is_quote c = false | [] => False end.
Definition inner (q : ascii) (p : str) : Prop := p = [] \/
  exists a m b, p = a ++ m ++ b /\ blank a /\ blank b /\ firm m /\ starts_unquoted m /\ ~ In q m.
Definition final (z : str) : Prop := blank z \/
  exists a m b, z = a ++ m ++ b /\ blank a /\ blank b /\ firm m /\ starts_unquoted m.

Lemma firm_last m : firm m -> exists c t d t', m = c :: t /\ rev m = d :: t' /\ is_space c = false /\ is_space d = false.
Proof.
  unfold firm. destruct m as [|c t]; [tauto|]. destruct (rev (c :: t)) as [|d t'] eqn:E; [tauto|].
  intros [A B]. exists c, t, d, t'. auto.
Qed.

Lemma fix_inner q ps : Forall (inner q) ps -> forall builder rest,
  fix_special_chars builder (Some q) (ps ++ rest) = fix_special_chars (builder ++ concat ps) (Some q) rest.
Proof.
  induction 1 as [|p ps Hp _ IH]; intros builder rest; cbn [app concat]; [now rewrite app_nil_r|].
  destruct Hp as [->|(a & m & b & -> & Ha & Hb & Hm & Hs & Hq)]; [exact (IH builder rest)|].
  cbn [fix_special_chars]. rewrite strip_firm by auto.
  destruct (firm_last m Hm) as (c & t & d & t' & Em & Er & _ & _). subst m. rewrite Er. unfold starts_unquoted in Hs.
  rewrite Hs. cbn [andb]. replace (Ascii.eqb d q) with false.
  - rewrite IH, <- app_assoc. reflexivity.
  - symmetry. apply Ascii.eqb_neq. intros ->. apply Hq. apply in_rev. rewrite Er. now left.
Qed.

Lemma blank_single s : forall b u, single_spaced b (s ++ u) -> blank s -> In s [[]; $" "].
Proof.
  intros b u H Hs. destruct s as [|c s]; [now left|]. cbn [app single_spaced] in H. rewrite (Hs c) in H by now left.
  destruct H as (-> & _ & H). destruct s as [|d s]; [right; now left|]. exfalso. cbn [app single_spaced] in H.
  rewrite (Hs d) in H by (right; now left). destruct H as (_ & F & _). discriminate.
Qed.

Lemma single_suffix s : forall b u, single_spaced b (s ++ u) -> exists b', single_spaced b' u.
Proof.
  induction s as [|c s IH]; intros b u H; [now exists b|]. cbn [app single_spaced] in H. destruct (is_space c).
  - destruct H as (_ & _ & H). eauto.
  - eauto.
Qed.

Lemma last_or_snoc prev u c : last_or prev (u ++ [c]) = Some c.
Proof. unfold last_or. rewrite rev_app_distr. reflexivity. Qed.

Lemma last_or_two prev u w : last_or (last_or prev u) w = last_or prev (u ++ w).
Proof. unfold last_or. rewrite rev_app_distr. destruct (rev w); reflexivity. Qed.

Section InQuotes.
  Context (q : ascii) (body : str) (Hq : is_quote q = true) (K : kept_in_quotes q body).

  Lemma quote_uncut prev rest : keyword_at prev (q :: rest) = None.
  Proof.
    assert (F : forallb (fun c => negb (is_quote c) || negb (mem Ascii.eqb c $"<>=!()[],*") && negb (is_word c)) $"""'`" = true)
      by reflexivity.
    apply quotes_spec in Hq. rewrite forallb_forall in F. assert (Hi : In q $"""'`").
    { cbn in Hq |- *. tauto. }
    specialize (F q Hi). apply quotes_spec in Hq. rewrite Hq in F. cbn [negb orb] in F. apply andb_true_iff in F as [A B].
    apply negb_true_iff in A, B. apply keyword_none; auto.
    intro Hs. unfold sign_char in Hs. assert (E : mem Ascii.eqb q $"<>=!()[],*" = true).
    { unfold mem. apply existsb_exists. exists q. split; auto. apply Ascii.eqb_refl. }
    congruence.
  Qed.

  Definition ends (d0 after : str) : Prop := exists a v, d0 = a ++ v /\ stands_between a v after.

  Lemma after_separator d0 p u : body = d0 ++ p ++ u -> ends d0 (p ++ u) -> final p.
  Proof.
    intros Eb (a & v & -> & Hs). destruct K as (Kq & Ks & _ & K4).
    destruct (blank_or_firm p) as [B|(x & m & y & -> & Hx & Hy & Hm)]; [now left|right].
    exists x, m, y. repeat split; auto. destruct (firm_last m Hm) as (c & t & _ & _ & -> & _).
    cbn. destruct (is_quote c) eqn:E; auto. exfalso. apply quotes_spec in E. revert E.
    apply (K4 a v x c (t ++ y ++ u)).
    - rewrite Eb. now rewrite <- !app_assoc.
    - rewrite <- !app_assoc in Hs. exact Hs.
    - rewrite Eb in Ks. apply single_suffix in Ks as (b' & Ks). rewrite <- !app_assoc in Ks. eauto using blank_single.
  Qed.

  Lemma before_separator d0 p w u' : body = d0 ++ p ++ w ++ u' -> ends d0 (p ++ w ++ u') ->
    stands_between (d0 ++ p) w u' -> inner q p.
  Proof.
    intros Eb He Hw. pose proof (after_separator d0 p (w ++ u') Eb He) as F.
    destruct K as (Kq & Ks & K3 & _). destruct F as [B|(a & m & b & -> & Ha & Hb & Hm & Hs)].
    - rewrite Eb in Ks. apply single_suffix in Ks as (b' & Ks).
      destruct (blank_single p b' _ Ks B) as [<-|[<-|[]]]; [now left|]. exfalso.
      destruct He as (a & v & -> & Hs). apply (K3 a v w u').
      + rewrite Eb. now rewrite <- app_assoc.
      + exact Hs.
      + now rewrite <- app_assoc in Hw.
    - right. exists a, m, b. repeat split; auto. intro Hi. apply Kq. rewrite Eb.
      apply in_or_app. right. apply in_or_app. left. apply in_or_app. right. apply in_or_app. now left.
  Qed.

  Lemma separator_inner w : firm w -> (forall c, In c w -> is_quote c = false) -> inner q w.
  Proof.
    intros Hf Hw. right. exists [], w, []. rewrite app_nil_r. split; [reflexivity|].
    assert (B : blank []) by (intros ? []). repeat split; auto.
    - destruct (firm_last w Hf) as (c & t & _ & _ & -> & _). apply Hw. now left.
    - intro Hi. apply Hw in Hi. congruence.
  Qed.

  Lemma match_stands d rest u w u' : u = w ++ u' -> In (upper w) separators ->
    (forall c e r, last_or (Some q) d = Some c -> w = e :: r -> ~ (word_char c /\ word_char e)) ->
    (forall p e c r, w = p ++ [e] -> u' ++ q :: rest = c :: r -> ~ (word_char e /\ word_char c)) ->
    stands_between d w u'.
  Proof.
    intros -> Hin H1 H2. split; [exact Hin|]. split.
    - intros p c e r -> Ew. apply (H1 c e r); auto. apply last_or_snoc.
    - intros p e c r Ew Eu. apply (H2 p e c (r ++ q :: rest)); auto. now rewrite Eu.
  Qed.

  Lemma pieces_after rest n : forall u d0 p, length u <= n -> body = d0 ++ p ++ u -> ends d0 (p ++ u) ->
    exists ps z, splitter_split 0 (last_or (Some q) (d0 ++ p)) (rev p) (u ++ q :: rest) =
                 ps ++ splitter_split 0 (Some q) (rev (z ++ [q])) rest /\
                 concat ps ++ z = p ++ u /\ Forall (inner q) ps /\ final z.
  Proof.
    induction n as [|n IH]; intros u d0 p Hn Eb He.
    all: destruct u as [|c u]; [idtac|try (cbn in Hn; lia)].
    1,2: exists [], p; cbn [app splitter_split]; rewrite quote_uncut, rev_app_distr;
         (split; [reflexivity|]); (split; [now rewrite app_nil_r|]); (split; [constructor|]); now apply (after_separator d0 p []).
    destruct (keyword_at (last_or (Some q) (d0 ++ p)) ((c :: u) ++ q :: rest)) as [k|] eqn:E.
    - destruct (match_inside _ _ _ _ _ Hq E) as (w & u' & Eu & -> & Hne & Hf & Hw & Hs & H1 & H2).
      assert (St : stands_between (d0 ++ p) w u') by (eapply match_stands; eauto).
      assert (Ebw : body = d0 ++ p ++ w ++ u') by (rewrite Eb, Eu; reflexivity).
      destruct (IH u' (d0 ++ p ++ w) []) as (ps & z & Es & Ec & Hps & Hz).
      + apply (f_equal (@length _)) in Eu. rewrite app_length in Eu. cbn in Eu, Hn.
        destruct w; [congruence|]. cbn in Eu. lia.
      + cbn [app]. rewrite Ebw. now rewrite <- !app_assoc.
      + cbn [app]. exists (d0 ++ p), w. split; [now rewrite <- app_assoc|exact St].
      + exists (p :: w :: ps), z.
        repeat split.
        * rewrite Eu, <- app_assoc. rewrite splitter_keyword; auto.
          -- rewrite rev_involutive, last_or_two. cbn [app]. rewrite app_nil_r in Es. cbn [rev] in Es.
             rewrite <- app_assoc. rewrite Es. reflexivity.
          -- rewrite Eu, <- app_assoc in E. exact E.
        * cbn [concat]. rewrite <- !app_assoc, Ec. cbn [app]. now rewrite Eu.
        * constructor; [eapply before_separator; eauto|constructor; auto using separator_inner].
          rewrite Eu in He. exact He.
        * exact Hz.
    - destruct (IH u d0 (p ++ [c])) as (ps & z & Es & Ec & Hps & Hz).
      + cbn in Hn. lia.
      + rewrite Eb. now rewrite <- app_assoc.
      + rewrite <- app_assoc. exact He.
      + exists ps, z. rewrite app_assoc, last_or_snoc, rev_app_distr in Es. rewrite <- app_assoc in Ec.
        cbn [app splitter_split]. cbn [app] in E. rewrite E. auto.
  Qed.

  Lemma pieces_first rest a : forall u p, body = p ++ u ->
    exists ps z, splitter_split 0 (last_or (Some q) p) (rev (a ++ q :: p)) (u ++ q :: rest) =
                 ps ++ splitter_split 0 (Some q) (rev (z ++ [q])) rest /\
      ((ps = [] /\ z = a ++ q :: p ++ u) \/
       exists p1 ps', ps = (a ++ q :: p1) :: ps' /\ p1 ++ concat ps' ++ z = p ++ u /\ Forall (inner q) ps' /\ final z).
  Proof.
    induction u as [|c u IH]; intros p Eb.
    - exists [], (a ++ q :: p). cbn [app splitter_split]. rewrite quote_uncut, app_nil_r. split; [|now left].
      f_equal. symmetry. apply (rev_app_distr (a ++ q :: p) [q]).
    - destruct (keyword_at (last_or (Some q) p) ((c :: u) ++ q :: rest)) as [k|] eqn:E.
      + destruct (match_inside _ _ _ _ _ Hq E) as (w & u' & Eu & -> & Hne & Hf & Hw & Hs & H1 & H2).
        assert (St : stands_between p w u') by (eapply match_stands; eauto).
        destruct (pieces_after rest (length u') u' (p ++ w) []) as (ps & z & Es & Ec & Hps & Hz); auto.
        * cbn [app]. rewrite Eb, Eu. now rewrite <- app_assoc.
        * exists p, w. split; auto.
        * exists ((a ++ q :: p) :: w :: ps), z. split.
          -- rewrite Eu, <- app_assoc. rewrite splitter_keyword; auto.
             ++ rewrite rev_involutive, last_or_two. cbn [app]. rewrite app_nil_r in Es. cbn [rev] in Es. now rewrite Es.
             ++ rewrite Eu, <- app_assoc in E. exact E.
          -- right. exists p, (w :: ps). repeat split; auto.
             ++ cbn [concat]. rewrite <- app_assoc, Ec. cbn [app]. now rewrite Eu.
             ++ constructor; auto using separator_inner.
      + destruct (IH (p ++ [c])) as (ps & z & Es & Hc); [rewrite Eb; now rewrite <- app_assoc|].
        exists ps, z. split.
        * cbn [app splitter_split]. cbn [app] in E. rewrite E. rewrite last_or_snoc in Es. rewrite <- Es. f_equal.
          change (q :: p ++ [c]) with ((q :: p) ++ [c]). rewrite app_assoc, (rev_app_distr _ [c]). reflexivity.
        * rewrite <- app_assoc in Hc. exact Hc.
  Qed.
End InQuotes.

(** the pieces of a lexeme that doesn't separate make one token *)
Definition carried (x : lexeme) (ps : list str) (z : str) : Prop :=
  forall b tail, blank b -> toks (ps ++ (z ++ b) :: tail) = text x :: toks tail.

Lemma quoted_carried q body a ps z : is_quote q = true -> ~ In q body -> blank a ->
  (ps = [] /\ z = a ++ q :: body) \/
  (exists p1 ps', ps = (a ++ q :: p1) :: ps' /\ p1 ++ concat ps' ++ z = body /\ Forall (inner q) ps' /\ final z) ->
  carried (Quoted q body) ps (z ++ [q]).
Proof.
  intros Hq Hnq Ha H b tail Hb.
  assert (Hsq : is_space q = false).
  { apply quotes_spec in Hq. assert (F : forallb (fun c => negb (is_space c)) quotes = true) by reflexivity.
    rewrite forallb_forall in F. specialize (F q Hq). now apply negb_true_iff. }
  assert (U : unit_text (text (Quoted q body))).
  { split; [now apply firm_ends|]. right. now exists body. }
  destruct H as [[-> ->]|(p1 & ps' & -> & Ec & Hps & Hz)].
  - cbn [app]. rewrite <- toks_unit with (a := a) (b := b) by auto. cbn [text].
    repeat rewrite <- app_assoc. cbn [app]. repeat rewrite <- app_assoc. reflexivity.
  - assert (Hn1 : ~ In q p1) by (intro Hi; apply Hnq; rewrite <- Ec; apply in_or_app; now left).
    unfold toks. cbn [app]. cbn [fix_special_chars].
    assert (S1 : exists t d t', strip (a ++ q :: p1) = q :: t /\ rev (q :: t) = d :: t' /\
                 Ascii.eqb d q && Nat.ltb 1 (length (q :: t)) = false).
    { destruct (blank_or_firm p1) as [B|(x & m & y & -> & Hx & Hy & Hm)].
      - exists [], q, []. repeat split; [|now rewrite andb_false_r]. apply (strip_firm a [q] p1); auto. split; auto.
      - destruct (firm_last m Hm) as (c & t & d & t' & Em & Er & Hc & Hd).
        exists (x ++ m), d, (t' ++ rev (q :: x)). repeat split.
        + replace (a ++ q :: x ++ m ++ y) with (a ++ (q :: x ++ m) ++ y) by (cbn; now rewrite <- app_assoc).
          apply strip_firm; auto. apply (firm_app [q] m); auto. split; auto.
        + change (q :: x ++ m) with ((q :: x) ++ m). now rewrite rev_app_distr, Er.
        + replace (Ascii.eqb d q) with false; auto. symmetry. apply Ascii.eqb_neq. intros ->. apply Hn1.
          apply in_or_app. right. apply in_or_app. left. apply in_rev. rewrite Er. now left. }
    destruct S1 as (t & d & t' & -> & -> & E1). rewrite Hq. cbn [negb andb]. rewrite E1.
    rewrite fix_inner by auto. cbn [fix_special_chars].
    assert (S2 : exists c u, strip ((z ++ [q]) ++ b) = c :: u /\ (exists u', rev (c :: u) = q :: u') /\
                 (is_quote c = true -> u = [])).
    { destruct Hz as [B|(x & m & y & -> & Hx & Hy & Hm & Hst)].
      - exists q, []. repeat split; [|now exists []]. rewrite <- app_assoc. apply (strip_firm z [q] b); auto. split; auto.
      - destruct (firm_last m Hm) as (c & u & _ & _ & -> & _ & Hc & _).
        exists c, (u ++ y ++ [q]). repeat split.
        + replace (((x ++ (c :: u) ++ y) ++ [q]) ++ b) with (x ++ (c :: u ++ y ++ [q]) ++ b)
            by (repeat rewrite <- app_assoc; cbn [app]; repeat rewrite <- app_assoc; reflexivity).
          apply strip_firm; auto. rewrite app_assoc. now apply firm_ends.
        + rewrite app_assoc. change (c :: (u ++ y) ++ [q]) with ((c :: u ++ y) ++ [q]). rewrite rev_app_distr. cbn [rev app].
          eexists. reflexivity.
        + intro F. unfold starts_unquoted in Hst. rewrite F in Hst. discriminate. }
    destruct S2 as (c & u & -> & (u' & Eu) & Hcu). rewrite Eu.
    assert (E2 : is_quote c && Ascii.eqb q c && Nat.ltb 1 (length (c :: u)) = false).
    { destruct (is_quote c) eqn:Ec'; auto. rewrite Hcu by auto. now rewrite andb_false_r. }
    rewrite E2, Ascii.eqb_refl. cbn [map].
    replace (((a ++ q :: p1) ++ concat ps') ++ (z ++ [q]) ++ b) with (a ++ (q :: body ++ [q]) ++ b).
    + rewrite strip_firm by (solve [auto|now apply firm_ends]); reflexivity.
    + rewrite <- Ec. repeat rewrite <- app_assoc. cbn [app]. repeat rewrite <- app_assoc. reflexivity.
Qed.

(** a lexeme that doesn't separate *)
Lemma nonseparator_kept x l prev a : good_lexeme x -> ~ separates x -> rest_well_written x l -> blank a ->
  (match x with Plain _ => not_word_at_end prev = true | _ => True end) ->
  exists ps z, carried x ps z /\
  splitter_split 0 prev (rev a) (text x ++ rest_text l) =
  ps ++ splitter_split 0 (prev_char x) (rev z) (rest_text l).
Proof.
  intros Hx Hs Hl Ha Hp. destruct x as [w|w|w|w|q b]; try (now destruct Hs).
  - exists [], (a ++ w). split.
    + intros b tail Hb. cbn [app]. rewrite <- app_assoc. apply (toks_unit a w b); auto. now apply (lexeme_unit (Plain w)).
    + cbn [text app]. destruct Hx as (Hne & (Hsig & Hw) & _).
      rewrite (quiet_run w []); auto.
      * unfold prev_char. now rewrite last_or_app, rev_app_distr by auto.
      * eapply rest_nonword; [exact Hl|exact I].
  - destruct Hx as (Hq & Hk). apply quotes_spec in Hq.
    destruct (pieces_first q b Hq Hk (rest_text l) a b [] eq_refl) as (ps & z & Es & Hc).
    exists ps, (z ++ [q]). split.
    + apply (quoted_carried q b a); auto. exact (proj1 Hk).
    + cbn [text app splitter_split]. rewrite quote_uncut by auto. rewrite <- app_assoc. cbn [app].
      replace (q :: rev a) with (rev (a ++ [q])) by apply (rev_app_distr a [q]).
      etransitivity; [exact Es|]. f_equal. unfold prev_char. cbn [text].
      change (q :: b ++ [q]) with ((q :: b) ++ [q]). now rewrite last_or_snoc.
Qed.

Lemma follow_prev sp pl x prev : good_lexeme pl -> may_follow sp pl x -> prev = prev_char pl ->
  (match x with Word _ | Plain _ => True | _ => False end) -> sp = false -> not_word_at_end prev = true.
Proof.
  intros Hp Hf -> Hx ->. destruct pl as [w|w|w|w|q b]; destruct x as [v|v|v|v|q' b']; cbn [may_follow] in Hf;
    try contradiction; try discriminate; try (destruct Hf; discriminate); now apply ends_nonword.
Qed.

Lemma blank_nil : blank []. Proof. intros ? []. Qed.
Lemma blank_space : blank [" "%char]. Proof. intros c [<-|[]]. reflexivity. Qed.

Lemma split_lexemes l : forall pl, good_lexeme pl -> rest_well_written pl l ->
  (separates pl -> toks (splitter_split 0 (prev_char pl) [] (rest_text l)) = map (fun e => text (snd e)) l) /\
  (~ separates pl -> forall ps z, carried pl ps z ->
     toks (ps ++ splitter_split 0 (prev_char pl) (rev z) (rest_text l)) = text pl :: map (fun e => text (snd e)) l).
Proof.
  induction l as [|[sp x] l IH]; intros pl Hpl Hw; cbn [rest_well_written rest_text map snd] in *.
  - split; intros Hs.
    + cbn [splitter_split rev]. rewrite toks_blank; [reflexivity|apply blank_nil].
    + intros ps z Hc. cbn [splitter_split]. rewrite rev_involutive.
      rewrite <- (app_nil_r z). rewrite Hc; auto using blank_nil.
  - destruct Hw as (Hx & Hf & Hl). destruct (IH x Hx Hl) as [IH1 IH2].
    assert (Hsx : separates x \/ ~ separates x) by (destruct x; cbn; tauto).
    assert (Hpv : (match x with Word _ | Plain _ => True | _ => False end) ->
                  not_word_at_end (if sp then Some " "%char else prev_char pl) = true).
    { intro Hc. destruct sp; [reflexivity|]. exact (follow_prev false pl x _ Hpl Hf eq_refl Hc eq_refl). }
    assert (Hsp : forall cur, splitter_split 0 (prev_char pl) cur ((if sp then $" " else []) ++ text x ++ rest_text l) =
        splitter_split 0 (if sp then Some " "%char else prev_char pl) ((if sp then $" " else []) ++ cur) (text x ++ rest_text l)).
    { intro cur. destruct sp; cbn [app]; [apply space_quiet|reflexivity]. }
    assert (Hbl : blank (if sp then $" " else [])) by (destruct sp; [apply blank_space|apply blank_nil]).
    assert (Hrv : rev (if sp then $" " else []) = if sp then $" " else []) by (destruct sp; reflexivity).
    split.
    + intros Hs. rewrite Hsp. destruct Hsx as [Hsx|Hsx].
      * rewrite separator_cut; auto; [|destruct x; auto].
        rewrite toks_blank by (rewrite app_nil_r, Hrv; auto).
        rewrite <- (app_nil_r (text x)) at 1. rewrite (toks_unit [] (text x) []); auto using blank_nil, lexeme_unit.
        f_equal. auto.
      * rewrite app_nil_r, <- Hrv.
        destruct (nonseparator_kept x l (if sp then Some " "%char else prev_char pl) (if sp then $" " else []))
          as (ps & z & Hc & Es); auto; [destruct x; auto|].
        rewrite Es. now apply IH2.
    + intros Hs ps z Hc. rewrite Hsp. assert (Hsx' : separates x).
      { destruct pl; try (now destruct Hs); destruct x; cbn in Hf |- *; auto. }
      rewrite separator_cut; auto; [|destruct x; auto].
      rewrite rev_app_distr, rev_involutive, Hrv.
      rewrite Hc by auto.
      f_equal. rewrite <- (app_nil_r (text x)) at 1. rewrite (toks_unit [] (text x) []); auto using blank_nil, lexeme_unit.
      f_equal. auto.
Qed.

(** ** White space *)
Lemma squash_id s : forall b, single_spaced b s -> squash b s = s.
Proof.
  induction s as [|c s IH]; intros b H; auto. cbn [squash single_spaced] in *. destruct (is_space c).
  - destruct H as (-> & -> & H). now rewrite IH.
  - now rewrite IH.
Qed.

Definition ends_firm (s : str) : Prop := match rev s with d :: _ => is_space d = false | [] => True end.

Lemma ends_firm_tl c s : ends_firm (c :: s) -> ends_firm s.
Proof. unfold ends_firm. cbn [rev]. destruct (rev s) as [|d t]; auto. Qed.

Lemma single_spaced_app s : forall b rest, single_spaced b s -> s <> [] -> ends_firm s -> single_spaced false rest ->
  single_spaced b (s ++ rest).
Proof.
  induction s as [|c s IH]; intros b rest Hs Hne He Hr; [congruence|].
  cbn [single_spaced app] in *. destruct s as [|d s].
  - unfold ends_firm in He. cbn in He. rewrite He in *. exact Hr.
  - destruct (is_space c).
    + destruct Hs as (-> & -> & Hs). repeat split. apply IH; auto; [discriminate|now apply ends_firm_tl in He].
    + apply IH; auto; [discriminate|now apply ends_firm_tl in He].
Qed.

Lemma firm_ends_firm s : firm s -> ends_firm s.
Proof. unfold firm, ends_firm. destruct s, (rev _); tauto. Qed.

Lemma firm_spaced_any b s : firm s -> single_spaced false s -> single_spaced b s.
Proof. unfold firm. destruct s as [|c s]; [tauto|]. destruct (rev _); [tauto|]. intros [H _]. cbn. now rewrite H. Qed.

Lemma spaced_upper s : forall b, single_spaced b (upper s) -> single_spaced b s.
Proof.
  unfold upper. induction s as [|c s IH]; intros b H; auto. cbn [map single_spaced] in *. rewrite upper_c_space in H.
  destruct (is_space c); [|auto]. destruct H as (H1 & H2 & H3). repeat split; auto.
  apply (upper_c_not_letter c " "); auto.
Qed.

Fixpoint spaced_b (after : bool) (s : str) : bool :=
  match s with
  | [] => true
  | c :: s' => if is_space c then Ascii.eqb c " " && negb after && spaced_b true s' else spaced_b false s'
  end.
Lemma spaced_b_spec s : forall b, spaced_b b s = true -> single_spaced b s.
Proof.
  induction s as [|c s IH]; intros b H; [exact I|]. cbn [spaced_b single_spaced] in *. destruct (is_space c); auto.
  apply andb_true_iff in H as [H H3]. apply andb_true_iff in H as [H1 H2]. apply Ascii.eqb_eq in H1.
  apply negb_true_iff in H2. auto.
Qed.

Lemma nospace_spaced s : (forall c, In c s -> is_space c = false) -> forall b, single_spaced b s.
Proof.
  induction s as [|c s IH]; intros H b; [exact I|]. cbn. rewrite (H c) by now left. apply IH. intros d Hd. apply H. now right.
Qed.

Lemma words_spaced : forall u, In u separating_words -> single_spaced false u.
Proof.
  intros u Hu. apply spaced_b_spec. revert u Hu. apply forallb_forall. vm_compute. reflexivity.
Qed.
Lemma signs_spaced : forall u, In u (brackets ++ comparison_signs) -> single_spaced false u.
Proof.
  intros u Hu. apply spaced_b_spec. revert u Hu. apply forallb_forall. vm_compute. reflexivity.
Qed.

Lemma lexeme_spaced x : good_lexeme x -> single_spaced false (text x).
Proof.
  destruct x as [w|w|w|w|q b]; intro H.
  - apply good_word in H. apply spaced_upper. now apply words_spaced.
  - apply signs_spaced. apply in_or_app. now left.
  - apply signs_spaced. apply in_or_app. now right.
  - destruct H as (_ & _ & Hc). apply nospace_spaced. intros c Hin.
    destruct (Hc c Hin) as [Hw|[-> | ->]]; [|reflexivity..]. apply word_char_spec in Hw. now apply word_not_space.
  - destruct H as (Hq & _ & Hs & _).
    assert (Hsq : is_space q = false).
    { assert (F : forallb (fun c => negb (is_space c)) [""""%char; "'"%char; "`"%char] = true) by reflexivity.
      rewrite forallb_forall in F. specialize (F q Hq). now apply negb_true_iff. }
    cbn [text single_spaced]. rewrite Hsq.
    assert (G : forall bb s, single_spaced bb s -> single_spaced bb (s ++ [q])).
    { intros bb s. revert bb. induction s as [|c s IH]; intros bb Hb; cbn [app single_spaced] in *.
      - rewrite Hsq. exact I.
      - destruct (is_space c); [|now apply IH]. destruct Hb as (? & ? & Hb). repeat split; auto. }
    now apply G.
Qed.

Lemma rest_spaced l : forall pl, rest_well_written pl l -> single_spaced false (rest_text l).
Proof.
  induction l as [|[sp x] l IH]; intros pl H; [exact I|]. cbn [rest_well_written rest_text] in *.
  destruct H as (Hx & _ & Hl). pose proof (lexeme_unit x Hx) as [Hf _].
  assert (G : forall b, single_spaced b (text x ++ rest_text l)).
  { intro b. apply single_spaced_app; [apply firm_spaced_any; auto using lexeme_spaced|now apply text_nonempty|
      now apply firm_ends_firm|eauto]. }
  destruct sp; cbn [app single_spaced]; auto. change (is_space " ") with true. cbn. repeat split; auto.
Qed.

Lemma rest_firm l : forall pl, rest_well_written pl l -> l = [] \/ exists m b, rest_text l = m ++ b /\ firm b.
Proof.
  induction l as [|[sp x] l IH]; intros pl H; [now left|]. right. cbn [rest_well_written rest_text] in *.
  destruct H as (Hx & _ & Hl). pose proof (lexeme_unit x Hx) as [Hf _].
  destruct (IH x Hl) as [->|(m & b & E & Hb)].
  - exists (if sp then $" " else []), (text x). cbn [rest_text]. now rewrite app_nil_r.
  - exists ((if sp then $" " else []) ++ text x ++ m), b. rewrite E, <- !app_assoc. auto.
Qed.

Lemma whole_clean first l : well_written first l -> clean_statement (whole_text first l) = whole_text first l.
Proof.
  intros [Hf Hl]. pose proof (lexeme_unit first Hf) as [Hfirm _]. unfold clean_statement, whole_text.
  rewrite squash_id.
  - apply firm_strip. destruct (rest_firm l first Hl) as [->|(m & b & E & Hb)].
    + cbn [rest_text]. now rewrite app_nil_r.
    + rewrite E. now apply firm_app.
  - apply single_spaced_app; [now apply lexeme_spaced|now apply text_nonempty|now apply firm_ends_firm|].
    now apply (rest_spaced l first).
Qed.

Lemma tokens_of_text float_of date_of first l : well_written first l ->
  tokenize float_of date_of (whole_text first l) =
  map (case_correction float_of date_of) (map text (first :: map snd l)).
Proof.
  intro H. unfold tokenize. rewrite whole_clean by auto. destruct H as [Hf Hl]. f_equal.
  change (toks (splitter_split 0 None [] (whole_text first l)) = map text (first :: map snd l)).
  unfold whole_text. cbn [map]. rewrite map_map. destruct (split_lexemes l first Hf Hl) as [H1 H2].
  assert (Hs : separates first \/ ~ separates first) by (destruct first; cbn; tauto). destruct Hs as [Hs|Hs].
  - rewrite separator_cut; auto; [|destruct first; auto]. cbn [rev]. rewrite toks_blank by apply blank_nil.
    rewrite <- (app_nil_r (text first)) at 1. rewrite (toks_unit [] (text first) []); auto using blank_nil, lexeme_unit.
    f_equal. auto.
  - destruct (nonseparator_kept first l None []) as (ps & z & Hc & Es); auto using blank_nil; [destruct first; auto|].
    cbn [rev] in Es. rewrite Es. now apply H2.
Qed.
