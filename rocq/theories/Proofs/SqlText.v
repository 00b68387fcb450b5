(** Proofs: comments, white space and the names of datasets in SQL statements. *)
From Coq Require Import Lia.
From Verif.Base Require Import Py Value PyFacts.
From Verif.Model Require Import Tokens Sql.
From Verif.Spec Require Import Tokens Evaluator Sql.
From Verif.Proofs Require Import Tokens SqlParse.

(** ** Comments *)
Lemma without_tl part c s : without part (c :: s) -> without part s.
Proof. intros H a b ->. now apply (H (c :: a) b). Qed.
Lemma without_head part s : without part s -> forall b, s <> part ++ b.
Proof. intros H b ->. now apply (H [] b). Qed.

Lemma skip_comment n s : remove_from (InComment (S n)) s = remove_from InText (skipn (S n) s).
Proof.
  revert s. induction n as [|n IH]; intros [|c s]; cbn [remove_from skipn]; auto.
  rewrite IH. reflexivity.
Qed.
Lemma skip_all n s : remove_from (InComment n) s = remove_from InText (skipn n s).
Proof. destruct n; [destruct s; reflexivity|apply skip_comment]. Qed.
Lemma next_skip n s : remove_from (match n with O => InText | S _ => InComment n end) s = remove_from InText (skipn n s).
Proof. destruct n; [reflexivity|apply skip_comment]. Qed.

Lemma comment_end_at s R : without $"*/" s -> comment_end (s ++ $"*/" ++ R) = Some (length s).
Proof.
  induction s as [|c s IH]; intros H; [reflexivity|].
  pose proof (IH (without_tl _ _ _ H)) as E. cbn [app length]. cbn [comment_end].
  destruct (s ++ $"*/" ++ R) as [|d t] eqn:Es; [destruct s; discriminate|]. rewrite E. cbn [option_map].
  destruct (Ascii.eqb c "*" && Ascii.eqb d "/") eqn:B; auto. exfalso. apply andb_prop in B as [B1 B2].
  apply Ascii.eqb_eq in B1, B2. subst c d. destruct s as [|e s]; [discriminate Es|]. injection Es as -> _.
  exact (without_head _ _ H s eq_refl).
Qed.
Lemma line_end_at s R : (forall c, In c s -> c <> "010"%char /\ c <> "013"%char) -> (R = [] \/ exists R', R = "010"%char :: R') ->
  line_end (s ++ R) = Some (length s).
Proof.
  intros H HR. induction s as [|c s IH]; [destruct HR as [->|(R' & ->)]; reflexivity|]. cbn [app line_end length].
  destruct (H c (or_introl eq_refl)) as [H1 H2]. apply Ascii.eqb_neq in H1, H2. rewrite H1, H2, IH; auto.
  intros d Hd. apply H. now right.
Qed.

Lemma quoted_kept q s R : ~ In q s -> remove_from (InQuotes q) (s ++ q :: R) = s ++ q :: remove_from InText R.
Proof.
  induction s as [|c s IH]; intros H; cbn [app remove_from]; [now rewrite Ascii.eqb_refl|].
  destruct (Ascii.eqb c q) eqn:E; [apply Ascii.eqb_eq in E; subst; destruct H; now left|]. rewrite IH; auto. intros G. apply H. now right.
Qed.

Lemma plain_kept s R : (forall c, In c s -> c <> "'"%char /\ c <> """"%char) -> without $"--" s -> without $"/*" s ->
  match R with [] => True | d :: _ => d <> "*"%char /\ (d = "-"%char -> forall s', s <> s' ++ $"-") end ->
  remove_from InText (s ++ R) = s ++ remove_from InText R.
Proof.
  induction s as [|c s IH]; intros Hq H1 H2 HR; auto. cbn [app]. cbn [remove_from].
  destruct (Hq c (or_introl eq_refl)) as [Q1 Q2]. apply Ascii.eqb_neq in Q1, Q2. rewrite Q1, Q2. cbn [orb andb].
  assert (C : comment_at (c :: s ++ R) = None).
  { unfold comment_at. destruct (s ++ R) as [|d t] eqn:E; auto.
    destruct (Ascii.eqb c "/" && Ascii.eqb d "*") eqn:B1.
    { exfalso. apply andb_prop in B1 as [B1 B2]. apply Ascii.eqb_eq in B1, B2. subst c d. destruct s as [|e s].
      - destruct R as [|r R]; [discriminate|]. injection E as -> _. now destruct HR.
      - injection E as -> _. exact (without_head _ _ H2 s eq_refl). }
    destruct (Ascii.eqb c "-" && Ascii.eqb d "-") eqn:B2; auto.
    exfalso. apply andb_prop in B2 as [B2 B3]. apply Ascii.eqb_eq in B2, B3. subst c d. destruct s as [|e s].
    - destruct R as [|r R]; [discriminate|]. injection E as -> _. destruct HR as [_ HR]. exact (HR eq_refl [] eq_refl).
    - injection E as -> _. exact (without_head _ _ H1 s eq_refl). }
  rewrite C. rewrite IH; auto.
  - intros d Hd. apply Hq. now right.
  - now apply without_tl in H1.
  - now apply without_tl in H2.
  - destruct R as [|d R]; auto. destruct HR as [R1 R2]. split; auto. intros Hd s' ->. now apply (R2 Hd (c :: s')).
Qed.

Lemma remove_comments_of ps : good_pieces ps -> remove_comments (text_of ps) = text_of (without_comments ps).
Proof.
  unfold remove_comments. induction 1 as [|p ps Hp Hb Hg IH]; [reflexivity|].
  change (text_of (p :: ps)) with (piece_text p ++ text_of ps).
  assert (K : text_of (without_comments (p :: ps)) = (if is_comment p then [] else piece_text p) ++ text_of (without_comments ps)).
  { unfold without_comments. cbn [filter]. destruct (is_comment p); reflexivity. }
  rewrite K, <- IH. clear K IH. destruct p as [s|q s|s|s]; cbn [piece_text is_comment].
  - destruct Hp as (Hq & H1 & H2). apply plain_kept; auto.
    destruct ps as [|p ps]; [exact I|]. cbn in Hb. destruct p as [s'|q' s'|s'|s']; [contradiction| | |]; cbn.
    + assert (G : In q' ["'"%char; """"%char]) by (inversion Hg as [|? ? Gp]; subst; apply Gp). cbn in G.
      split; [intros ->; destruct G as [G|[G|[]]]; discriminate|intros ->; destruct G as [G|[G|[]]]; discriminate].
    + split; [discriminate|intros; discriminate].
    + split; [discriminate|intros _; exact Hb].
  - destruct Hp as [Hq Hs]. rewrite <- !app_assoc. cbn [app]. cbn [remove_from].
    assert (E : (Ascii.eqb q """" || Ascii.eqb q "'") && mem Ascii.eqb q (s ++ q :: text_of ps) = true).
    { apply andb_true_intro. split.
      - destruct Hq as [<-|[<-|[]]]; reflexivity.
      - unfold mem. apply existsb_exists. exists q. split; [apply in_or_app; right; now left|apply Ascii.eqb_refl]. }
    rewrite E. now rewrite quoted_kept.
  - rewrite <- !app_assoc. cbn [list_ascii_of_string app]. cbn [remove_from].
    change (Ascii.eqb "/" """" || Ascii.eqb "/" "'") with false. cbn [andb].
    unfold comment_at. change (Ascii.eqb "/" "/" && Ascii.eqb "*" "*") with true. cbv iota.
    change ("*"%char :: "/"%char :: text_of ps) with ($"*/" ++ text_of ps). rewrite (comment_end_at s (text_of ps) Hp). cbn [option_map].
    replace (length s + 4) with (S (S (length (s ++ $"*/")))) by (rewrite app_length; cbn; lia).
    cbv beta iota. rewrite next_skip.
    rewrite app_assoc.
    rewrite skipn_app, skipn_all, Nat.sub_diag. reflexivity.
  - assert (L : text_of ps = [] \/ exists R', text_of ps = "010"%char :: R').
    { destruct ps as [|p ps]; [now left|]. cbn in Hb. right. destruct p as [[|c s']|q' s'|s'|s']; try contradiction. subst c. cbn. eauto. }
    cbn [list_ascii_of_string app]. cbn [remove_from].
    change (Ascii.eqb "-" """" || Ascii.eqb "-" "'") with false. cbn [andb].
    unfold comment_at. change (Ascii.eqb "-" "/" && Ascii.eqb "-" "*") with false. change (Ascii.eqb "-" "-" && Ascii.eqb "-" "-") with true. cbv iota.
    rewrite (line_end_at s _ Hp L). cbn [option_map].
    replace (length s + 2) with (S (S (length s))) by lia. cbv beta iota. rewrite next_skip.
    rewrite skipn_app, skipn_all, Nat.sub_diag. reflexivity.
Qed.
Lemma without_shorter ps : length (text_of (without_comments ps)) <= length (text_of ps).
Proof.
  induction ps as [|p ps IH]; auto. change (text_of (p :: ps)) with (piece_text p ++ text_of ps). rewrite app_length.
  unfold without_comments in *. cbn [filter]. destruct (negb (is_comment p)); [|lia].
  change (text_of (p :: ?x)) with (piece_text p ++ text_of x). cbn [text_of map concat] in *. unfold text_of in *. cbn [map concat]. rewrite app_length. lia.
Qed.

(** ** White space *)
Lemma squash_blanks_true a s : blanks a -> squash true (a ++ s) = squash true s.
Proof.
  induction a as [|c a IH]; intros H; auto. cbn [app squash]. rewrite (H c) by now left. apply IH. intros d Hd. apply H. now right.
Qed.
Lemma squash_blanks_false a s : blanks a -> a <> [] -> squash false (a ++ s) = " "%char :: squash true s.
Proof.
  destruct a as [|c a]; intros H Hn; [congruence|]. cbn [app squash]. rewrite (H c) by now left. f_equal. apply squash_blanks_true.
  intros d Hd. apply H. now right.
Qed.
Lemma squash_word w : forall b s, (forall c, In c w -> is_space c = false) -> w <> [] -> squash b (w ++ s) = w ++ squash false s.
Proof.
  induction w as [|c w IH]; intros b s H Hn; [congruence|]. cbn [app squash]. rewrite (H c) by now left. f_equal.
  destruct w as [|d w]; auto. apply IH; [|discriminate]. intros e He. apply H. now right.
Qed.
Lemma squash_end b a : blanks a -> blanks (squash b a).
Proof.
  revert b. induction a as [|c a IH]; intros b H; [intros ? []|]. cbn [squash]. rewrite (H c) by now left.
  assert (blanks (squash true a)) by (apply IH; intros d Hd; apply H; now right).
  destruct b; auto. intros d [<-|Hd]; auto.
Qed.

Lemma spread_squash ws s : spread ws s -> exists e, blanks e /\ squash true s = join $" " ws ++ e.
Proof.
  induction 1 as [a Ha|w a b Hn Hw Ha Hb|w a b ws s Hn Hw Ha Hb Hbn Hws Hs (e & He & IH)].
  - exists (squash true a). split; [now apply squash_end|reflexivity].
  - exists (squash false b). split; [now apply squash_end|]. rewrite squash_blanks_true, squash_word by auto. reflexivity.
  - exists e. split; auto. rewrite squash_blanks_true, squash_word, squash_blanks_false, IH by auto.
    rewrite join_cons by auto. rewrite <- !app_assoc. reflexivity.
Qed.
Lemma squash_first s : exists a, blanks a /\ squash false s = a ++ squash true s.
Proof.
  destruct s as [|c s]; [exists []; split; auto; intros ? []|]. cbn [squash]. destruct (is_space c).
  - exists $" ". split; auto. intros d [<-|[]]. reflexivity.
  - exists []. split; auto. intros ? [].
Qed.
Lemma spread_words ws s : spread ws s -> forall w, In w ws -> w <> [] /\ forall c, In c w -> is_space c = false.
Proof.
  induction 1; intros u Hu; [destruct Hu|destruct Hu as [<-|[]]; auto|]. destruct Hu as [<-|Hu]; auto.
Qed.
Lemma join_firm ws : (forall w, In w ws -> w <> [] /\ forall c, In c w -> is_space c = false) -> strip (join $" " ws) = join $" " ws.
Proof.
  intros H. destruct ws as [|w ws]; [reflexivity|].
  assert (F : firm (join $" " (w :: ws))).
  { revert w H. induction ws as [|v ws IH]; intros w H.
    - destruct (H w (or_introl eq_refl)) as [Hn Hs]. cbn [join]. unfold firm. destruct w as [|c w]; [congruence|].
      destruct (rev (c :: w)) as [|d t] eqn:E; [apply (f_equal (@rev _)) in E; rewrite rev_involutive in E; discriminate|].
      split; apply Hs; [now left|]. apply in_rev. rewrite E. now left.
    - rewrite join_cons by discriminate. specialize (IH v (fun u Hu => H u (or_intror Hu))).
      destruct (H w (or_introl eq_refl)) as [Hn Hs]. unfold firm in *. destruct w as [|c w]; [congruence|]. cbn [app].
      destruct (join $" " (v :: ws)) as [|x y]; [contradiction|]. destruct (rev (x :: y)) as [|d t] eqn:E; [contradiction|].
      destruct IH as [_ IH]. change (c :: w ++ $" " ++ x :: y) with ((c :: w) ++ $" " ++ x :: y).
      rewrite !rev_app_distr, E. cbn [app]. split; auto. apply Hs. now left. }
  rewrite <- (app_nil_r (join _ _)) at 1. apply (strip_firm [] _ []); auto; intros ? [].
Qed.
Lemma clean_spread ws s : spread ws s -> clean_statement s = join $" " ws.
Proof.
  intros H. unfold clean_statement. destruct (squash_first s) as (a & Ha & E). destruct (spread_squash ws s H) as (e & He & E').
  rewrite E, E', strip_sides by auto. apply join_firm. now apply spread_words with s.
Qed.
Lemma spread_shorter ws s : spread ws s -> length (join $" " ws) <= length s.
Proof.
  induction 1.
  - cbn. lia.
  - cbn [join]. rewrite !app_length. lia.
  - rewrite join_cons by auto. rewrite !app_length. change (length $" ") with 1. assert (1 <= length b) by (destruct b; [congruence|cbn; lia]). lia.
Qed.

(** ** The names of datasets *)
Lemma contains_spec part s : part <> [] -> contains part s = true <-> ~ without part s.
Proof.
  intros Hn. unfold contains. rewrite existsb_exists. split.
  - intros (i & Hi & E) W. apply str_eqb_eq in E. apply (W (firstn i s) (skipn (length part) (skipn i s))).
    rewrite <- (firstn_skipn i s) at 1. f_equal. rewrite <- E at 1. symmetry. apply firstn_skipn.
  - intros W. 
    assert (D : forall s : str, (exists a b, s = a ++ part ++ b) \/ without part s).
    { clear -Hn. induction s as [|c s IH].
      - right. intros a b E. destruct a; [|discriminate]. destruct part; [congruence|discriminate].
      - destruct IH as [(a & b & ->)|IH]; [left; now exists (c :: a), b|].
        destruct (list_eq_dec Ascii.ascii_dec (firstn (length part) (c :: s)) part) as [E|E].
        + left. exists [], (skipn (length part) (c :: s)). cbn [app]. rewrite <- E at 1. symmetry. apply firstn_skipn.
        + right. intros [|d a] b G.
          * apply E. rewrite G. cbn [app]. rewrite firstn_app, Nat.sub_diag, firstn_all. cbn. apply app_nil_r.
          * injection G as -> G. exact (IH a b G). }
    destruct (D s) as [(a & b & ->)|D']; [|contradiction]. exists (length a). split.
    + apply in_seq. rewrite app_length. lia.
    + apply str_eqb_eq. rewrite skipn_app, skipn_all, Nat.sub_diag. cbn [skipn app].
      rewrite firstn_app, Nat.sub_diag, firstn_all. cbn. apply app_nil_r.
Qed.
Lemma contains_false part s : part <> [] -> contains part s = false <-> without part s.
Proof.
  intros Hn. pose proof (contains_spec part s Hn) as H. destruct (contains part s); split; intros G; auto; try discriminate.
  - exfalso. now apply H.
  - intros a b E. assert (false = true); [|discriminate]. apply H. intros W. exact (W a b E).
Qed.

Lemma validate_spec d : validate_dataset d = Ok tt <-> safe_name d.
Proof.
  unfold validate_dataset, safe_name. destruct d as [|c d].
  - split; [discriminate|intros ((c & d' & E & _) & _); discriminate].
  - destruct (is_alpha c) eqn:Ec; cbn [negb].
    2:{ split; [discriminate|]. intros ((c' & d' & E & A) & _). injection E as <- <-. congruence. }
    destruct (contains $".." (c :: d)) eqn:C1; cbn [orb].
    { split; [discriminate|]. intros (_ & _ & W & _). apply contains_false in W; [congruence|discriminate]. }
    destruct (contains $"//" (c :: d)) eqn:C2; cbn [orb].
    { split; [discriminate|]. intros (_ & _ & _ & W & _). apply contains_false in W; [congruence|discriminate]. }
    destruct (contains $"--" (c :: d)) eqn:C3.
    { split; [discriminate|]. intros (_ & _ & _ & _ & W). apply contains_false in W; [congruence|discriminate]. }
    assert (M : forall x, mem Ascii.eqb x $"./-_" = true <-> In x $"./-_").
    { intros x. unfold mem. rewrite existsb_exists. split; [intros (y & Hy & E); apply Ascii.eqb_eq in E; now subst|].
      intros Hx. exists x. split; auto. apply Ascii.eqb_refl. }
    destruct (forallb (fun c => is_alpha c || is_digit c || mem Ascii.eqb c $"./-_") (c :: d)) eqn:F.
    + split; auto. intros _. split; [eauto|]. split.
      * intros x Hx. rewrite forallb_forall in F. specialize (F x Hx). rewrite !orb_true_iff, M in F. tauto.
      * repeat split; apply contains_false; auto; discriminate.
    + split; [discriminate|]. intros (_ & W & _). assert (false = true); [|discriminate]. rewrite <- F.
      apply forallb_forall. intros x Hx. rewrite !orb_true_iff, M. specialize (W x Hx). tauto.
Qed.

Lemma comments_spaces float_of date_of ps ps' ws fuel : good_pieces ps -> good_pieces ps' ->
  spread ws (text_of (without_comments ps)) -> spread ws (text_of (without_comments ps')) ->
  parse_statement float_of date_of fuel (text_of ps) = parse_statement float_of date_of fuel (text_of ps').
Proof.
  intros G G' S S'. unfold parse_statement. rewrite (remove_comments_of _ G), (remove_comments_of _ G').
  now rewrite (clean_spread _ _ S), (clean_spread _ _ S').
Qed.
