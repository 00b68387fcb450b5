(** Proofs: SQL statements. *)
From Coq Require Import Lia.
From Verif.Base Require Import Py Value PyFacts.
From Verif.Model Require Import Dates Tokens Splitter Evaluator Sql.
From Verif.Spec Require Import Tokens Evaluator Sql.
From Verif.Proofs Require Import Tokens Labels Splitter.
From Verif.Proofs Require Evaluator.

(** ** The tokens of a statement *)
Notation ne l := (filter (fun p : str => negb (str_eqb p [])) l).
Notation scut := (cut sql_splits).
Ltac cases_of H := vm_compute in H; repeat match type of H with _ \/ _ => destruct H as [H|H] | False => destruct H end.
Definition sgn (c : ascii) : Prop := In c $"(), ".

Lemma splits_words : forall k, In (k, true) sql_splits -> In k SQL_PARTS.
Proof. intros k H. cases_of H; try discriminate H; injection H as <-; vm_compute; tauto. Qed.
Lemma parts_start : forall k, In k SQL_PARTS -> starts_alpha k = true /\ In (run k) sql_words.
Proof. intros k H. cases_of H; subst k; vm_compute; tauto. Qed.
Lemma sp_words : forall k, In (k, true) sql_splits -> starts_alpha k = true /\ In (run k) sql_words.
Proof. intros k H. now apply parts_start, splits_words. Qed.
Lemma sp_signs : forall k, In (k, false) sql_splits -> exists c, k = [c] /\ sgn c.
Proof.
  intros k H. cases_of H; try discriminate H; injection H as <-;
    eexists; (split; [reflexivity|vm_compute; tauto]).
Qed.
Lemma sp_signs' : forall k, In (k, false) sql_splits -> exists c k', k = c :: k' /\ sgn c.
Proof. intros k H. destruct (sp_signs k H) as (c & -> & Hc). eauto. Qed.
Lemma sgn_alpha c : sgn c -> is_alpha c = false.
Proof. intros H. cases_of H; subst c; reflexivity. Qed.
Lemma sgn_word c : sgn c -> is_word c = false.
Proof. intros H. cases_of H; subst c; reflexivity. Qed.
Lemma sql_nonempty : ~ In [] sql_words.
Proof. intros H. cases_of H; discriminate H. Qed.
Lemma sgn_dec c : sgn c \/ ~ sgn c.
Proof.
  destruct (mem Ascii.eqb c $"(), ") eqn:E.
  - left. unfold mem in E. apply existsb_exists in E. destruct E as (d & Hd & E). apply Ascii.eqb_eq in E. now subst.
  - right. intros H. unfold mem in E. assert (existsb (Ascii.eqb c) $"(), " = true); [|congruence].
    apply existsb_exists. exists c. split; [exact H|apply Ascii.eqb_refl].
Qed.

Lemma part_sgn prev c s : sgn c -> part_at sql_splits prev (c :: s) = Some 1.
Proof.
  intros H. unfold part_at. destruct (find _ _) as [[k w]|] eqn:E.
  - apply find_some in E as [Hin Hm]. destruct w.
    + destruct (sp_words _ Hin) as [Ha Hr]. destruct (word_match _ _ _ Hm Ha) as [_ Hrun].
      cbn [run] in Hrun. rewrite (sgn_word c H) in Hrun. rewrite <- Hrun in Hr. destruct (sql_nonempty Hr).
    + destruct (sp_signs _ Hin) as (d & -> & _). reflexivity.
  - exfalso. assert (In ([c], false) sql_splits) as G.
    { cases_of H; subst c; vm_compute; tauto. }
    eapply find_none in E; [|exact G]. cases_of H; subst c; discriminate E.
Qed.

Lemma is_part_In t : is_part t = true <-> In (upper t) SQL_PARTS.
Proof. unfold is_part. apply str_mem_In. Qed.

Lemma parts_run : forall k k', In k SQL_PARTS -> In k' SQL_PARTS -> run k = run k' -> k = k'.
Proof.
  assert (E : forallb (fun k => forallb (fun k' => negb (str_eqb (run k) (run k')) || str_eqb k k') SQL_PARTS) SQL_PARTS = true)
    by (vm_compute; reflexivity).
  intros k k' H H' R. rewrite forallb_forall in E. specialize (E k H). rewrite forallb_forall in E. specialize (E k' H').
  rewrite R, str_eqb_refl in E. cbn in E. now apply str_eqb_eq.
Qed.

Lemma upper_start rest : nonword_start rest -> nonword_start (upper rest).
Proof. destruct rest; cbn; auto. now rewrite upper_c_word. Qed.

Lemma part_key prev k rest : is_part k = true -> not_word_at_end prev = true -> nonword_start rest ->
  part_at sql_splits prev (k ++ rest) = Some (length k).
Proof.
  intros Hk Hp Hr. apply is_part_In in Hk. unfold part_at. destruct (find _ _) as [[k' w]|] eqn:E.
  - apply find_some in E as [Hin Hm]. cbn [option_map fst]. f_equal. destruct w.
    + destruct (sp_words _ Hin) as [Ha _]. destruct (word_match _ _ _ Hm Ha) as [_ Hrun].
      rewrite <- run_upper, upper_app, run_app in Hrun by now apply upper_start.
      apply parts_run in Hrun; auto; [|now apply splits_words]. rewrite <- Hrun. apply upper_length.
    + destruct (sp_signs _ Hin) as (c & -> & Hc). exfalso.
      destruct (parts_start _ Hk) as [Ha _]. destruct k as [|d k]; [discriminate Ha|]. cbn in Ha.
      unfold keyword_matches in Hm. cbn [fst snd app length firstn upper map negb orb] in Hm. rewrite andb_true_r in Hm.
      apply str_eqb_eq in Hm. injection Hm as Hm. rewrite Hm in Ha. rewrite sgn_alpha in Ha; auto. discriminate.
  - exfalso. eapply find_none in E; [|instantiate (1 := (upper k, true))].
    + rewrite self_match in E; auto. discriminate.
    + unfold sql_splits. rewrite !in_app_iff. right. left. exact (in_map (fun w => (w, true)) _ _ Hk).
Qed.

Lemma part_chars k c : In (upper k) SQL_PARTS -> In c k -> is_word c = true \/ c = " "%char.
Proof.
  intros Hk Hc.
  assert (E : forallb (fun k => forallb (fun c => is_word c || Ascii.eqb c " ") k) SQL_PARTS = true) by (vm_compute; reflexivity).
  rewrite forallb_forall in E. specialize (E _ Hk). rewrite forallb_forall in E.
  specialize (E (upper_c c) (in_map _ _ _ Hc)). rewrite upper_c_word in E. apply orb_true_iff in E as [E|E]; auto. right.
  apply Ascii.eqb_eq in E. now apply upper_c_not_letter in E.
Qed.
Lemma part_word k : In (upper k) SQL_PARTS -> (forall c, In c k -> ~ sgn c) -> (forall c, In c k -> is_word c = true) /\ In (upper k) sql_words.
Proof.
  intros Hk Hs.
  assert (W : forall c, In c k -> is_word c = true).
  { intros c Hc. destruct (part_chars k c Hk Hc) as [H| ->]; auto. destruct (Hs _ Hc). vm_compute. tauto. }
  split; auto. destruct (parts_start _ Hk) as [_ H]. rewrite run_upper in H.
  rewrite <- (app_nil_r k), run_all in H; auto; exact I.
Qed.

Lemma run_end u rest : u <> [] -> not_word_at_end (last_or None u) = true -> run (u ++ rest) = run u.
Proof.
  induction u as [|c u IH]; [congruence|]. intros _ H. cbn [app run]. destruct (is_word c) eqn:E; auto.
  destruct u as [|d u]; [cbn in H; rewrite E in H; discriminate|]. f_equal. apply IH; [discriminate|].
  rewrite last_or_cons in H. now rewrite <- (last_or_app (Some c)) by discriminate.
Qed.

Definition begins_part (p : option ascii) (rest : str) : Prop := rest = [] \/ exists n, part_at sql_splits p rest = Some n.

Lemma flush p cur rest : begins_part p rest -> ne (scut 0 p cur rest) = ne [rev cur] ++ ne (scut 0 p [] rest).
Proof.
  intros [->|(n & E)].
  - cbn [cut]. cbn [rev app]. cbn [filter]. now rewrite app_nil_r.
  - destruct rest as [|c rest]; [cbn [cut rev]; cbn [filter]; now rewrite app_nil_r|]. cbn [cut]. rewrite E.
    cbn [filter rev]. destruct (negb (str_eqb (rev cur) [])); reflexivity.
Qed.

Lemma ne_one s : ne [s] = match s with [] => [] | _ => [s] end.
Proof. destruct s; reflexivity. Qed.

Lemma ne_cons x l : ne (x :: l) = ne [x] ++ ne l.
Proof. cbn [filter]. destruct (negb (str_eqb x [])); reflexivity. Qed.
Lemma ne_full x l : x <> [] -> ne (x :: l) = x :: ne l.
Proof. intros H. rewrite ne_cons, ne_one. destruct x; [congruence|reflexivity]. Qed.

Lemma tame cur acc l : (forall c, In c cur -> ~ sgn c) -> (forallb is_word cur = true -> acc = cur) ->
  (forall w, In w (rev acc :: l) -> ~ In (upper w) sql_words) -> is_part (rev cur) = false.
Proof.
  intros Hs Ha Hw. destruct (is_part (rev cur)) eqn:E; auto. exfalso. apply is_part_In in E.
  destruct (part_word (rev cur) E) as [W Hin].
  - intros c Hc. apply Hs. now apply in_rev.
  - rewrite Ha in Hw; [eapply Hw; eauto; now left|]. apply forallb_forall. intros c Hc. apply W. now apply in_rev in Hc.
Qed.

Lemma body_cut u : forall acc prev cur rest,
  (not_word_at_end prev = true /\ acc = [] \/ not_word_at_end prev = false) ->
  (forall c, In c cur -> ~ sgn c) -> (forallb is_word cur = true -> acc = cur) ->
  nonword_start rest \/ not_word_at_end (last_or prev u) = true -> begins_part (last_or prev u) rest ->
  (forall w, In w (words_from acc u) -> ~ In (upper w) sql_words) ->
  exists ps, ne (scut 0 prev cur (u ++ rest)) = ps ++ ne (scut 0 (last_or prev u) [] rest) /\
    concat ps = rev cur ++ u /\ Forall (fun p => is_part p = false) ps.
Proof.
  induction u as [|c u IH]; intros acc prev cur rest Hp Hs Ha Hr Hb Hw.
  - cbn [app]. cbn in Hb. unfold last_or in *. cbn [rev] in *. exists (ne [rev cur]). rewrite flush by auto. split; auto.
    rewrite ne_one. rewrite app_nil_r. destruct (rev cur) eqn:E; [split; auto|]. split; [cbn; now rewrite app_nil_r|].
    constructor; auto. rewrite <- E. eapply tame; eauto.
  - rewrite last_or_cons in *. cbn [app cut]. destruct (sgn_dec c) as [Hc|Hc].
    + rewrite part_sgn by auto. cbn [firstn Nat.pred]. pose proof (sgn_word c Hc) as Ec.
      cbn [words_from] in Hw. change (is_alpha c || is_digit c || Ascii.eqb c "_") with (is_word c) in Hw. rewrite Ec in Hw.
      destruct (IH [] (Some c) [] rest) as (ps & E1 & E2 & E3); auto.
      * left. split; auto. cbn. now rewrite Ec.
      * intros w H. apply Hw. now right.
      * exists (ne [rev cur] ++ [c] :: ps). rewrite ne_cons, (ne_full [c]), E1 by discriminate. cbn [rev app] in E2.
        split; [now rewrite <- app_assoc|]. split.
        -- rewrite concat_app. cbn [concat]. rewrite E2. rewrite ne_one. destruct (rev cur); [reflexivity|]. cbn [concat]. now rewrite app_nil_r.
        -- apply Forall_app. split.
           ++ rewrite ne_one. destruct (rev cur) eqn:E; auto. constructor; auto. rewrite <- E. eapply tame; eauto.
           ++ constructor; auto. cases_of Hc; subst c; reflexivity.
    + rewrite (part_none sql_splits sql_words sgn sp_words sp_signs' sgn_alpha sql_nonempty); auto.
      * cbn [words_from] in Hw. change (is_alpha c || is_digit c || Ascii.eqb c "_") with (is_word c) in Hw.
        destruct (is_word c) eqn:Ec.
        -- destruct (IH (c :: acc) (Some c) (c :: cur) rest) as (ps & E1 & E2 & E3); auto.
           ++ right. cbn. now rewrite Ec.
           ++ intros d [<-|Hd]; auto.
           ++ cbn. rewrite Ec. cbn. intros H. now rewrite Ha.
           ++ exists ps. split; auto. split; auto. rewrite E2. cbn [rev]. now rewrite <- app_assoc.
        -- destruct (IH [] (Some c) (c :: cur) rest) as (ps & E1 & E2 & E3); auto.
           ++ left. split; auto. cbn. now rewrite Ec.
           ++ intros d [<-|Hd]; auto.
           ++ cbn. rewrite Ec. discriminate.
           ++ intros w H. apply Hw. now right.
           ++ exists ps. split; auto. split; auto. rewrite E2. cbn [rev]. now rewrite <- app_assoc.
      * destruct Hp as [[Hp ->]|Hp]; [|now left]. right. destruct (is_word c) eqn:Ec; [right|now left].
        change (c :: u ++ rest) with ((c :: u) ++ rest).
        assert (R : run ((c :: u) ++ rest) = run (c :: u)).
        { destruct Hr as [Hr|Hr]; [now apply run_app|]. apply run_end; [discriminate|]. now rewrite last_or_cons. }
        rewrite R. destruct (words_from_first (c :: u) []) as (l & E & _). apply Hw. rewrite E. now left.
Qed.

(** texts with any words in them *)
Definition lone (p : str) : Prop := p = $"(" \/ p = $")" \/ (forall c, In c p -> ~ In c $"()").

Lemma cut_any n : forall u, length u <= n -> forall prev cur c rest, In c $"()" -> (forall d, In d cur -> ~ In d $"()") ->
  exists ps, ne (scut 0 prev cur (u ++ c :: rest)) = ps ++ [c] :: ne (scut 0 (Some c) [] rest) /\
    concat ps = rev cur ++ u /\ Forall lone ps.
Proof.
  induction n as [|n IH]; intros u Hn prev cur c rest Hc Hcur.
  - destruct u; [|cbn in Hn; lia]. cbn [app cut].
    assert (Sc : sgn c) by (vm_compute in Hc |- *; tauto). rewrite part_sgn by auto. cbn [firstn Nat.pred].
    exists (ne [rev cur]). rewrite ne_cons, (ne_full [c]) by discriminate.
    split; [reflexivity|]. rewrite ne_one, app_nil_r.
    destruct (rev cur) eqn:E; [split; auto|]. split; [cbn; now rewrite app_nil_r|]. constructor; auto.
    right. right. intros d Hd. apply Hcur. apply in_rev. now rewrite E.
  - destruct u as [|d u]; [apply IH; auto; cbn; lia|]. cbn [app cut]. cbn [length] in Hn.
    destruct (part_at sql_splits prev (d :: u ++ c :: rest)) as [m|] eqn:E.
    + (* a part: its length *)
      assert (L : 1 <= m <= length (d :: u) /\ lone (firstn m (d :: u))).
      { unfold part_at in E. destruct (find _ _) as [[k w]|] eqn:F; [|discriminate]. cbn [option_map fst] in E.
        injection E as <-. apply find_some in F as [Hin Hm]. destruct w.
        - apply splits_words in Hin. destruct (parts_start _ Hin) as [Ha _]. split.
          + split; [destruct k; [discriminate Ha|cbn; lia]|]. destruct (Nat.le_gt_cases (length k) (length (d :: u))) as [H|H]; auto. exfalso.
            unfold keyword_matches in Hm. apply andb_true_iff in Hm as [Hm _]. cbn [fst] in Hm. apply str_eqb_eq in Hm.
            assert (In c (firstn (length k) (d :: u ++ c :: rest))) as Hic.
            { change (d :: u ++ c :: rest) with ((d :: u) ++ c :: rest). rewrite firstn_app. apply in_or_app. right.
              destruct (length k - length (d :: u)) eqn:K; [lia|]. now left. }
            assert (In (upper (firstn (length k) (d :: u ++ c :: rest))) SQL_PARTS) as HP by (rewrite Hm; exact Hin).
            destruct (part_chars _ _ HP Hic) as [X| ->]; cases_of Hc; subst; discriminate.
          + right. right. intros e He Hp. unfold keyword_matches in Hm. apply andb_true_iff in Hm as [Hm _]. cbn [fst] in Hm.
            apply str_eqb_eq in Hm.
            assert (In e (firstn (length k) (d :: u ++ c :: rest))) as Hie.
            { change (d :: u ++ c :: rest) with ((d :: u) ++ c :: rest). rewrite firstn_app. apply in_or_app. now left. }
            assert (In (upper (firstn (length k) (d :: u ++ c :: rest))) SQL_PARTS) as HP by (rewrite Hm; exact Hin).
            destruct (part_chars _ _ HP Hie) as [X| ->]; cases_of Hp; subst; discriminate.
        - destruct (sp_signs _ Hin) as (e & -> & He). cbn [length firstn]. split; [cbn; lia|].
          unfold keyword_matches in Hm. cbn [fst snd length firstn upper map negb orb] in Hm. rewrite andb_true_r in Hm.
          apply str_eqb_eq in Hm. injection Hm as Hm. apply upper_c_not_letter in Hm; [|now apply sgn_alpha]. subst e.
          cases_of He; subst; try (now left); try (right; now left);
            right; right; intros e [<-|[]] X; vm_compute in X; intuition discriminate. }
      destruct L as [[L1 L2] Lo].
      assert (K : cut sql_splits (Nat.pred m) (Some d) [] (u ++ c :: rest) =
                  cut sql_splits 0 (last_or None (firstn m (d :: u))) [] (skipn m (d :: u) ++ c :: rest)).
      { destruct m as [|m]; [lia|]. cbn [Nat.pred firstn skipn]. rewrite <- (firstn_skipn m u) at 1. rewrite <- app_assoc.
        rewrite cut_skip; [now rewrite last_or_cons|]. rewrite firstn_length. cbn in L2. lia. }
      rewrite K. clear K.
      destruct (IH (skipn m (d :: u))) with (prev := last_or None (firstn m (d :: u))) (cur := @nil ascii) (c := c) (rest := rest)
        as (ps & E1 & E2 & E3); auto.
      { rewrite skipn_length. cbn [length]. lia. }
      assert (F : firstn m (d :: u ++ c :: rest) = firstn m (d :: u)).
      { change (d :: u ++ c :: rest) with ((d :: u) ++ c :: rest). rewrite firstn_app.
        replace (m - length (d :: u)) with 0 by lia. cbn [firstn]. apply app_nil_r. }
      rewrite F. exists (ne [rev cur] ++ firstn m (d :: u) :: ps). rewrite ne_cons, (ne_full (firstn m (d :: u))), E1 by (destruct m; [lia|discriminate]).
      split; [now rewrite <- app_assoc|]. split.
      * rewrite concat_app. cbn [concat]. rewrite E2. cbn [rev app].
        rewrite firstn_skipn. f_equal. rewrite ne_one. destruct (rev cur); [reflexivity|]. cbn. now rewrite app_nil_r.
      * apply Forall_app. split; [|constructor; auto]. rewrite ne_one. destruct (rev cur) eqn:Er; auto. constructor; auto.
        right. right. intros e He. apply Hcur. apply in_rev. now rewrite Er.
    + assert (Hd : ~ In d $"()").
      { intros Hd. rewrite part_sgn in E; [discriminate|]. vm_compute in Hd |- *. tauto. }
      destruct (IH u) with (prev := Some d) (cur := d :: cur) (c := c) (rest := rest) as (ps & E1 & E2 & E3); auto; [lia| |].
      { intros e [<-|He]; auto. }
      exists ps. split; auto. split; auto. rewrite E2. cbn [rev]. now rewrite <- app_assoc.
Qed.

Lemma key_cut k prev rest : is_part k = true -> not_word_at_end prev = true -> nonword_start rest ->
  ne (scut 0 prev [] (k ++ rest)) = k :: ne (scut 0 (last_or prev k) [] rest).
Proof.
  intros Hk Hp Hr. rewrite cut_part; auto.
  - cbn [filter rev]. change (str_eqb [] []) with true. cbn [negb]. destruct k; [discriminate Hk|reflexivity].
  - intros ->. discriminate Hk.
  - now apply part_key.
Qed.
