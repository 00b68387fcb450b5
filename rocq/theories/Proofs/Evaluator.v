(** Proofs: select lists. *)
From Coq Require Import Lia.
From Verif.Base Require Import Py PyFacts Value ValueFacts.
From Verif.Model Require Import Dates Tokens Splitter DictSet Evaluator.
From Verif.Spec Require Import Tokens Expression Evaluator.
From Verif.Proofs Require Import Tokens Labels Splitter.
From Verif.Proofs Require Expression DictSet.

Definition as_words : list str := [$"AS"].
Definition sep (c : ascii) : Prop := In c $"(),".
Lemma sp_words : forall k, In (k, true) select_parts -> starts_alpha k = true /\ In (run k) as_words.
Proof. intros k [H|[H|[H|[H|[]]]]]; try discriminate H. injection H as <-. split; [reflexivity|left; reflexivity]. Qed.
Lemma sp_signs : forall k, In (k, false) select_parts -> exists c k', k = c :: k' /\ sep c.
Proof.
  intros k [H|[H|[H|[H|[]]]]]; try discriminate H; injection H as <-; eexists; eexists; (split; [reflexivity|]); cbn; auto.
Qed.
Lemma sep_alpha c : sep c -> is_alpha c = false.
Proof. intros [<-|[<-|[<-|[]]]]; reflexivity. Qed.
Lemma sep_word c : sep c -> is_word c = false.
Proof. intros [<-|[<-|[<-|[]]]]; reflexivity. Qed.
Lemma as_nonempty : ~ In [] as_words.
Proof. intros [H|[]]. discriminate H. Qed.

Notation scut := (cut select_parts).

Definition kept (l : list str) : list str := filter (fun t => negb (str_mem t [[]; $","])) (map strip l).

Definition flushes (p : option ascii) (rest : str) : Prop :=
  rest = [] \/ exists n, part_at select_parts p rest = Some n.

Lemma kept_cons x l : kept (x :: l) = kept [x] ++ kept l.
Proof. unfold kept. cbn [map filter]. destruct (negb _); reflexivity. Qed.
Lemma kept_blank s : blanks s -> kept [s] = [].
Proof. intros H. unfold kept. cbn [map]. rewrite strip_blank by exact H. reflexivity. Qed.
Lemma kept_firm a s b : blanks a -> blanks b -> firm s -> s <> $"," -> kept [a ++ s ++ b] = [s].
Proof.
  intros Ha Hb Hs Hc. unfold kept. cbn [map]. rewrite strip_firm by auto.
  assert (E : str_mem s [[]; $","] = false).
  { destruct (str_mem s [[]; $","]) eqn:E; auto. exfalso. apply str_mem_In in E as [E|[E|[]]]; [|congruence].
    subst. exact Hs. }
  cbn [filter]. rewrite E. reflexivity.
Qed.

Lemma flush p cur rest : flushes p rest -> kept (scut 0 p cur rest) = kept [rev cur] ++ kept (scut 0 p [] rest).
Proof.
  intros [->|[n E]].
  - cbn [cut]. cbn [rev]. change (kept [[]]) with (@nil str). now rewrite app_nil_r.
  - destruct rest as [|c rest]; [discriminate E|]. cbn [cut]. rewrite E. cbn [rev].
    rewrite kept_cons. f_equal.
Qed.

Lemma trimmed_firm s : trimmed s -> firm s.
Proof.
  intros [Hn Hs]. unfold firm. assert (exists c d t, s = c :: t /\ hd_error (rev s) = Some d) as (c & d & t & E & Hd).
  { destruct s as [|c t]; [congruence|]. destruct (rev (c :: t)) as [|d u] eqn:E.
    - apply (f_equal (@length _)) in E. rewrite rev_length in E. discriminate.
    - exists c, d, t. split; auto. }
  destruct s as [|c' s']; [congruence|]. injection E as -> ->.
  destruct (rev (c :: t)) as [|d' u] eqn:R; [discriminate|]. injection Hd as ->. split.
  - destruct (is_space c) eqn:Ec; auto. exfalso. assert (L : length (strip (c :: t)) <= length t).
    { unfold strip, rstrip. rewrite rev_length. cbn [lstrip]. rewrite Ec.
      assert (G : forall x, length (lstrip x) <= length x).
      { induction x as [|y x IH]; cbn; auto. destruct (is_space y); cbn; lia. }
      etransitivity; [apply G|]. rewrite rev_length. apply G. }
    rewrite Hs in L. cbn in L. lia.
  - destruct (is_space d) eqn:Ed; auto. exfalso.
    assert (G : forall x, length (lstrip x) <= length x).
    { induction x as [|y x IH]; cbn; auto. destruct (is_space y); cbn; lia. }
    assert (L : length (strip (c :: t)) < length (c :: t)); [|rewrite Hs in L; lia].
    unfold strip. destruct (is_space c) eqn:Ec.
    + cbn [lstrip]. rewrite Ec. unfold rstrip. rewrite rev_length. eapply Nat.le_lt_trans; [apply G|].
      rewrite rev_length. eapply Nat.le_lt_trans; [apply G|]. cbn. lia.
    + cbn [lstrip]. rewrite Ec. unfold rstrip. rewrite rev_length, R. cbn [lstrip]. rewrite Ed.
      eapply Nat.le_lt_trans; [apply G|]. rewrite <- (rev_length (c :: t)), R. cbn. lia.
Qed.

Lemma blanks_quiet a : blanks a -> (forall c, In c a -> ~ sep c) /\ (forall w, In w (words a) -> ~ In (upper w) as_words).
Proof.
  intros H. split.
  - intros c Hc [<-|[<-|[<-|[]]]]; apply H in Hc; discriminate Hc.
  - unfold words. intros w Hw. assert (w = []); [|subst; intros [E|[]]; discriminate E].
    revert w Hw. induction a as [|c a IH]; intros w; cbn [words_from].
    + intros [<-|[]]. reflexivity.
    + assert (Ec : is_alpha c || is_digit c || Ascii.eqb c "_" = false).
      { assert (is_space c = true) as E by (apply H; now left). destruct c as [[] [] [] [] [] [] [] []]; try discriminate E; reflexivity. }
      rewrite Ec. intros [<-|Hw]; auto. apply IH; auto. intros d Hd. apply H. now right.
Qed.

(** words of a text with white space around it *)
Lemma words_blank_before a s w : blanks a -> In w (words (a ++ s)) -> w = [] \/ In w (words s).
Proof.
  intros H. unfold words. induction a as [|c a IH]; cbn [app]; [auto|]. cbn [words_from].
  assert (Ec : is_alpha c || is_digit c || Ascii.eqb c "_" = false).
  { assert (is_space c = true) as E by (apply H; now left). destruct c as [[] [] [] [] [] [] [] []]; try discriminate E; reflexivity. }
  rewrite Ec. intros [<-|Hw]; auto. apply IH; auto. intros d Hd. apply H. now right.
Qed.
Lemma words_blank_after s b : blanks b -> forall acc w, In w (words_from acc (s ++ b)) -> w = [] \/ In w (words_from acc s).
Proof.
  intros H. induction s as [|c s IH]; intros acc w; cbn [app words_from].
  - destruct b as [|c b]; cbn [words_from]; [auto|].
    assert (Ec : is_alpha c || is_digit c || Ascii.eqb c "_" = false).
    { assert (is_space c = true) as E by (apply H; now left). destruct c as [[] [] [] [] [] [] [] []]; try discriminate E; reflexivity. }
    rewrite Ec. intros [<-|Hw]; [right; now left|].
    left. destruct (blanks_quiet b) as [_ _]; [intros d Hd; apply H; now right|].
    assert (Hb : blanks b) by (intros d Hd; apply H; now right). clear -Hb Hw.
    revert w Hw. induction b as [|c b IH]; intros w; cbn [words_from].
    + intros [<-|[]]. reflexivity.
    + assert (Ec : is_alpha c || is_digit c || Ascii.eqb c "_" = false).
      { assert (is_space c = true) as E by (apply Hb; now left). destruct c as [[] [] [] [] [] [] [] []]; try discriminate E; reflexivity. }
      rewrite Ec. intros [<-|Hw]; auto. apply IH; auto. intros d Hd. apply Hb. now right.
  - destruct (is_alpha c || is_digit c || Ascii.eqb c "_").
    + apply IH.
    + intros [<-|Hw]; [right; now left|]. apply IH in Hw as [Hw|Hw]; auto. right. now right.
Qed.

Lemma padded_quiet a s b : blanks a -> blanks b -> uncut s ->
  (forall c, In c (a ++ s ++ b) -> ~ sep c) /\ (forall w, In w (words (a ++ s ++ b)) -> ~ In (upper w) as_words).
Proof.
  intros Ha Hb [U1 U2]. split.
  - intros c Hc. apply in_app_or in Hc as [Hc|Hc]; [now apply (proj1 (blanks_quiet a Ha))|].
    apply in_app_or in Hc as [Hc|Hc]; [exact (U1 _ Hc)|now apply (proj1 (blanks_quiet b Hb))].
  - intros w Hw. apply words_blank_before in Hw as [->|Hw]; auto; [intros [E|[]]; discriminate E|].
    apply words_blank_after in Hw as [->|Hw]; auto; [intros [E|[]]; discriminate E|].
    intros [E|[]]. symmetry in E. now apply (U2 w).
Qed.

Lemma words_last c (H : is_word c = false) l : forall acc w, In w (words_from acc l) -> In w (words_from acc (l ++ [c])).
Proof.
  induction l as [|d l IH]; intros acc w; cbn [app words_from].
  - change (is_alpha c || is_digit c || Ascii.eqb c "_") with (is_word c). rewrite H. intros [<-|[]]. now left.
  - destruct (is_alpha d || is_digit d || Ascii.eqb d "_"); [apply IH|]. intros [<-|X]; [now left|right; now apply IH].
Qed.

(** quiet text, followed by something that is not a word or ending in a character that is not one *)
Lemma cut_over u prev cur rest : not_word_at_end prev = true ->
  nonword_start rest \/ not_word_at_end (last_or prev u) = true ->
  (forall c, In c u -> ~ sep c) -> (forall w, In w (words u) -> ~ In (upper w) as_words) ->
  scut 0 prev cur (u ++ rest) = scut 0 (last_or prev u) (rev u ++ cur) rest.
Proof.
  intros Hp H Hs Hw. destruct H as [H|H].
  - apply (cut_quiet select_parts as_words sep sp_words sp_signs sep_alpha as_nonempty); auto.
  - destruct (rev u) as [|c t] eqn:E.
    { apply (f_equal (@rev _)) in E. rewrite rev_involutive in E. subst. reflexivity. }
    assert (Eu : u = rev t ++ [c]). { apply (f_equal (@rev _)) in E. now rewrite rev_involutive in E. }
    unfold last_or in H |- *. rewrite E in H |- *. cbn in H. apply negb_true_iff in H.
    rewrite Eu. rewrite <- app_assoc. cbn [app].
    rewrite (cut_quiet select_parts as_words sep sp_words sp_signs sep_alpha as_nonempty); auto.
    + cbn [cut]. rewrite (part_none select_parts as_words sep sp_words sp_signs sep_alpha as_nonempty).
      * rewrite rev_involutive. reflexivity.
      * apply Hs. rewrite Eu. apply in_or_app. right. now left.
      * right. now left.
    + intros d Hd. apply Hs. rewrite Eu. apply in_or_app. now left.
    + intros w Hw'. apply Hw. rewrite Eu. unfold words. apply words_last; auto.
Qed.

Lemma flush_sign p c rest : sep c -> flushes p (c :: rest).
Proof.
  intros H. right. destruct (part_at select_parts p (c :: rest)) eqn:E; eauto. exfalso.
  unfold part_at in E. destruct (find _ select_parts) eqn:F; [discriminate|].
  assert (In ([c], false) select_parts) as G by (destruct H as [<-|[<-|[<-|[]]]]; cbn; auto).
  eapply find_none in F; [|exact G]. unfold keyword_matches in F. cbn [fst snd length firstn upper map negb orb] in F.
  destruct H as [<-|[<-|[<-|[]]]]; discriminate F.
Qed.
Lemma sign_part p c rest : sep c -> part_at select_parts p (c :: rest) = Some 1.
Proof.
  intros H. unfold part_at, select_parts, keyword_matches. cbn [find fst snd].
  destruct H as [<-|[<-|[<-|[]]]]; reflexivity.
Qed.
Lemma as_part p w rest : upper w = $"AS" -> not_word_at_end p = true -> nonword_start rest ->
  part_at select_parts p (w ++ rest) = Some (length w).
Proof.
  intros Hw Hp Hr. pose proof (self_match p w rest Hp Hr) as M. rewrite Hw in M.
  unfold part_at, select_parts. cbn [find].
  assert (L : length w = 2) by (apply (f_equal (@length _)) in Hw; rewrite upper_length in Hw; exact Hw).
  destruct w as [|a [|b [|]]]; try discriminate L. cbn [upper map] in Hw. injection Hw as Ea Eb.
  assert (N : forall c, sep c -> keyword_matches p ([a; b] ++ rest) ([c], false) = false).
  { intros c Hc. destruct (keyword_matches p ([a; b] ++ rest) ([c], false)) eqn:E; auto. exfalso.
    unfold keyword_matches in E. cbn [fst snd length app firstn upper map negb orb] in E. rewrite andb_true_r in E.
    apply str_eqb_eq in E. injection E as E. rewrite Ea in E. subst c. destruct Hc as [X|[X|[X|[]]]]; discriminate X. }
  assert (N1 : keyword_matches p ([a; b] ++ rest) ($"(", false) = false) by (apply (N "("%char); cbn; auto).
  assert (N2 : keyword_matches p ([a; b] ++ rest) ($")", false) = false) by (apply (N ")"%char); cbn; auto).
  assert (N3 : keyword_matches p ([a; b] ++ rest) ($",", false) = false) by (apply (N ","%char); cbn; auto).
  rewrite N1, N2, N3, M. reflexivity.
Qed.

Lemma last_or_app' prev u v : last_or prev (u ++ v) = last_or (last_or prev u) v.
Proof. unfold last_or. rewrite rev_app_distr. destruct (rev v); reflexivity. Qed.

Lemma blank_end p b : blanks b -> not_word_at_end p = true -> not_word_at_end (last_or p b) = true.
Proof.
  intros Hb Hp. unfold last_or. destruct (rev b) as [|c t] eqn:E; auto. cbn.
  assert (is_space c = true) as H by (apply Hb, in_rev; rewrite E; now left).
  destruct c as [[] [] [] [] [] [] [] []]; try discriminate H; reflexivity.
Qed.

(** ** The tokens of a written list *)
Section Texts.
  Context (label : str -> ttype).
  Fixpoint expr_tokens (e : expr) : list str :=
    match e with
    | Atom w => [w]
    | Call f args => f :: $"(" :: flat_map expr_tokens args ++ [$")"]
    end.
  Inductive entry_tokens : expr * option str -> list str -> Prop :=
  | et_plain e : entry_tokens (e, None) (expr_tokens e)
  | et_as e w name : upper w = $"AS" -> entry_tokens (e, Some name) (expr_tokens e ++ [w; name]).
  Inductive list_tokens : list (expr * option str) -> list str -> Prop :=
  | lt_nil : list_tokens [] []
  | lt_cons x xs ts ts' : entry_tokens x ts -> list_tokens xs ts' -> list_tokens (x :: xs) (ts ++ ts').

  Lemma function_words f : In (upper f) (functions ++ aggregations) -> forall c, In c f -> is_word c = true.
  Proof.
    intros H c Hc. assert (G : forallb (forallb is_word) (functions ++ aggregations) = true) by (vm_compute; reflexivity).
    rewrite forallb_forall in G. specialize (G _ H). rewrite forallb_forall in G. rewrite <- upper_c_word. apply G.
    unfold upper. apply in_map. auto.
  Qed.
  Lemma function_not_as f : In (upper f) (functions ++ aggregations) -> upper f <> $"AS".
  Proof.
    intros H E. rewrite E in H. assert (G : str_mem $"AS" (functions ++ aggregations) = false) by (vm_compute; reflexivity).
    apply str_mem_In in H. congruence.
  Qed.
  Lemma function_nonempty f : In (upper f) (functions ++ aggregations) -> f <> [].
  Proof.
    intros H ->. assert (G : str_mem [] (functions ++ aggregations) = false) by (vm_compute; reflexivity).
    change (upper []) with (@nil ascii) in H. apply str_mem_In in H. congruence.
  Qed.
  Lemma words_of_word f : (forall c, In c f -> is_word c = true) -> forall acc, words_from acc f = [rev acc ++ f].
  Proof.
    induction f as [|c f IH]; intros H acc; cbn [words_from]; [now rewrite app_nil_r|].
    change (is_alpha c || is_digit c || Ascii.eqb c "_") with (is_word c). rewrite (H c) by now left.
    rewrite IH by (intros; apply H; now right). cbn [rev]. now rewrite <- app_assoc.
  Qed.
  Lemma function_uncut f : In (upper f) (functions ++ aggregations) -> uncut f.
  Proof.
    intros H. pose proof (function_words f H) as W. split.
    - intros c Hc S. apply sep_word in S. rewrite (W c Hc) in S. discriminate.
    - intros w. unfold words. rewrite words_of_word by auto. intros [<-|[]]. cbn. now apply function_not_as.
  Qed.
  Lemma function_firm f : In (upper f) (functions ++ aggregations) -> firm f.
  Proof. intros H. apply firm_all; [now apply function_nonempty|]. intros c Hc. apply word_not_space. eapply function_words; eauto. Qed.
  Lemma uncut_not_comma s : uncut s -> s <> $",".
  Proof. intros [H _] ->. apply (H ","%char); cbn; auto. Qed.

  Scheme written_ind2 := Minimality for written Sort Prop
    with written_args_ind2 := Minimality for written_args Sort Prop.
  Combined Scheme written_both from written_ind2, written_args_ind2.

  Lemma written_tokens :
    (forall e s, written label e s -> forall prev cur rest, blanks cur -> not_word_at_end prev = true ->
       flushes (last_or prev s) rest -> nonword_start rest \/ not_word_at_end (last_or prev s) = true ->
       kept (scut 0 prev cur (s ++ rest)) = expr_tokens e ++ kept (scut 0 (last_or prev s) [] rest)) /\
    (forall es s, written_args label es s -> forall prev cur rest, blanks cur -> not_word_at_end prev = true ->
       flushes (last_or prev s) rest -> nonword_start rest \/ not_word_at_end (last_or prev s) = true ->
       kept (scut 0 prev cur (s ++ rest)) = flat_map expr_tokens es ++ kept (scut 0 (last_or prev s) [] rest)).
  Proof.
    apply written_both.
    - intros w a b (T & U & _) Ha Hb prev cur rest Hc Hp Hf Hn.
      destruct (padded_quiet a w b Ha Hb U) as [Q1 Q2].
      rewrite cut_over by auto. rewrite flush by auto. f_equal.
      rewrite rev_app_distr, rev_involutive. rewrite !app_assoc, <- (app_assoc _ w b).
      apply kept_firm; auto using trimmed_firm, uncut_not_comma.
      intros c H. apply in_app_or in H as [H|H]; [apply Hc; now apply in_rev|auto].
    - intros f args s a b c Hf Ha Hb Hc _ IH prev cur rest Hcur Hp Hfl Hn.
      destruct (padded_quiet a f b Ha Hb (function_uncut f Hf)) as [Q1 Q2].
      replace ((a ++ f ++ b ++ $"(" ++ s ++ $")" ++ c) ++ rest)
        with ((a ++ f ++ b) ++ $"(" ++ (s ++ $")" ++ c ++ rest)) by (now rewrite <- !app_assoc).
      rewrite cut_over by (auto; left; reflexivity).
      rewrite cut_part; [|discriminate|apply sign_part; cbn; auto].
      rewrite kept_cons, (kept_cons $"("). rewrite IH; clear IH.
      + rewrite rev_app_distr, rev_involutive. rewrite !app_assoc, <- (app_assoc _ f b).
        rewrite kept_firm; auto using function_firm, uncut_not_comma, function_uncut.
        * change (kept [$"("]) with [$"("]. cbn [app expr_tokens]. f_equal. f_equal.
          rewrite <- !app_assoc. f_equal.
          set (p1 := last_or _ s).
          rewrite cut_part; [|discriminate|apply sign_part; cbn; auto]. cbn [rev].
          rewrite kept_cons, (kept_cons $")"). change (kept [[]]) with (@nil str). change (kept [$")"]) with [$")"].
          cbn [app]. f_equal. change (last_or p1 $")") with (Some ")"%char).
          replace (last_or prev (a ++ f ++ b ++ $"(" ++ s ++ $")" ++ c)) with (last_or (Some ")"%char) c) in *.
          2:{ rewrite !app_assoc. rewrite last_or_app'. f_equal. rewrite last_or_app'. reflexivity. }
          destruct (blanks_quiet c Hc) as [C1 C2].
          rewrite cut_over by (auto; right; apply blank_end; auto).
          rewrite flush by auto. rewrite app_nil_r, rev_involutive, kept_blank by auto. reflexivity.
        * intros d H. apply in_app_or in H as [H|H]; [apply Hcur; now apply in_rev|auto].
      + intros d [].
      + reflexivity.
      + apply flush_sign. cbn. auto.
      + left. reflexivity.
    - intros a Ha prev cur rest Hc Hp Hf Hn. destruct (blanks_quiet a Ha) as [C1 C2].
      rewrite cut_over by auto. rewrite flush by auto. rewrite rev_app_distr, rev_involutive, kept_blank; [reflexivity|].
      intros d H. apply in_app_or in H as [H|H]; [apply Hc; now apply in_rev|auto].
    - intros e s _ IH prev cur rest Hc Hp Hf Hn. cbn [flat_map]. rewrite app_nil_r. auto.
    - intros e s es s' _ IH _ _ IHs prev cur rest Hc Hp Hf Hn. cbn [flat_map].
      rewrite <- !app_assoc. rewrite IH; auto; [|apply flush_sign; cbn; auto|left; reflexivity]. f_equal.
      rewrite cut_part; [|discriminate|apply sign_part; cbn; auto]. cbn [rev].
      rewrite kept_cons, (kept_cons $","). change (kept [[]]) with (@nil str). change (kept [$","]) with (@nil str). cbn [app].
      change (last_or (last_or prev s) $",") with (Some ","%char).
      replace (last_or prev (s ++ $"," ++ s')) with (last_or (Some ","%char) s') in *
        by (rewrite !app_assoc, last_or_app'; f_equal; rewrite last_or_app'; reflexivity).
      rewrite IHs; auto. intros d [].
  Qed.

  Lemma nonblank_start a : blanks a -> a <> [] -> forall rest, nonword_start (a ++ rest).
  Proof.
    intros H Ha rest. destruct a as [|c a]; [congruence|]. cbn. assert (is_space c = true) as E by (apply H; now left).
    destruct c as [[] [] [] [] [] [] [] []]; try discriminate E; reflexivity.
  Qed.
  Lemma as_firm w : upper w = $"AS" -> firm w /\ w <> $"," /\ w <> [].
  Proof.
    intros H. split; [|split; intros ->; discriminate H]. apply firm_all; [intros ->; discriminate H|].
    intros c Hc. rewrite <- upper_c_space. apply (in_map upper_c) in Hc. change (map upper_c w) with (upper w) in Hc.
    rewrite H in Hc. destruct Hc as [<-|[<-|[]]]; reflexivity.
  Qed.
  Lemma entry_written x s : written_entry label x s -> exists ts, entry_tokens x ts /\
    forall prev rest, not_word_at_end prev = true -> flushes (last_or prev s) rest -> nonword_start rest ->
      kept (scut 0 prev [] (s ++ rest)) = ts ++ kept (scut 0 (last_or prev s) [] rest).
  Proof.
    intros [e s0 H|e s0 w a name b H (s' & c & Es & Hc) Hw Ha Na Hb T U].
    - exists (expr_tokens e). split; [constructor|]. intros. apply written_tokens; auto. intros d [].
    - exists (expr_tokens e ++ [w; name]). split; [now constructor|]. intros prev rest Hp Hf Hn.
      assert (Hl : not_word_at_end (last_or prev s0) = true).
      { rewrite Es, last_or_app'. cbn. apply negb_true_iff. destruct (is_word c) eqn:E; auto. exfalso. apply Hc. now apply word_char_spec. }
      assert (Hr : nonword_start ((a ++ name ++ b) ++ rest)) by (rewrite <- app_assoc; now apply nonblank_start).
      replace ((s0 ++ w ++ a ++ name ++ b) ++ rest) with (s0 ++ w ++ ((a ++ name ++ b) ++ rest)) by (now rewrite <- !app_assoc).
      destruct (as_firm w Hw) as (Fw & Cw & Nw).
      rewrite (proj1 written_tokens e s0 H); auto.
      3:{ right. eexists. apply as_part; auto. }
      2:{ intros d []. }
      rewrite <- (app_assoc (expr_tokens e)). f_equal.
      rewrite cut_part by (auto; apply as_part; auto). cbn [rev].
      rewrite kept_cons, (kept_cons w). change (kept [[]]) with (@nil str). cbn [app].
      assert (K : kept [w] = [w]).
      { pose proof (kept_firm [] w [] ltac:(intros ? []) ltac:(intros ? []) Fw Cw) as K. now rewrite app_nil_r in K. }
      rewrite K. cbn [app]. f_equal.
      destruct (padded_quiet a name b Ha Hb U) as [Q1 Q2].
      assert (El : last_or prev (s0 ++ w ++ a ++ name ++ b) = last_or (last_or (last_or prev s0) w) (a ++ name ++ b)) by (now rewrite !last_or_app').
      rewrite El in *. set (p1 := last_or (last_or prev s0) w) in *.
      destruct a as [|sp a]; [congruence|]. assert (Esp : is_space sp = true) by (apply Ha; now left).
      assert (Nsp : is_word sp = false) by (destruct sp as [[] [] [] [] [] [] [] []]; try discriminate Esp; reflexivity).
      cbn [app cut].
      rewrite (part_none select_parts as_words sep sp_words sp_signs sep_alpha as_nonempty);
        [|apply Q1; now left|right; now left].
      change (a ++ name ++ b) with (a ++ name ++ b).
      destruct (padded_quiet a name b (fun d Hd => Ha d (or_intror Hd)) Hb U) as [Q3 Q4].
      rewrite cut_over; auto; [|cbn; now rewrite Nsp].
      rewrite flush by (rewrite <- last_or_cons with (prev := p1); exact Hf).
      change ((sp :: a) ++ name ++ b) with (sp :: (a ++ name ++ b)) in *.
      cbn [app]. rewrite rev_app_distr, rev_involutive. cbn [rev app].
      change (sp :: a ++ name ++ b) with ((sp :: a) ++ name ++ b). rewrite kept_firm; auto using trimmed_firm, uncut_not_comma.
      change ((sp :: a) ++ name ++ b) with (sp :: (a ++ name ++ b)). rewrite last_or_cons. reflexivity.
  Qed.

  Lemma list_written xs s : written_list label xs s -> forall prev, not_word_at_end prev = true ->
    exists ts, list_tokens xs ts /\ kept (scut 0 prev [] s) = ts.
  Proof.
    induction 1 as [x s H|x s xs s' H _ IH]; intros prev Hp; destruct (entry_written x s H) as (ts & T & K).
    - exists (ts ++ []). split; [constructor; [auto|constructor]|].
      specialize (K prev [] Hp (or_introl eq_refl) I). rewrite app_nil_r in K. rewrite K. reflexivity.
    - destruct (IH (Some ","%char) eq_refl) as (ts' & T' & K'). exists (ts ++ ts'). split; [now constructor|].
      rewrite K; auto; [|apply flush_sign; cbn; auto|reflexivity]. f_equal.
      rewrite cut_part; [|discriminate|apply sign_part; cbn; auto]. cbn [rev].
      rewrite kept_cons, (kept_cons $","). change (kept [[]]) with (@nil str). change (kept [$","]) with (@nil str). cbn [app].
      exact K'.
  Qed.
End Texts.

(** ** Building *)
Section Build.
  Context (float_of date_of : str -> option value) (HF : reads_floats float_of).
  Notation label := (get_token_type float_of date_of).

  Fixpoint item_of (alias : option str) (e : expr) : item :=
    match e with
    | Atom w => Item (label w) w [] alias
    | Call f args => Item (label f) (upper f) (map (item_of None) args) alias
    end.
  Definition entry_item (x : expr * option str) : item := item_of (snd x) (fst x).

  Fixpoint good_expr (e : expr) : Prop :=
    match e with
    | Atom w => value_kind (label w) /\ strip w = w
    | Call f args => In (upper f) (functions ++ aggregations) /\
                     (fix all l := match l with [] => True | e :: l' => good_expr e /\ all l' end) args
    end.
  Lemma good_args args : (fix all l := match l with [] => True | e :: l' => good_expr e /\ all l' end) args <-> Forall good_expr args.
  Proof. induction args; split; intros H; auto; [destruct H; constructor; tauto|inversion H; subst; tauto]. Qed.

  Lemma label_open : label $"(" = LEFTPAREN.
  Proof. apply labels_spec; auto. constructor. now left. Qed.
  Lemma label_close : label $")" = RIGHTPAREN.
  Proof. apply labels_spec; auto. constructor. now left. Qed.
  Lemma label_as w : upper w = $"AS" -> label w = AS.
  Proof. intros. apply labels_spec; auto. now constructor. Qed.
  Lemma label_call f : In (upper f) (functions ++ aggregations) -> is_call (label f) = true.
  Proof.
    intros H. apply in_app_or in H as [H|H].
    - rewrite (labels_spec float_of date_of f FUNCTION) by (auto; now constructor). reflexivity.
    - rewrite (labels_spec float_of date_of f AGGREGATOR) by (auto; now constructor). reflexivity.
  Qed.
  Lemma call_not_paren t : is_call t = true -> ttype_beq t RIGHTPAREN = false /\ ttype_beq t LEFTPAREN = false.
  Proof. destruct t; try discriminate; auto. Qed.
  Lemma value_not_paren t : value_kind t -> ttype_beq t RIGHTPAREN = false /\ ttype_beq t LEFTPAREN = false /\
    is_call t = false /\ ttype_beq t AS = false.
  Proof. intros H. repeat (destruct H as [<-|H]; [repeat split|]). destruct H. Qed.

  Fixpoint esize (e : expr) : nat :=
    match e with
    | Atom _ => 1
    | Call _ args => S (fold_right (fun e n => esize e + n) 0 args)
    end.

  Lemma call_tokens_flat n : forall args, fold_right (fun e n => esize e + n) 0 args <= n -> Forall good_expr args ->
    forall k rest inner rest', call_tokens float_of date_of (S k) rest = Ok (inner, rest') ->
    call_tokens float_of date_of (S k) (flat_map expr_tokens args ++ rest) = Ok (flat_map expr_tokens args ++ inner, rest').
  Proof.
    induction n as [|n IH]; intros args Hn Hg k rest inner rest' H.
    - destruct args as [|e args]; auto. cbn in Hn. destruct e; cbn in Hn; lia.
    - destruct args as [|e args]; auto. inversion_clear Hg as [|? ? G1 G2]. cbn [flat_map].
      destruct e as [w|f l]; cbn [expr_tokens].
      + cbn [app call_tokens]. destruct (value_not_paren _ (proj1 G1)) as (E1 & E2 & _). rewrite E1, E2.
        rewrite (IH args) with (inner := inner) (rest' := rest'); auto. cbn in Hn. lia.
      + destruct G1 as [Gf Ga]. apply good_args in Ga. cbn [fold_right esize] in Hn.
        cbn [app call_tokens]. destruct (call_not_paren _ (label_call f Gf)) as [E1 E2]. rewrite E1, E2, label_open.
        cbn [ttype_beq].
        rewrite <- !app_assoc. cbn [app].
        rewrite (IH l) with (inner := $")" :: flat_map expr_tokens args ++ inner) (rest' := rest'); auto.
        * lia.
        * cbn [call_tokens]. rewrite label_close. cbn [ttype_beq].
          rewrite (IH args) with (inner := inner) (rest' := rest'); auto. lia.
  Qed.
  Lemma call_tokens_args args rest : Forall good_expr args ->
    call_tokens float_of date_of 1 (flat_map expr_tokens args ++ $")" :: rest) = Ok (flat_map expr_tokens args, rest).
  Proof.
    intros H. rewrite (call_tokens_flat _ args (le_n _) H 0 ($")" :: rest) [] rest); [now rewrite app_nil_r|].
    cbn [call_tokens]. rewrite label_close. reflexivity.
  Qed.

  Lemma tokens_nonempty e : 1 <= length (expr_tokens e).
  Proof. destruct e; cbn; lia. Qed.
  Lemma args_list args : list_tokens (map (fun e => (e, None)) args) (flat_map expr_tokens args).
  Proof. induction args; cbn; constructor; auto. constructor. Qed.
  Lemma list_start xs ts : list_tokens xs ts -> Forall (fun x => good_expr (fst x)) xs ->
    match ts with t :: _ => ttype_beq (label t) AS = false | [] => True end.
  Proof.
    intros H G. destruct H as [|x xs ts ts' E _]; [exact I|]. inversion_clear G as [|? ? G1 _].
    assert (Hs : exists t u, ts = t :: u /\ ttype_beq (label t) AS = false); [|destruct Hs as (t & u & -> & Hs); exact Hs].
    assert (Hx : forall e, good_expr e -> exists t u, expr_tokens e = t :: u /\ ttype_beq (label t) AS = false).
    { intros [w|f l] G; cbn; eexists; eexists; split; eauto; cbn in G.
      - now apply value_not_paren.
      - destruct G as [G _]. apply label_call in G. destruct (label f); try discriminate; reflexivity. }
    destruct E as [e|e w name Hw]; cbn in G1; destruct (Hx e G1) as (t & u & -> & Ht); cbn; eauto.
  Qed.

  Lemma build_list n : forall xs ts, length ts <= n -> list_tokens xs ts -> Forall (fun x => good_expr (fst x)) xs ->
    build float_of date_of n ts = Ok (map entry_item xs).
  Proof.
    induction n as [|n IH]; intros xs ts Hn H G.
    - destruct H as [|x xs ts ts' E H]; auto. exfalso.
      assert (1 <= length ts); [|rewrite app_length in Hn; lia].
      destruct E; rewrite ?app_length; pose proof (tokens_nonempty e); lia.
    - destruct H as [|[e alias] xs ts ts' E H]; auto. inversion_clear G as [|? ? G1 G2]. cbn [fst] in G1.
      assert (A : exists ats, ts = expr_tokens e ++ ats /\ take_alias float_of date_of (ats ++ ts') = Ok (alias, ts') /\ length ats <= length ts).
      { inversion E; subst.
        - exists []. rewrite app_nil_r. split; auto. split; [|cbn; lia]. cbn [app]. unfold take_alias.
          pose proof (list_start _ _ H G2). destruct ts'; auto. now rewrite H0.
        - exists [w; name]. split; auto. split; [|rewrite app_length; cbn; lia]. cbn [app take_alias].
          rewrite label_as by auto. reflexivity. }
      destruct A as (ats & -> & A & _). rewrite !app_length in Hn.
      pose proof (tokens_nonempty e) as L.
      assert (B : build float_of date_of n ts' = Ok (map entry_item xs)) by (apply IH; auto; lia).
      rewrite <- app_assoc. cbn [map]. unfold entry_item at 1. cbn [fst snd].
      destruct e as [w|f args]; cbn [expr_tokens app build item_of].
      + destruct (value_not_paren _ (proj1 G1)) as (_ & _ & Ec & _). rewrite Ec. cbn [bind]. rewrite A. cbn [bind]. rewrite B. reflexivity.
      + destruct G1 as [Gf Ga]. apply good_args in Ga. rewrite (label_call f Gf), label_open. cbn [ttype_beq].
        rewrite <- !app_assoc. cbn [app]. rewrite call_tokens_args by auto. cbn [bind].
        rewrite (IH _ _ ) with (2 := args_list args).
        * cbn [bind]. rewrite A. cbn [bind]. rewrite B. cbn [bind]. f_equal. f_equal. f_equal. rewrite map_map. reflexivity.
        * cbn [expr_tokens length app] in Hn. rewrite app_length in Hn. cbn in Hn. lia.
        * rewrite Forall_map. exact Ga.
  Qed.

  Lemma written_good :
    (forall e s, written label e s -> good_expr e) /\ (forall es s, written_args label es s -> Forall good_expr es).
  Proof.
    apply written_both; cbn; auto.
    - intros w a b ([_ S] & _ & H) _ _. split; [exact H|exact S].
    - intros f args s a b c Hf _ _ _ _ H. split; auto. now apply good_args.
  Qed.
  Lemma written_list_good xs s : written_list label xs s -> Forall (fun x => good_expr (fst x)) xs.
  Proof.
    assert (E : forall x s, written_entry label x s -> good_expr (fst x)).
    { intros x s0 H. destruct H; cbn; eapply (proj1 written_good); eauto. }
    induction 1; constructor; eauto.
  Qed.

  Lemma select_list_items xs s : written_list label xs s ->
    new_evaluator float_of date_of s = Ok (map entry_item xs).
  Proof.
    intros H. destruct (list_written label xs s H None eq_refl) as (ts & T & K).
    unfold new_evaluator, select_tokens. fold (kept (scut 0 None [] s)). rewrite K.
    apply build_list; auto. eapply written_list_good; eauto.
  Qed.
End Build.

(** ** Every text is read or refused *)
Section Ends.
  Context (float_of date_of : str -> option value).
  Lemma call_tokens_length ts : forall k inner rest, call_tokens float_of date_of k ts = Ok (inner, rest) ->
    length inner + length rest < length ts.
  Proof.
    induction ts as [|t ts IH]; intros k inner rest H; cbn [call_tokens] in H; [discriminate|].
    destruct (ttype_beq _ RIGHTPAREN).
    - destruct k as [|[|k]]; try (injection H as <- <-; cbn; lia).
      destruct (call_tokens float_of date_of (S k) ts) as [[i r]|] eqn:E; [|discriminate H].
      injection H as <- <-. apply IH in E. cbn. lia.
    - match type of H with context [call_tokens _ _ ?k ts] => destruct (call_tokens float_of date_of k ts) as [[i r]|] eqn:E end;
        [|discriminate H].
      injection H as <- <-. apply IH in E. cbn. lia.
  Qed.
  Lemma call_tokens_raise ts : forall k e, call_tokens float_of date_of k ts = Raise e -> e = InvalidEvaluator.
  Proof.
    induction ts as [|t ts IH]; intros k e H; cbn [call_tokens] in H; [congruence|].
    destruct (ttype_beq _ RIGHTPAREN).
    - destruct k as [|[|k]]; try discriminate H.
      destruct (call_tokens float_of date_of (S k) ts) as [[i r]|] eqn:E; [discriminate H|].
      injection H as <-. eauto.
    - match type of H with context [call_tokens _ _ ?k ts] => destruct (call_tokens float_of date_of k ts) as [[i r]|] eqn:E end;
        [discriminate H|].
      injection H as <-. eauto.
  Qed.
  Lemma take_alias_length ts a rest : take_alias float_of date_of ts = Ok (a, rest) -> length rest <= length ts.
  Proof.
    unfold take_alias. destruct ts as [|t ts]; [intros H; injection H as _ <-; auto|].
    destruct (ttype_beq _ AS); [|intros H; injection H as _ <-; auto].
    destruct ts; [discriminate|]. intros H; injection H as _ <-. cbn. lia.
  Qed.
  Lemma take_alias_raise ts e : take_alias float_of date_of ts = Raise e -> e = InvalidEvaluator.
  Proof.
    unfold take_alias. destruct ts as [|t ts]; [discriminate|].
    destruct (ttype_beq _ AS); [|discriminate]. destruct ts; [congruence|discriminate].
  Qed.

  Lemma build_ends n : forall ts, length ts <= n ->
    match build float_of date_of n ts with Ok _ => True | Raise e => e = InvalidEvaluator \/ e = IndexError end.
  Proof.
    induction n as [|n IH]; intros ts Hn.
    - destruct ts; [exact I|cbn in Hn; lia].
    - destruct ts as [|t ts]; [exact I|]. cbn in Hn. cbn [build].
      assert (T : forall v ps rest, length rest <= n ->
        match (let* (alias, rest) := take_alias float_of date_of rest in
               let* more := build float_of date_of n rest in
               Ok (Item (get_token_type float_of date_of t) v ps alias :: more)) with
        | Ok _ => True | Raise e => e = InvalidEvaluator \/ e = IndexError end).
      { intros v ps rest Hr. destruct (take_alias float_of date_of rest) as [[a r]|e] eqn:E; cbn [bind].
        - apply take_alias_length in E. assert (Hr' : length r <= n) by lia. specialize (IH r Hr').
          destruct (build float_of date_of n r); cbn [bind]; auto.
        - left. eapply take_alias_raise; eauto. }
      destruct (is_call _); cbn [bind]; [|apply T; lia].
      destruct ts as [|o ts]; [right; reflexivity|]. cbn in Hn.
      destruct (ttype_beq _ LEFTPAREN); [|left; reflexivity].
      destruct (call_tokens float_of date_of 1 ts) as [[i r]|e] eqn:E; cbn [bind].
      + apply call_tokens_length in E. assert (Hi : length i <= n) by lia. specialize (IH i Hi).
        destruct (build float_of date_of n i); cbn [bind]; [apply T; lia|exact IH].
      + left. eapply call_tokens_raise; eauto.
  Qed.
  Lemma evaluator_ends s : match new_evaluator float_of date_of s with
                           | Ok _ => True | Raise e => e = InvalidEvaluator \/ e = IndexError end.
  Proof. apply build_ends. auto. Qed.
End Ends.

(** ** Values *)
Section Values.
  Context (float_of date_of : str -> option value) (HF : reads_floats float_of).
  Context (apply : str -> list value -> result value).
  Notation label := (get_token_type float_of date_of).
  Notation fv := (field_value float_of date_of apply).

  Lemma mapM_values r ps : (fix values (ps : list item) : result (list value) :=
      match ps with [] => Ok [] | p :: ps' => let* x := fv r p in let* xs := values ps' in Ok (x :: xs) end) ps = mapM (fv r) ps.
  Proof. induction ps as [|p ps IH]; auto. cbn [mapM]. rewrite <- IH. reflexivity. Qed.

  Lemma means_value r : NoDup (map fst r) -> forall n e v alias, esize e <= n ->
    means label float_of date_of apply r e v -> fv r (item_of float_of date_of alias e) = Ok v.
  Proof.
    intros Hr. induction n as [|n IH]; intros e v alias Hn M; [destruct e; cbn in Hn; lia|].
    destruct M; cbn [item_of field_value]; rewrite ?H; try reflexivity.
    - apply Expression.names_column_fun in H0. subst n0. unfold rget.
      rewrite (In_dget str_eqb str_keqb _ _ _ Hr H1). reflexivity.
    - apply Expression.names_column_fun in H0. subst n0. unfold rget.
      change (map fst r) with (dkeys r) in H1. apply (dget_None str_eqb str_keqb) in H1. rewrite H1. reflexivity.
    - rewrite py_int_decZ. reflexivity.
    - rewrite H0. reflexivity.
    - rewrite Expression.unquoted_wrap. reflexivity.
    - rewrite Expression.unquoted_wrap, H0. reflexivity.
    - rewrite H0. reflexivity.
    - rewrite H0. reflexivity.
    - assert (L : label f = FUNCTION) by (apply labels_spec; auto; now constructor). rewrite L.
      rewrite mapM_values. rewrite upper_idem.
      assert (E : mapM (fv r) (map (item_of float_of date_of None) args) = Ok vs).
      { cbn [esize] in Hn. clear H1. revert Hn. induction H0 as [|e w es ws He _ IHl]; intros Hn; [reflexivity|].
        cbn [map mapM]. cbn [fold_right] in Hn. rewrite (IH e w None) by (auto; lia). cbn [bind].
        rewrite IHl by lia. reflexivity. }
      rewrite E. cbn [bind]. exact H1.
  Qed.

  Definition bind_all (l : list (str * value)) (base : record) : record :=
    fold_left (fun d kv => dset str_eqb (fst kv) (snd kv) d) l base.
  Lemma bind_all_get l : forall base k, dget str_eqb k (bind_all l base) =
    match last_binding k l with Some v => Some v | None => dget str_eqb k base end.
  Proof.
    induction l as [|[n v] l IH]; intros base k; [reflexivity|]. cbn [bind_all fold_left fst snd last_binding].
    change (dget str_eqb k (bind_all l (dset str_eqb n v base)) =
      match match last_binding k l with Some w => Some w | None => if str_eqb n k then Some v else None end with
      | Some w => Some w | None => dget str_eqb k base end).
    rewrite IH. destruct (last_binding k l); auto.
    destruct (str_eqb n k) eqn:E.
    - apply str_eqb_eq in E. subst. apply dget_dset_same. exact str_keqb.
    - apply dget_dset_other; [exact str_keqb|]. intros ->. now rewrite str_eqb_refl in E.
  Qed.

  Lemma function_name n : forall e a, esize e <= n -> good_expr float_of date_of e ->
    get_function_name (item_of float_of date_of a e) = plain_text e.
  Proof.
    induction n as [|n IH]; intros e a Hn G; [destruct e; cbn in Hn; lia|]. destruct e as [w|f args]; cbn [item_of get_function_name plain_text].
    - destruct (value_not_paren _ (proj1 G)) as (_ & _ & E & _). rewrite E. reflexivity.
    - destruct G as [Gf Ga]. apply good_args in Ga. rewrite label_call by auto. f_equal. f_equal. f_equal. f_equal.
      rewrite map_map. apply map_ext_in. intros e He. apply IH; [|eapply Forall_forall; eauto].
      cbn [esize] in Hn. clear -Hn He. induction args as [|x args IHa]; [destruct He|]. cbn [fold_right] in Hn.
      destruct He as [->|He]; [lia|]. apply IHa; auto. lia.
  Qed.

  Lemma label_everything w : strip w = w -> label w = EVERYTHING -> w = $"*".
  Proof.
    unfold get_token_type. intros -> L.
    repeat match type of L with
           | (if str_eqb ?a ?b then EVERYTHING else _) = _ => destruct (str_eqb a b) eqn:E; [apply str_eqb_eq in E; exact E|clear E]
           | (if ?b then _ else _) = _ => destruct b; try discriminate L
           | match ?x with _ => _ end = _ => destruct x; try discriminate L
           end.
  Qed.

  Definition is_star (e : expr) : bool := match e with Atom w => str_eqb w $"*" | _ => false end.

  Lemma given_label x r v : (forall n, snd x = Some n -> n <> []) -> good_expr float_of date_of (fst x) ->
    means label float_of date_of apply r (fst x) v ->
    field_label (entry_item float_of date_of x) = given_name x.
  Proof.
    destruct x as [e a]. cbn [fst snd]. intros Hn G M. unfold entry_item, field_label, given_name, asked_name. cbn [fst snd].
    destruct e as [w|f args].
    - cbn [item_of item_type item_value]. destruct (value_not_paren _ (proj1 G)) as (_ & _ & E & _).
      destruct (label w) eqn:L; try reflexivity; try discriminate E. symmetry. now apply label_everything; [apply G|].
    - inversion M; subst. assert (L : label f = FUNCTION) by (apply labels_spec; auto; now constructor).
      pose proof (function_name _ (Call f args) a (le_n _) G) as F. unfold field_of.
      cbn [item_of item_type item_alias] in *. rewrite L in *.
      destruct a as [[|c n]|]; [destruct (Hn [] eq_refl eq_refl)|reflexivity|]. cbn [hd]. exact F.
  Qed.

  Lemma evaluate_binds xs vs r base : NoDup (map fst r) ->
    Forall (fun x => good_expr float_of date_of (fst x)) xs -> Forall (fun x => forall n, snd x = Some n -> n <> []) xs ->
    Forall2 (fun x v => means label float_of date_of apply r (fst x) v) xs vs ->
    fold_left (fun acc i => let* b := acc in let* v := fv r i in Ok (dset str_eqb (field_label i) v b))
      (map (entry_item float_of date_of) xs) (Ok base) = Ok (bind_all (combine (map given_name xs) vs) base).
  Proof.
    intros Hr G Hn M. revert base G Hn. induction M as [|x v xs vs Hx _ IH]; intros base G Hn; [reflexivity|].
    apply Forall_cons_iff in G, Hn. destruct G as [G Gs], Hn as [Hn Hns].
    cbn [map fold_left bind]. unfold entry_item at 2. rewrite (means_value r Hr (esize (fst x)) (fst x) v (snd x) (le_n _) Hx).
    cbn [bind]. rewrite (given_label x r v) by auto. rewrite IH by auto. reflexivity.
  Qed.

  Lemma stars_found xs : Forall (fun x => good_expr float_of date_of (fst x)) xs ->
    existsb (fun i => ttype_beq (item_type i) EVERYTHING) (map (entry_item float_of date_of) xs) =
    existsb (fun x => is_star (fst x)) xs.
  Proof.
    induction 1 as [|[e a] xs G _ IH]; [reflexivity|]. cbn [map existsb]. rewrite IH. f_equal.
    unfold entry_item. cbn [fst snd] in *. destruct e as [w|f args]; cbn [item_of item_type is_star].
    - destruct (str_eqb w $"*") eqn:E.
      + apply str_eqb_eq in E. subst. rewrite (labels_spec float_of date_of _ EVERYTHING HF) by constructor. reflexivity.
      + destruct (label w) eqn:L; try reflexivity. apply label_everything in L; [|apply G]. subst. discriminate E.
    - destruct G as [G _]. pose proof (label_call float_of date_of HF f G). destruct (label f); try discriminate H; reflexivity.
  Qed.

  Lemma names_nonempty xs s : written_list label xs s -> Forall (fun x => forall n, snd x = Some n -> n <> []) xs.
  Proof.
    assert (E : forall x s, written_entry label x s -> forall n, snd x = Some n -> n <> []).
    { intros x s0 H. destruct H; cbn; intros n [= <-]. apply H5. }
    induction 1; constructor; eauto.
  Qed.

  Lemma select_list_records xs s vs r : written_list label xs s -> NoDup (map fst r) ->
    Forall2 (fun x v => means label float_of date_of apply r (fst x) v) xs vs ->
    exists items out, new_evaluator float_of date_of s = Ok items /\ evaluate float_of date_of apply items r = Ok out /\ out = bind_all (combine (map given_name xs) vs) (if existsb (fun x => is_star (fst x)) xs then r else []).
  Proof.
    intros W Hr M. eexists _, _. split; [apply select_list_items; eauto|]. split; [|reflexivity].
    unfold evaluate. pose proof (written_list_good _ _ _ _ W) as G. rewrite stars_found by auto.
    apply evaluate_binds; auto. eapply names_nonempty; eauto.
  Qed.

  Lemma bind_all_fresh l : NoDup (map fst l) -> forall base, (forall k, In k (map fst l) -> ~ In k (map fst base)) ->
    bind_all l base = base ++ l.
  Proof.
    induction l as [|[n v] l IH]; intros Hl base Hb; [now rewrite app_nil_r|].
    inversion Hl as [|? ? Hn Hl']; subst. change (bind_all l (dset str_eqb n v base) = base ++ (n, v) :: l).
    assert (E : dset str_eqb n v base = base ++ [(n, v)]).
    { specialize (Hb n (or_introl eq_refl)). clear -Hb. induction base as [|[k w] base IHb]; [reflexivity|].
      cbn [dset app]. destruct (str_eqb n k) eqn:E.
      - apply str_eqb_eq in E. subst. destruct Hb. now left.
      - f_equal. apply IHb. intros H. apply Hb. now right. }
    rewrite E, IH; auto; [now rewrite <- app_assoc|].
    intros k Hk. rewrite map_app, in_app_iff. intros [H|[<-|[]]]; [|now apply Hn].
    revert H. apply Hb. now right.
  Qed.

  Lemma asked_fields xs s : written_list label xs s ->
    Forall (fun x => match fst x with Atom w => ~ In (label w) [BOOLEAN; NULL] /\ (label w = EVERYTHING -> snd x = None) | _ => True end) xs ->
    get_fields (map (entry_item float_of date_of) xs) = map asked_name xs.
  Proof.
    intros W H. pose proof (written_list_good _ _ _ _ W) as G. pose proof (names_nonempty _ _ W) as Hn.
    clear W. induction xs as [|x xs IH]; [reflexivity|].
    apply Forall_cons_iff in G, Hn, H. destruct G as [G Gs], Hn as [Hn Hns], H as [H Hs].
    cbn [map get_fields flat_map]. change (field_of (entry_item float_of date_of x) ++ get_fields (map (entry_item float_of date_of) xs) = asked_name x :: map asked_name xs).
    rewrite IH by auto. enough (E : field_of (entry_item float_of date_of x) = [asked_name x]) by now rewrite E.
    clear IH Gs Hns Hs. destruct x as [e a]. unfold entry_item, field_of, asked_name. cbn [fst snd] in *.
    pose proof (function_name _ e a (le_n _) G) as F.
    assert (N : [match a with Some ((_ :: _) as n) => n | _ => plain_text e end] = [match a with Some n => n | None => plain_text e end]).
    { destruct a as [[|c n]|]; auto. destruct (Hn [] eq_refl eq_refl). }
    destruct e as [w|f args].
    - cbn [item_of item_type item_alias] in *. rewrite F. destruct H as [Hb He]. destruct G as [G Gs]. unfold value_kind in G.
      destruct (label w) eqn:L; try exact N; try (exfalso; apply Hb; vm_compute; tauto);
        try (exfalso; vm_compute in G; repeat destruct G as [G|G]; discriminate || destruct G; fail).
      rewrite (He eq_refl). apply label_everything in L; [|exact Gs]. subst. reflexivity.
    - destruct G as [G _]. pose proof (label_call float_of date_of HF f G) as L. cbn [item_of item_type item_alias] in *.
      rewrite F. destruct (label f); try discriminate L; exact N.
  Qed.
End Values.

(** ** The statements of Props/Evaluator.v *)
Section Statements.
  Context (float_of date_of : str -> option value) (apply : str -> list value -> result value).
  Notation label := (get_token_type float_of date_of).

  Lemma starred_spec xs : existsb (fun x => is_star (fst x)) xs = true <-> starred xs.
  Proof.
    rewrite existsb_exists. split.
    - intros ([e a] & Hin & H). destruct e as [w|]; [|discriminate]. cbn in H. apply str_eqb_eq in H. subst. now exists a.
    - intros (a & H). eexists. split; [exact H|reflexivity].
  Qed.
  Lemma last_binding_In k l v : last_binding k l = Some v -> In k (map fst l).
  Proof.
    induction l as [|[n w] l IH]; [discriminate|]. cbn. destruct (last_binding k l); [auto|].
    destruct (str_eqb n k) eqn:E; [|discriminate]. apply str_eqb_eq in E. auto.
  Qed.
  Lemma combine_names (xs : list (expr * option str)) (vs : list value) : length xs = length vs ->
    map fst (combine (map given_name xs) vs) = map given_name xs.
  Proof. revert vs. induction xs; intros [|v vs] H; try discriminate; cbn; f_equal; auto. Qed.
  Lemma Forall2_len {A B} (R : A -> B -> Prop) l l' : Forall2 R l l' -> length l = length l'.
  Proof. induction 1; cbn; auto. Qed.

  Lemma select_list_evaluates xs s vs r : reads_floats float_of -> written_list label xs s -> NoDup (map fst r) ->
    Forall2 (fun x v => means label float_of date_of apply r (fst x) v) xs vs ->
    exists items out, new_evaluator float_of date_of s = Ok items /\ evaluate float_of date_of apply items r = Ok out /\
      (forall k v, last_binding k (combine (map given_name xs) vs) = Some v -> dget str_eqb k out = Some v) /\
      (forall k, ~ In k (map given_name xs) -> starred xs -> dget str_eqb k out = dget str_eqb k r) /\
      (forall k, ~ In k (map given_name xs) -> ~ starred xs -> dget str_eqb k out = None).
  Proof.
    intros HF W Hr M. destruct (select_list_records float_of date_of HF apply xs s vs r W Hr M) as (items & out & E1 & E2 & ->).
    eexists _, _. split; [eauto|]. split; [eauto|].
    pose proof (combine_names xs vs (Forall2_len _ _ _ M)) as C.
    assert (N : forall k, ~ In k (map given_name xs) -> last_binding k (combine (map given_name xs) vs) = None).
    { intros k Hk. destruct (last_binding _ _) eqn:E; auto. apply last_binding_In in E. rewrite C in E. tauto. }
    split; [|split].
    - intros k v H. rewrite bind_all_get, H. reflexivity.
    - intros k Hk S. rewrite bind_all_get, (N k Hk). apply starred_spec in S. now rewrite S.
    - intros k Hk S. rewrite bind_all_get, (N k Hk). destruct (existsb _ _) eqn:E; auto. apply starred_spec in E. tauto.
  Qed.

  Lemma select_list_columns xs s vs r : reads_floats float_of -> written_list label xs s -> NoDup (map fst r) ->
    Forall2 (fun x v => means label float_of date_of apply r (fst x) v) xs vs ->
    ~ starred xs -> NoDup (map given_name xs) ->
    exists items, new_evaluator float_of date_of s = Ok items /\
      evaluate float_of date_of apply items r = Ok (combine (map given_name xs) vs).
  Proof.
    intros HF W Hr M S D. destruct (select_list_records float_of date_of HF apply xs s vs r W Hr M) as (items & out & E1 & E2 & ->).
    eexists. split; [eauto|]. rewrite E2. f_equal. destruct (existsb _ _) eqn:E; [apply starred_spec in E; tauto|].
    rewrite bind_all_fresh; auto. rewrite combine_names; auto. eapply Forall2_len; eauto.
  Qed.

  Lemma select_list_fields xs s : reads_floats float_of -> written_list label xs s ->
    Forall (fun x => forall w, fst x = Atom w -> ~ In (label w) [BOOLEAN; NULL] /\ (w = $"*" -> snd x = None)) xs ->
    exists items, new_evaluator float_of date_of s = Ok items /\ get_fields items = map asked_name xs.
  Proof.
    intros HF W H. eexists. split; [apply select_list_items; eauto|]. eapply (asked_fields float_of date_of HF (fun _ _ => Ok VNull)); eauto.
    pose proof (written_list_good _ _ _ _ W) as G. clear W. rewrite Forall_forall in *. intros x Hx. specialize (H x Hx). specialize (G x Hx).
    destruct (fst x); auto. destruct (H _ eq_refl) as [H1 H2]. split; auto. intros L. apply H2.
    eapply label_everything; eauto. apply G.
  Qed.

  Lemma select_list_raises xs s vs r e f args x more : reads_floats float_of -> NoDup (map fst r) ->
    written_list label (xs ++ (Call f args, e) :: more) s ->
    Forall2 (fun x v => means label float_of date_of apply r (fst x) v) xs vs ->
    forall ws, In (upper f) Tokens.functions -> Forall2 (means label float_of date_of apply r) args ws -> apply (upper f) ws = Raise x ->
    exists items, new_evaluator float_of date_of s = Ok items /\ evaluate float_of date_of apply items r = Raise x.
  Proof.
    intros HF Hr W M ws Hf Ha Hx. eexists. split; [apply select_list_items; eauto|].
    pose proof (written_list_good _ _ _ _ W) as G. pose proof (names_nonempty _ _ _ _ W) as Hn.
    apply Forall_app in G, Hn. destruct G as [G G'], Hn as [Hn _]. unfold evaluate. rewrite map_app, fold_left_app.
    rewrite evaluate_binds with (vs := vs) by auto. cbn [map fold_left bind entry_item fst snd item_of field_value].
    assert (L : label f = FUNCTION) by (apply labels_spec; auto; now constructor). rewrite L.
    rewrite mapM_values, upper_idem.
    assert (E : mapM (field_value float_of date_of apply r) (map (item_of float_of date_of None) args) = Ok ws).
    { clear -Ha HF Hr. induction Ha as [|e w es ws He _ IHl]; [reflexivity|]. cbn [map mapM].
      rewrite (means_value float_of date_of HF apply r Hr (esize e) e w None (le_n _) He). cbn [bind]. rewrite IHl. reflexivity. }
    rewrite E. cbn [bind]. rewrite Hx. cbn [bind].
    clear. induction more; cbn [map fold_left bind]; auto.
  Qed.
End Statements.
