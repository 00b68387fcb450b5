(** Proofs: the parts of SQL statements. *)
From Coq Require Import Lia.
From Verif.Base Require Import Py Value PyFacts.
From Verif.Model Require Import Dates Tokens Splitter Evaluator Sql.
From Verif.Spec Require Import Tokens Evaluator Sql.
From Verif.Proofs Require Import Tokens Labels Splitter Sql.
From Verif.Proofs Require Evaluator Functions.

Lemma strip_sides a b m : blanks a -> blanks b -> strip (a ++ m ++ b) = strip m.
Proof.
  intros Ha Hb. destruct (Functions.lstrip_parts m) as (x & Hx & Em & Hc). destruct (lstrip m) as [|c m'] eqn:L.
  - rewrite Em, app_nil_r. rewrite strip_blank, strip_blank; auto. intros d. rewrite !in_app_iff. intros [H|[H|H]]; auto.
  - destruct (Functions.lstrip_parts (rev (c :: m'))) as (y & Hy & Er & Hd).
    destruct (lstrip (rev (c :: m'))) as [|d r] eqn:L'.
    { exfalso. rewrite app_nil_r in Er. assert (is_space c = true); [|congruence]. apply Hy. rewrite <- Er. rewrite <- in_rev. now left. }
    assert (E : c :: m' = rev (d :: r) ++ rev y) by (rewrite <- rev_app_distr, <- Er, rev_involutive; reflexivity).
    assert (F : firm (rev (d :: r))).
    { assert (Z : rev (rev (d :: r)) = d :: r) by apply rev_involutive. revert Z E. generalize (rev (d :: r)). intros [|e q] Z E; [discriminate Z|].
      unfold firm. rewrite Z. split; auto. cbn [app] in E. injection E as -> _. exact Hc. }
    assert (By : blank (rev y)) by (intros e He; apply Hy; now apply in_rev).
    rewrite Em, E.
    rewrite (strip_firm x (rev (d :: r)) (rev y)) by auto.
    replace (a ++ (x ++ rev (d :: r) ++ rev y) ++ b) with ((a ++ x) ++ rev (d :: r) ++ (rev y ++ b)) by now rewrite <- !app_assoc.
    apply strip_firm; auto; intros e; rewrite in_app_iff; intros [H|H]; auto.
Qed.
Lemma strip_before a m : blanks a -> strip (a ++ m) = strip m.
Proof. intros Ha. rewrite <- (app_nil_r m) at 1. apply strip_sides; auto. intros ? []. Qed.
Lemma strip_nil_blanks m : strip m = [] -> blanks m.
Proof.
  intros H. destruct (Functions.lstrip_parts m) as (x & Hx & Em & Hc). unfold strip, rstrip in H.
  apply (f_equal (@rev _)) in H. rewrite rev_involutive in H. cbn in H.
  destruct (Functions.lstrip_parts (rev (lstrip m))) as (y & Hy & Er & Hd). rewrite H, app_nil_r in Er.
  rewrite Em. intros c. rewrite in_app_iff. intros [G|G]; auto. apply Hy. rewrite <- Er. now apply in_rev in G.
Qed.
Lemma strip_sub t c : In c (strip t) -> In c t.
Proof.
  unfold strip, rstrip. intros H. apply in_rev in H.
  destruct (Functions.lstrip_parts t) as (x & _ & E & _). rewrite E. apply in_or_app. right.
  destruct (Functions.lstrip_parts (rev (lstrip t))) as (y & _ & E' & _). apply in_rev. rewrite E'. apply in_or_app. now right.
Qed.

Section Parse.
  Context (float_of date_of : str -> option value) (HF : reads_floats float_of).
  Notation label := (get_token_type float_of date_of).

  Lemma label_empty t : ttype_beq (label t) EMPTY = str_eqb (strip t) [].
  Proof.
    unfold get_token_type. destruct (strip t) as [|c s] eqn:E; [reflexivity|].
    cbn [length Nat.eqb]. change (str_eqb (c :: s) []) with false.
    repeat match goal with |- context [if ?b then _ else _] => destruct b; try reflexivity
                         | |- context [match ?x with _ => _ end] => destruct x; try reflexivity end.
  Qed.
  Lemma label_left t : ttype_beq (label t) LEFTPAREN = true -> In (strip t) [$"("; $"["].
  Proof.
    unfold get_token_type. intros H.
    repeat match type of H with
           | context [if str_mem (strip t) [$"("; $"["] then _ else _] =>
               destruct (str_mem (strip t) [$"("; $"["]) eqn:E; [apply str_mem_In in E; exact E|]
           | context [if ?b then _ else _] => destruct b; try discriminate H
           | context [match ?x with _ => _ end] => destruct x; try discriminate H end.
  Qed.
  Lemma label_right t : ttype_beq (label t) RIGHTPAREN = true -> In (strip t) [$")"; $"]"].
  Proof.
    unfold get_token_type. intros H.
    repeat match type of H with
           | context [if str_mem (strip t) [$")"; $"]"] then _ else _] =>
               destruct (str_mem (strip t) [$")"; $"]"]) eqn:E; [apply str_mem_In in E; exact E|]
           | context [if ?b then _ else _] => destruct b; try discriminate H
           | context [match ?x with _ => _ end] => destruct x; try discriminate H end.
  Qed.

  (** what comes after a part: nothing, or the next part *)
  Definition next (R : list str) : Prop := match R with [] => True | t :: _ => is_part t = true end.
  Definition plain (ps : list str) : Prop := Forall (fun p => is_part p = false) ps.

  Lemma collect_plain ps R : plain ps -> next R -> collect_tokens (ps ++ R) = (ps, R).
  Proof.
    intros Hp HR. induction Hp as [|p ps H _ IH]; cbn [app collect_tokens].
    - destruct R as [|t R]; auto. cbn in *. now rewrite HR.
    - rewrite H, IH. reflexivity.
  Qed.
  Lemma collector_plain ps R : plain ps -> next R -> collector (ps ++ R) = (strip (concat ps), R).
  Proof. intros. unfold collector. now rewrite collect_plain. Qed.

  Lemma part_not_empty t : is_part t = true -> str_eqb (strip t) [] = false.
  Proof.
    intros H. apply is_part_In in H. destruct (str_eqb (strip t) []) eqn:E; auto. exfalso. apply str_eqb_eq in E.
    apply strip_nil_blanks in E. destruct (parts_start _ H) as [Ha _]. destruct t as [|c t]; [discriminate Ha|]. cbn in Ha.
    specialize (E c (or_introl eq_refl)). rewrite <- upper_c_space in E. destruct (upper_c c) as [[] [] [] [] [] [] [] []]; try discriminate Ha; discriminate E.
  Qed.

  Lemma skip_plain ps R : next R -> exists a ps', ps = a ++ ps' /\ blanks (concat a) /\
    skip_empty float_of date_of (ps ++ R) = ps' ++ R /\
    match ps' with [] => True | t :: _ => str_eqb (strip t) [] = false end.
  Proof.
    intros HR. induction ps as [|p ps IH]; cbn [app skip_empty].
    - exists [], []. split; auto. split; [intros ? []|]. split; auto. destruct R as [|t R]; auto. cbn [skip_empty].
      rewrite label_empty, part_not_empty by exact HR. reflexivity.
    - rewrite label_empty. destruct (str_eqb (strip p) []) eqn:E.
      + destruct IH as (a & ps' & -> & Ha & Hk & Ht). exists (p :: a), ps'. split; auto. split; auto.
        cbn [concat]. intros c. rewrite in_app_iff. intros [H|H]; auto. apply str_eqb_eq in E. apply strip_nil_blanks in E. auto.
      + exists [], (p :: ps). split; auto. split; [intros ? []|]. split; auto.
  Qed.

  (** depth of parentheses *)
  Fixpoint deep (k : nat) (s : str) : option nat :=
    match s with
    | [] => Some k
    | c :: s' => if Ascii.eqb c "(" then deep (S k) s'
                 else if Ascii.eqb c ")" then match k with S k' => deep k' s' | O => None end
                 else deep k s'
    end.
  Lemma deep_app a b : forall k, deep k (a ++ b) = match deep k a with Some j => deep j b | None => None end.
  Proof.
    induction a as [|c a IH]; intros k; auto. cbn [app deep]. destruct (Ascii.eqb c "("); auto.
    destruct (Ascii.eqb c ")"); auto. destruct k; auto.
  Qed.
  Lemma deep_plain s : (forall c, In c s -> ~ In c $"()") -> forall k, deep k s = Some k.
  Proof.
    induction s as [|c s IH]; intros H k; auto. cbn [deep].
    destruct (Ascii.eqb_spec c "("); [subst; destruct (H _ (or_introl eq_refl)); vm_compute; tauto|].
    destruct (Ascii.eqb_spec c ")"); [subst; destruct (H _ (or_introl eq_refl)); vm_compute; tauto|].
    apply IH. intros d Hd. apply H. now right.
  Qed.
  Lemma balanced_deep q : balanced q -> (forall k, deep k q = Some k) /\ forall c, In c q -> ~ In c $"[]".
  Proof.
    induction 1 as [|c s Hc _ [IH1 IH2]|a b _ [IHa1 IHa2] _ [IHb1 IHb2]].
    - split; auto.
    - split.
      + intros k. cbn [deep]. destruct (Ascii.eqb_spec c "("); [subst; destruct Hc; vm_compute; tauto|].
        destruct (Ascii.eqb_spec c ")"); [subst; destruct Hc; vm_compute; tauto|]. apply IH1.
      + intros d [<-|Hd]; auto. intros H. apply Hc. vm_compute in H |- *. tauto.
    - split.
      + intros k. rewrite deep_app. cbn [list_ascii_of_string deep Ascii.eqb Bool.eqb]. rewrite deep_app, IHa1. apply IHb1.
      + intros d. rewrite !in_app_iff. intros [H|[H|[H|H]]]; auto; vm_compute in H; destruct H as [<-|[]]; vm_compute; intuition discriminate.
  Qed.

  Lemma query_deep ps : Forall lone ps -> (forall c, In c (concat ps) -> ~ In c $"[]") -> forall k k' R, deep k (concat ps) = Some k' ->
    query_tokens float_of date_of (S k) (ps ++ R) =
    let* (q, rest) := query_tokens float_of date_of (S k') R in Ok (ps ++ q, rest).
  Proof.
    induction 1 as [|p ps Hp _ IH]; intros Hb k k' R H.
    - cbn in H. injection H as <-. cbn [app]. destruct (query_tokens _ _ _ R) as [[q rest]|e]; reflexivity.
    - cbn [concat] in H, Hb. rewrite deep_app in H. cbn [app query_tokens].
      assert (Hb' : forall c, In c (concat ps) -> ~ In c $"[]") by (intros c Hc; apply Hb; apply in_or_app; now right).
      destruct Hp as [->|[->|Hp]].
      + rewrite (Evaluator.label_open float_of date_of HF). cbn [ttype_beq].
        cbn [list_ascii_of_string deep Ascii.eqb Bool.eqb] in H. rewrite (IH Hb' _ _ R H).
        destruct (query_tokens _ _ (S k') R) as [[q rest]|e]; reflexivity.
      + rewrite (Evaluator.label_close float_of date_of HF). cbn [ttype_beq].
        cbn [list_ascii_of_string deep Ascii.eqb Bool.eqb] in H. destruct k as [|k]; [discriminate H|]. rewrite (IH Hb' _ _ R H).
        destruct (query_tokens _ _ (S k') R) as [[q rest]|e]; reflexivity.
      + rewrite deep_plain in H by exact Hp.
        assert (N : In (strip p) [$"("; $"["; $")"; $"]"] -> False).
        { intros G. assert (exists c, In c p /\ In c $"()[]") as (c & Hc & G').
          { cbn [In] in G. repeat match type of G with _ \/ _ => destruct G as [G|G] | False => destruct G end;
              (eexists; split; [apply strip_sub; rewrite <- G; now left|vm_compute; tauto]). }
          assert (Hc' : In c (p ++ concat ps)) by (apply in_or_app; now left). specialize (Hp c Hc). specialize (Hb c Hc').
          vm_compute in G', Hp, Hb. tauto. }
        assert (N1 : ttype_beq (label p) RIGHTPAREN = false).
        { destruct (ttype_beq (label p) RIGHTPAREN) eqn:E; auto. exfalso. apply label_right in E. apply N. cbn in E |- *. tauto. }
        assert (N2 : ttype_beq (label p) LEFTPAREN = false).
        { destruct (ttype_beq (label p) LEFTPAREN) eqn:E; auto. exfalso. apply label_left in E. apply N. cbn in E |- *. tauto. }
        rewrite N1, N2, (IH Hb' _ _ R H). destruct (query_tokens _ _ (S k') R) as [[q rest]|e]; reflexivity.
  Qed.

  Notation run_clause := (one_clause float_of date_of).
  Lemma is_part_upper k w : upper k = w -> str_mem w SQL_PARTS = true -> is_part k = true.
  Proof. intros E H. unfold is_part. now rewrite E. Qed.
  Ltac one Hk := unfold one_clause; rewrite part_not_empty by (eapply is_part_upper; [exact Hk|reflexivity]); rewrite Hk; reflexivity.

  Lemma one_blank st t ts : strip t = [] -> run_clause st t ts = Ok (st, ts).
  Proof. intros H. unfold one_clause. rewrite H. reflexivity. Qed.
  Lemma one_select st k ts : upper k = $"SELECT" -> run_clause st k ts =
      match skip_empty float_of date_of ts with
      | [] => Raise IndexError
      | t' :: ts' =>
          let d := str_eqb (upper t') $"DISTINCT" in
          let (e, rest) := collector (if d then skip_empty float_of date_of ts' else t' :: ts') in
          Ok (set_select e d st, rest)
      end.
  Proof. intros Hk. one Hk. Qed.
  Lemma one_from st k ts : upper k = $"FROM" -> run_clause st k ts =
      match skip_empty float_of date_of ts with
      | [] => Raise IndexError
      | t' :: ts' =>
          if ttype_beq (label t') LEFTPAREN then
            let* (q, rest) := query_tokens float_of date_of 1 ts' in Ok (set_from (Query q) st, rest)
          else
            let (e, rest) := collector (t' :: ts') in
            Ok (set_from (Name (dots_to_slashes e)) st, rest)
      end.
  Proof. intros Hk. one Hk. Qed.
  Lemma one_where st k ts : upper k = $"WHERE" -> run_clause st k ts = let (e, rest) := collector ts in Ok (set_where e st, rest).
  Proof. intros Hk. one Hk. Qed.
  Lemma one_group st k ts : upper k = $"GROUP BY" -> run_clause st k ts = let (e, rest) := collector ts in Ok (set_group e st, rest).
  Proof. intros Hk. one Hk. Qed.
  Lemma one_having st k ts : upper k = $"HAVING" -> run_clause st k ts = let (e, rest) := collector ts in Ok (set_having e st, rest).
  Proof. intros Hk. one Hk. Qed.
  Lemma one_order st k ts : upper k = $"ORDER BY" -> run_clause st k ts =
      let (e, rest) := collector ts in
      match rest with
      | [] => Ok (set_order e (order_descending st) st, [])
      | t' :: rest' =>
          Ok (set_order e (if str_mem (upper t') [$"ASC"; $"DESC"] then str_eqb (upper t') $"DESC"
                           else order_descending st) st, rest')
      end.
  Proof. intros Hk. one Hk. Qed.
  Lemma one_limit st k ts : upper k = $"LIMIT" -> run_clause st k ts =
      let (e, rest) := collector ts in let* n := py_int e in Ok (set_limit n st, rest).
  Proof. intros Hk. one Hk. Qed.

  (** ** What a part does *)
  Definition applied (st : statement) (p : part) (st' : statement) : Prop :=
    match p with
    | Select d e => st' = set_select e d st
    | From d => st' = set_from (Name (dots_to_slashes d)) st
    | FromQuery q => exists ts, concat ts = q /\ st' = set_from (Query ts) st
    | Where e => st' = set_where e st
    | GroupBy e => st' = set_group e st
    | Having e => st' = set_having e st
    | OrderBy c d => st' = set_order c (match d with Some b => b | None => order_descending st end) st
    | Limit n => st' = set_limit n st
    end.

  Lemma last_not_word prev s : ends_apart s -> s <> [] -> not_word_at_end (last_or prev s) = true.
  Proof.
    intros H Hs. unfold last_or. destruct (rev s) as [|c t] eqn:E.
    - apply (f_equal (@rev _)) in E. rewrite rev_involutive in E. contradiction.
    - cbn. apply (f_equal (@rev _)) in E. rewrite rev_involutive in E. cbn in E. specialize (H c (rev t) E).
      destruct (is_word c) eqn:W; auto. destruct H. now apply word_char_spec.
  Qed.
  Lemma starts_nonword b rest : starts_apart b -> b <> [] -> nonword_start (b ++ rest).
  Proof.
    intros H Hb. destruct b as [|c b]; [congruence|]. cbn. specialize (H c b eq_refl).
    destruct (is_word c) eqn:W; auto. destruct H. now apply word_char_spec.
  Qed.
  Lemma part_end k : is_part k = true -> ~ ends_apart k.
  Proof.
    intros H E. apply is_part_In in H.
    assert (T : forallb (fun k => not_word_at_end (last_or None k)) SQL_PARTS = false /\
                forall w, In w SQL_PARTS -> not_word_at_end (last_or None w) = false).
    { split; [vm_compute; reflexivity|]. intros w Hw. cases_of Hw; subst w; reflexivity. }
    destruct T as [_ T]. specialize (T _ H).
    assert (Hk : k <> []) by (intros ->; cases_of H; discriminate).
    pose proof (last_not_word None k E Hk) as L. unfold last_or in *. unfold upper in T. rewrite <- map_rev in T.
    destruct (rev k) as [|c t]; cbn in *; [discriminate|]. rewrite upper_c_word in T. congruence.
  Qed.
  Lemma blank_words a w : blanks a -> In w (words a) -> ~ In (upper w) sql_words.
  Proof.
    intros Ha Hw. rewrite <- (app_nil_r a) in Hw. apply Evaluator.words_blank_before in Hw; auto.
    assert (w = []) as -> by (destruct Hw as [H|[H|[]]]; auto). exact sql_nonempty.
  Qed.
  Lemma blank_starts b rest : blanks b -> b <> [] -> nonword_start (b ++ rest).
  Proof.
    intros Hb Hn. destruct b as [|c b]; [congruence|]. cbn. specialize (Hb c (or_introl eq_refl)).
    destruct (is_word c) eqn:E; auto. apply word_not_space in E. congruence.
  Qed.
  Lemma last_or_two prev u v : last_or prev (u ++ v) = last_or (last_or prev u) v.
  Proof. apply Evaluator.last_or_app'. Qed.

  Lemma seg k b prev rest : is_part k = true -> not_word_at_end prev = true -> nonword_start (b ++ rest) ->
    (forall w, In w (words b) -> ~ In (upper w) sql_words) ->
    nonword_start rest \/ not_word_at_end (last_or prev (k ++ b)) = true -> begins_part (last_or prev (k ++ b)) rest ->
    exists ps, ne (scut 0 prev [] (k ++ b ++ rest)) = k :: ps ++ ne (scut 0 (last_or prev (k ++ b)) [] rest) /\
      concat ps = b /\ plain ps.
  Proof.
    intros Hk Hp Hs Hw Hr Hb. rewrite key_cut by auto. rewrite last_or_two in *.
    destruct (body_cut b [] (last_or prev k) [] rest) as (ps & E1 & E2 & E3); auto.
    - destruct (not_word_at_end (last_or prev k)); auto.
    - exists ps. rewrite E1. split; auto.
  Qed.

  (** what may come after a part: nothing, or the next one *)
  Definition follows (s rest : str) : Prop :=
    rest = [] \/ (ends_apart s /\ exists k r, rest = k ++ r /\ is_part k = true /\ nonword_start r).
  Lemma follows_begins s rest prev : s <> [] -> follows s rest ->
    (nonword_start rest \/ not_word_at_end (last_or prev s) = true) /\ begins_part (last_or prev s) rest.
  Proof.
    intros Hs [->|(He & k & r & -> & Hk & Hr)]; [split; left; [exact I|reflexivity]|].
    pose proof (last_not_word prev s He Hs) as L. split; auto. right. eexists. apply part_key; auto.
  Qed.

  Lemma ends_apart_app a b : b <> [] -> ends_apart (a ++ b) -> ends_apart b.
  Proof. intros Hb H c s' ->. apply (H c (a ++ s')). now rewrite <- app_assoc. Qed.

  (** a word and its body *)
  Lemma word_body k b prev rest : is_part k = true -> not_word_at_end prev = true -> body b -> follows (k ++ b) rest ->
    exists ps, ne (scut 0 prev [] (k ++ b ++ rest)) = k :: ps ++ ne (scut 0 (last_or prev (k ++ b)) [] rest) /\
      concat ps = b /\ plain ps.
  Proof.
    intros Hk Hp [Hb Hw] Hf.
    assert (Hs : k ++ b <> []) by (destruct k; [discriminate Hk|discriminate]).
    destruct (follows_begins _ _ prev Hs Hf) as [F1 F2]. apply seg; auto.
    destruct b as [|c b]; [|apply starts_nonword; auto; discriminate]. destruct Hf as [->|(He & _)]; [exact I|].
    rewrite app_nil_r in He. destruct (part_end k Hk He).
  Qed.

  Definition does (p : part) (ts : list str) : Prop := forall R st, next R -> ((exists c, p = OrderBy c None) -> R = []) ->
    exists st' n, applied st p st' /\ n <= length ts /\
      forall f, clauses float_of date_of (n + f) st (ts ++ R) = clauses float_of date_of f st' R.

  Lemma does_simple p k ps : (forall st R, next R -> ((exists c, p = OrderBy c None) -> R = []) ->
      exists st', applied st p st' /\ run_clause st k (ps ++ R) = Ok (st', R)) -> does p (k :: ps).
  Proof.
    intros H R st HR Ho. destruct (H st R HR Ho) as (st' & A & E). exists st', 1. split; auto. split; [cbn; lia|].
    intros f. cbn [Nat.add app clauses]. rewrite E. reflexivity.
  Qed.

  Lemma blank_tokens bs R st : (forall t, In t bs -> strip t = []) ->
    forall f, clauses float_of date_of (length bs + f) st (bs ++ R) = clauses float_of date_of f st R.
  Proof.
    induction bs as [|t bs IH]; intros H f; auto. cbn [length Nat.add app clauses].
    rewrite one_blank by (apply H; now left). cbn [bind]. apply IH. intros u Hu. apply H. now right.
  Qed.
  Lemma blank_concat ps : blanks (concat ps) -> forall t, In t ps -> strip t = [].
  Proof.
    intros H t Ht. apply strip_blank. intros c Hc. apply H. apply in_concat. eauto.
  Qed.

  Lemma plain_head t ps : plain (t :: ps) -> str_eqb (upper t) $"DISTINCT" = false.
  Proof.
    intros H. inversion H; subst. destruct (str_eqb (upper t) $"DISTINCT") eqn:E; auto. apply str_eqb_eq in E.
    rewrite (is_part_upper t _ E eq_refl) in H2. discriminate.
  Qed.
  Lemma plain_app a b : plain (a ++ b) -> plain a /\ plain b.
  Proof. apply Forall_app. Qed.

  Lemma does_select k ps : upper k = $"SELECT" -> plain ps -> strip (concat ps) <> [] -> does (Select false (strip (concat ps))) (k :: ps).
  Proof.
    intros Hk Hp Hs. apply does_simple. intros st R HR _. eexists. split; [reflexivity|]. rewrite one_select by auto.
    destruct (skip_plain ps R HR) as (a & ps' & -> & Ha & -> & Ht). apply plain_app in Hp as [_ Hp].
    rewrite concat_app in *. rewrite strip_before in * by auto. destruct ps' as [|t ps']; [now destruct Hs|].
    cbn [app]. rewrite (plain_head t ps' Hp). change (t :: ps' ++ R) with ((t :: ps') ++ R).
    rewrite collector_plain by auto. reflexivity.
  Qed.
  Lemma does_distinct k as_ d ps : upper k = $"SELECT" -> upper d = $"DISTINCT" -> blanks (concat as_) -> plain ps ->
    does (Select true (strip (concat ps))) (k :: as_ ++ d :: ps).
  Proof.
    intros Hk Hd Ha Hp. apply does_simple. intros st R HR _. eexists. split; [reflexivity|]. rewrite one_select by auto.
    assert (N : next (d :: ps ++ R)) by (cbn; eapply is_part_upper; eauto).
    rewrite <- app_assoc. cbn [app]. destruct (skip_plain as_ (d :: ps ++ R) N) as (a & as' & -> & _ & -> & Ht).
    assert (as' = []) as ->.
    { destruct as' as [|t as']; auto. exfalso. rewrite (blank_concat _ Ha t) in Ht; [discriminate|]. apply in_or_app. right. now left. }
    cbn [app]. rewrite Hd. change (str_eqb $"DISTINCT" $"DISTINCT") with true. cbv beta zeta iota.
    destruct (skip_plain ps R HR) as (b & ps' & -> & Hb & -> & _). apply plain_app in Hp as [_ Hp].
    rewrite collector_plain by auto. rewrite concat_app, strip_before by auto. reflexivity.
  Qed.
  Lemma does_from k ps : upper k = $"FROM" -> plain ps -> strip (concat ps) <> [] ->
    (forall c s, strip (concat ps) = c :: s -> ~ In c $"([") -> does (From (strip (concat ps))) (k :: ps).
  Proof.
    intros Hk Hp Hs Hc. apply does_simple. intros st R HR _. eexists. split; [reflexivity|]. rewrite one_from by auto.
    destruct (skip_plain ps R HR) as (a & ps' & -> & Ha & -> & Ht). apply plain_app in Hp as [_ Hp].
    rewrite concat_app in *. rewrite strip_before in * by auto. destruct ps' as [|t ps']; [now destruct Hs|].
    cbn [app].
    assert (L : ttype_beq (label t) LEFTPAREN = false).
    { destruct (ttype_beq (label t) LEFTPAREN) eqn:E; auto. exfalso. apply label_left in E.
      destruct (Functions.lstrip_parts t) as (x & Hx & Et & _). cbn [concat] in Hc.
      assert (T : exists c s, strip (t ++ concat ps') = c :: s /\ In c $"([").
      { assert (exists c y, lstrip t = c :: y /\ In c $"([") as (c & y & E1 & E2).
        { assert (G : forall c r, strip t = c :: r -> exists y, lstrip t = c :: y).
          { intros c r G. unfold strip, rstrip in G. destruct (Functions.lstrip_parts (rev (lstrip t))) as (z & Hz & Ez & _).
            apply (f_equal (@rev _)) in Ez. rewrite rev_involutive, rev_app_distr, G in Ez. rewrite Ez. eexists. reflexivity. }
          cbn [In] in E. destruct E as [E|[E|[]]]; symmetry in E; apply G in E as (y & E); eexists _, y; (split; [exact E|vm_compute; tauto]). }
        rewrite Et, E1, <- app_assoc, strip_before by auto. cbn [app]. exists c.
        assert (Sc : is_space c = false) by (cases_of E2; subst c; reflexivity).
        unfold strip. rewrite lstrip_nonspace by auto. unfold rstrip.
        destruct (Functions.lstrip_parts (rev (c :: y ++ concat ps'))) as (z & Hz & Ez & _).
        apply (f_equal (@rev _)) in Ez. rewrite rev_involutive, rev_app_distr in Ez.
        destruct (rev (lstrip (rev (c :: y ++ concat ps')))) as [|e r]; [|cbn in Ez; injection Ez as -> _; eauto].
        exfalso. cbn in Ez. assert (is_space c = true); [|congruence]. apply Hz. apply in_rev. rewrite <- Ez. now left. }
      destruct T as (c & s & E1 & E2). eapply Hc; eauto. }
    rewrite L. change (t :: ps' ++ R) with ((t :: ps') ++ R). rewrite collector_plain by auto. reflexivity.
  Qed.

  Lemma does_query k as_ qs bs : upper k = $"FROM" -> blanks (concat as_) -> blanks (concat bs) -> balanced (concat qs) -> Forall lone qs ->
    does (FromQuery (concat qs)) (k :: as_ ++ $"(" :: qs ++ $")" :: bs).
  Proof.
    intros Hk Ha Hb Hq Hl R st HR _. exists (set_from (Query qs) st), (1 + length bs). split; [exists qs; auto|].
    split; [cbn [length]; rewrite app_length; cbn [length]; rewrite app_length; cbn [length]; lia|].
    intros f. cbn [Nat.add app clauses]. rewrite one_from by auto.
    assert (S : skip_empty float_of date_of ((as_ ++ $"(" :: qs ++ $")" :: bs) ++ R) = $"(" :: qs ++ $")" :: bs ++ R).
    { rewrite <- app_assoc. cbn [app]. rewrite <- app_assoc. cbn [app].
      pose proof (blank_concat _ Ha) as B. clear -B HF. induction as_ as [|t as_ IH]; cbn [app skip_empty].
      - rewrite (Evaluator.label_open float_of date_of HF). reflexivity.
      - rewrite label_empty, (B t) by now left. apply IH. intros u Hu. apply B. now right. }
    rewrite S. rewrite (Evaluator.label_open float_of date_of HF). cbn [ttype_beq].
    destruct (balanced_deep _ Hq) as [D Nb].
    rewrite (query_deep qs Hl Nb 0 0 ($")" :: bs ++ R) (D 0)). cbn [query_tokens].
    rewrite (Evaluator.label_close float_of date_of HF). cbn [ttype_beq bind]. rewrite app_nil_r.
    apply blank_tokens. now apply blank_concat.
  Qed.

  Lemma part_tokens p s : written_part p s -> forall prev rest, not_word_at_end prev = true -> follows s rest ->
    exists ts, ne (scut 0 prev [] (s ++ rest)) = ts ++ ne (scut 0 (last_or prev s) [] rest) /\ concat ts = s /\ next ts /\ ts <> [] /\ does p ts.
  Proof.
    intros W prev rest Hp Hf. destruct W.
    - assert (P : is_part k = true) by (eapply is_part_upper; eauto; reflexivity). rewrite <- app_assoc.
      destruct (word_body k b prev rest P Hp H0 Hf) as (ps & E1 & E2 & E3). exists (k :: ps). split; [exact E1|]. split; [cbn; congruence|].
      split; [exact P|]. split; [discriminate|]. subst b. apply does_select; auto.
    - assert (P : is_part k = true) by (eapply is_part_upper; eauto; reflexivity).
      assert (Q : is_part d = true) by (eapply is_part_upper; eauto; reflexivity). rewrite <- !app_assoc.
      assert (Hf' : follows (d ++ b) rest).
      { destruct Hf as [->|(He & Hr)]; [now left|]. right. split; auto. rewrite app_assoc in He. apply ends_apart_app in He; auto.
        destruct d; [discriminate Q|discriminate]. }
      assert (Hn : not_word_at_end (last_or prev (k ++ a)) = true).
      { rewrite last_or_two. destruct a as [|c a]; [congruence|]. rewrite last_or_cons. apply Evaluator.blank_end.
        - intros x Hx. apply H0. now right.
        - cbn. specialize (H0 c (or_introl eq_refl)). destruct (is_word c) eqn:E; auto. apply word_not_space in E. congruence. }
      assert (Hd : nonword_start (b ++ rest)).
      { destruct b as [|c b]; [|apply starts_nonword; [apply H3|discriminate]]. destruct Hf' as [->|(He & _)]; [exact I|].
        rewrite app_nil_r in He. destruct (part_end d Q He). }
      destruct (seg k a prev (d ++ b ++ rest) P Hp) as (as_ & A1 & A2 & A3); auto.
      { now apply blank_starts. } { intros w. now apply blank_words. } { right. eexists. apply part_key; auto. }
      destruct (word_body d b (last_or prev (k ++ a)) rest Q Hn H3 Hf') as (ps & E1 & E2 & E3).
      exists (k :: as_ ++ d :: ps). rewrite A1, E1. rewrite !last_or_two in *.
      split; [cbn [app]; now rewrite <- app_assoc|]. split; [cbn [concat]; rewrite concat_app; cbn [concat]; congruence|].
      split; [exact P|]. split; [discriminate|]. subst b. apply does_distinct; auto. now rewrite A2.
    - assert (P : is_part k = true) by (eapply is_part_upper; eauto; reflexivity). rewrite <- app_assoc.
      destruct (word_body k b prev rest P Hp H0 Hf) as (ps & E1 & E2 & E3). exists (k :: ps). split; [exact E1|]. split; [cbn; congruence|].
      split; [exact P|]. split; [discriminate|]. subst b. apply does_from; auto.
    - assert (P : is_part k = true) by (eapply is_part_upper; eauto; reflexivity). rewrite <- !app_assoc. cbn [list_ascii_of_string app].
      destruct (seg k a prev ("("%char :: q ++ ")"%char :: b ++ rest) P Hp) as (as_ & A1 & A2 & A3).
      { destruct a as [|c a]; [reflexivity|]. apply blank_starts; auto. discriminate. } { intros w. now apply blank_words. } { now left. }
      { right. eexists. apply part_sgn. vm_compute. tauto. }
      rewrite A1. cbn [cut]. rewrite part_sgn by (vm_compute; tauto). cbn [firstn Nat.pred].
      rewrite ne_cons. change (ne [rev []]) with (@nil str). cbn [app].
      rewrite (ne_full $"(") by discriminate.
      destruct (cut_any (length q) q (le_n _) (Some "("%char) [] ")"%char (b ++ rest)) as (qs & Q1 & Q2 & Q3); [vm_compute; tauto|intros ? []|].
      rewrite Q1.
      assert (Hb : exists bs, ne (scut 0 (Some ")"%char) [] (b ++ rest)) = bs ++ ne (scut 0 (last_or (Some ")"%char) b) [] rest) /\ concat bs = b).
      { destruct (body_cut b [] (Some ")"%char) [] rest) as (bs & B1 & B2 & B3).
        - now left. - intros ? []. - auto.
        - right. apply Evaluator.blank_end; auto.
        - destruct Hf as [->|(He & k' & r & -> & Hk' & Hr)]; [now left|]. right. eexists. apply part_key; auto. apply Evaluator.blank_end; auto.
        - intros w. now apply blank_words.
        - exists bs. auto. }
      destruct Hb as (bs & B1 & B2). rewrite B1. exists (k :: as_ ++ $"(" :: qs ++ $")" :: bs).
      rewrite !last_or_two. split.
      { cbn [app]. f_equal. rewrite <- !app_assoc. f_equal. cbn [app list_ascii_of_string]. f_equal. rewrite <- app_assoc. f_equal. cbn [app]. f_equal.
        rewrite last_or_cons. rewrite last_or_two, last_or_cons. reflexivity. }
      split. { cbn [concat]. rewrite concat_app. cbn [concat]. rewrite concat_app. cbn [concat]. rewrite A2, Q2, B2. cbn [rev app list_ascii_of_string]. reflexivity. }
      split; [exact P|]. split; [discriminate|]. cbn [rev app] in Q2. rewrite <- Q2. apply does_query; auto; [now rewrite A2|now rewrite B2|now rewrite Q2].
    - assert (P : is_part k = true) by (eapply is_part_upper; eauto; reflexivity). rewrite <- app_assoc.
      destruct (word_body k b prev rest P Hp H0 Hf) as (ps & E1 & E2 & E3). exists (k :: ps). split; [exact E1|]. split; [cbn; congruence|].
      split; [exact P|]. split; [discriminate|]. subst b. apply does_simple. intros st R HR _. eexists. split; [reflexivity|].
      rewrite one_where by auto. now rewrite collector_plain.
    - assert (P : is_part k = true) by (eapply is_part_upper; eauto; reflexivity). rewrite <- app_assoc.
      destruct (word_body k b prev rest P Hp H0 Hf) as (ps & E1 & E2 & E3). exists (k :: ps). split; [exact E1|]. split; [cbn; congruence|].
      split; [exact P|]. split; [discriminate|]. subst b. apply does_simple. intros st R HR _. eexists. split; [reflexivity|].
      rewrite one_group by auto. now rewrite collector_plain.
    - assert (P : is_part k = true) by (eapply is_part_upper; eauto; reflexivity). rewrite <- app_assoc.
      destruct (word_body k b prev rest P Hp H0 Hf) as (ps & E1 & E2 & E3). exists (k :: ps). split; [exact E1|]. split; [cbn; congruence|].
      split; [exact P|]. split; [discriminate|]. subst b. apply does_simple. intros st R HR _. eexists. split; [reflexivity|].
      rewrite one_having by auto. now rewrite collector_plain.
    - assert (P : is_part k = true) by (eapply is_part_upper; eauto; reflexivity). rewrite <- app_assoc.
      destruct (word_body k b prev rest P Hp H0 Hf) as (ps & E1 & E2 & E3). exists (k :: ps). split; [exact E1|]. split; [cbn; congruence|].
      split; [exact P|]. split; [discriminate|]. subst b. apply does_simple. intros st R HR Ho. eexists. split; [reflexivity|].
      rewrite one_order by auto. rewrite collector_plain by auto. rewrite Ho by eauto. reflexivity.
    - assert (P : is_part k = true) by (eapply is_part_upper; eauto; reflexivity).
      assert (Q : is_part d = true).
      { cbn [In] in H3. destruct H3 as [E|[E|[]]]; symmetry in E; eapply is_part_upper; eauto; reflexivity. }
      rewrite <- !app_assoc.
      assert (Hd : follows (d ++ b') rest).
      { destruct Hf as [->|(He & Hr)]; [now left|]. right. split; auto. rewrite app_assoc in He. apply ends_apart_app in He; auto.
        destruct d; [discriminate Q|discriminate]. }
      assert (Hn : nonword_start (b' ++ rest)).
      { destruct b' as [|c b']; [|apply blank_starts; auto; discriminate]. destruct Hd as [->|(He & _)]; [exact I|].
        rewrite app_nil_r in He. destruct (part_end d Q He). }
      assert (Hl : not_word_at_end (last_or prev (k ++ b)) = true).
      { rewrite last_or_two. now apply last_not_word. }
      destruct (seg k b prev (d ++ b' ++ rest) P Hp) as (ps & A1 & A2 & A3); auto.
      { apply starts_nonword; auto. apply H0. } { apply H0. } { right. eexists. apply part_key; auto. }
      assert (Hs : d ++ b' <> []) by (destruct d; [discriminate Q|discriminate]).
      destruct (follows_begins _ _ (last_or prev (k ++ b)) Hs Hd) as [F1 F2].
      destruct (seg d b' (last_or prev (k ++ b)) rest Q Hl Hn) as (bs & B1 & B2 & B3); auto. { intros w. now apply blank_words. }
      exists (k :: ps ++ d :: bs). rewrite A1, B1. rewrite !last_or_two in *.
      split; [cbn [app]; now rewrite <- app_assoc|]. split; [cbn [concat]; rewrite concat_app; cbn [concat]; congruence|].
      split; [exact P|]. split; [discriminate|]. subst b.
      intros R st HR _. eexists _, (1 + length bs). split; [reflexivity|].
      split; [cbn [length]; rewrite app_length; cbn [length]; lia|].
      intros f. cbn [Nat.add app clauses]. rewrite one_order by auto. rewrite <- app_assoc. cbn [app].
      rewrite collector_plain by (auto; exact Q). cbn [bind].
      assert (M : str_mem (upper d) [$"ASC"; $"DESC"] = true) by now apply str_mem_In. rewrite M.
      apply blank_tokens. apply blank_concat. now rewrite B2.
    - assert (P : is_part k = true) by (eapply is_part_upper; eauto; reflexivity). rewrite <- app_assoc.
      destruct (word_body k b prev rest P Hp H0 Hf) as (ps & E1 & E2 & E3). exists (k :: ps). split; [exact E1|]. split; [cbn; congruence|].
      split; [exact P|]. split; [discriminate|]. subst b. apply does_simple. intros st R HR _. eexists. split; [reflexivity|].
      rewrite one_limit by auto. rewrite collector_plain by auto. rewrite H1, py_int_decZ. reflexivity.
  Qed.
End Parse.
