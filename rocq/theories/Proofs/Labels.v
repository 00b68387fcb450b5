(** Proofs: the labels of tokens. *)
From Verif.Base Require Import Py PyFacts Value.
From Verif.Model Require Import Dates Tokens.
From Verif.Spec Require Import Tokens.
From Verif.Proofs Require Import DateText Tokens.

Lemma existsb_exists_false {A} (f : A -> bool) l : existsb f l = false <-> forall x, In x l -> f x = false.
Proof.
  induction l as [|a l IH]; cbn; [firstorder|]. rewrite orb_false_iff, IH. split.
  - intros [H1 H2] x [<-|H]; auto.
  - intro H. split; [apply H; now left|intros x Hx; apply H; now right].
Qed.


  (** py_int *)
  Lemma ulstrip_firm c s : is_uspace c = false -> ulstrip (c :: s) = c :: s.
  Proof. intro H. cbn. now rewrite H. Qed.

  Definition solid (s : str) : Prop :=
    match s, rev s with c :: _, d :: _ => is_uspace c = false /\ is_uspace d = false | _, _ => False end.
  Lemma ustrip_solid s : solid s -> ustrip s = s.
  Proof.
    unfold solid, ustrip. destruct s as [|c s]; [tauto|]. destruct (rev (c :: s)) as [|d t] eqn:E; [tauto|].
    intros [Hc Hd]. rewrite ulstrip_firm by auto. rewrite E, ulstrip_firm by auto. rewrite <- E. apply rev_involutive.
  Qed.

  Lemma digits_solid s : s <> [] -> (forall c, In c s -> is_digit c = true) -> solid s.
  Proof.
    intros Hne Hd. assert (G : forall c, is_digit c = true -> is_uspace c = false).
    { intros c Hc. destruct c as [[] [] [] [] [] [] [] []]; try reflexivity; discriminate. }
    unfold solid. destruct s as [|c s]; [congruence|]. destruct (rev (c :: s)) as [|d t] eqn:Er.
    - apply (f_equal (@rev _)) in Er. rewrite rev_involutive in Er. discriminate.
    - split; apply G, Hd; [now left|]. apply in_rev. rewrite Er. now left.
  Qed.

  Lemma solid_minus s : solid s -> solid ("-"%char :: s).
  Proof.
    unfold solid. destruct s as [|c s]; [tauto|]. intro H. change (rev ("-"%char :: c :: s)) with (rev (c :: s) ++ ["-"%char]).
    destruct (rev (c :: s)) as [|d t]; [tauto|]. cbn [app]. now split.
  Qed.

  Lemma py_int_decZ n : py_int (decZ n) = Ok n.
  Proof.
    unfold decZ. destruct (Z.ltb_spec n 0).
    - pose proof (py_int_digits _ _ (undec_dec (Z.to_N (- n)))) as H1.
      pose proof (digits_solid _ (dec_nonempty (Z.to_N (- n))) (dec_digits (Z.to_N (- n)))) as Hs.
      pose proof (dec_digits (Z.to_N (- n))) as Hd. unfold py_int in H1. rewrite ustrip_solid in H1 by auto.
      unfold py_int. cbn [app list_ascii_of_string]. rewrite ustrip_solid by now apply solid_minus.
      destruct (dec (Z.to_N (- n))) as [|c s] eqn:E; [destruct Hs|].
      assert (Hcc : is_digit c = true) by (apply Hd; now left).
      assert (H1' : int_unsigned (c :: s) = Ok (Z.of_N (Z.to_N (- n)))).
      { destruct c as [[] [] [] [] [] [] [] []]; try discriminate Hcc; exact H1. }
      rewrite H1'. cbn [bind]. f_equal. lia.
    - rewrite (py_int_digits _ _ (undec_dec (Z.to_N n))). f_equal. lia.
  Qed.

  Lemma ulstrip_incl s : exists p, s = p ++ ulstrip s.
  Proof.
    induction s as [|c s [p IH]]; [now exists []|]. cbn. destruct (is_uspace c); [|now exists []].
    exists (c :: p). cbn. now f_equal.
  Qed.

  Lemma py_int_first c s : is_uspace c = false -> digit_val c = None -> c <> "-"%char -> c <> "+"%char ->
    py_int (c :: s) = Raise ValueError.
  Proof.
    intros Hu Hd H1 H2. unfold py_int, ustrip. rewrite ulstrip_firm by auto.
    assert (E : exists t, rev (ulstrip (rev (c :: s))) = c :: t).
    { destruct (ulstrip_incl (rev (c :: s))) as [p Hp].
      apply (f_equal (@rev _)) in Hp. rewrite rev_involutive, rev_app_distr in Hp.
      destruct (rev (ulstrip (rev (c :: s)))) as [|d t] eqn:E; [|cbn in Hp; injection Hp as <- _; eauto].
      exfalso. apply (f_equal (@rev _)) in E. rewrite rev_involutive in E. cbn in E.
      assert (G : forall a, ulstrip (a ++ [c]) <> []).
      { induction a as [|x a IH]; cbn; [rewrite Hu; discriminate|]. destruct (is_uspace x); [auto|discriminate]. }
      now apply (G (rev s)). }
    destruct E as [t ->]. cbn [bind]. unfold int_unsigned.
    destruct c as [[] [] [] [] [] [] [] []]; try congruence; now rewrite Hd.
  Qed.

  Lemma alpha_not_int c : is_alpha c = true \/ c = "_"%char ->
    is_uspace c = false /\ digit_val c = None /\ c <> "-"%char /\ c <> "+"%char /\ is_space c = false /\
    is_quote c = false.
  Proof.
    intros [H| ->]; [|repeat split; try reflexivity; discriminate].
    destruct c as [[] [] [] [] [] [] [] []]; try discriminate H; repeat split; try reflexivity; discriminate.
  Qed.

  (** wrapped texts *)
  Lemma wrapped_first q c s : Ascii.eqb c q = false -> wrapped q (c :: s) = false.
  Proof. intro H. unfold wrapped. destruct (rev (c :: s)); auto. now rewrite H. Qed.

  Lemma wrapped_both q s : wrapped q (q :: s ++ [q]) = true.
  Proof.
    unfold wrapped. change (q :: s ++ [q]) with ((q :: s) ++ [q]). rewrite rev_app_distr. cbn. now rewrite Ascii.eqb_refl.
  Qed.

  Lemma unquoted_both q s : unquoted (q :: s ++ [q]) = s.
  Proof. unfold unquoted. cbn [tl]. apply removelast_last. Qed.

  (** membership of the upper case *)
  Lemma upper_first c s l : forallb (fun w => match w with d :: _ => negb (Ascii.eqb (upper_c c) d) | [] => true end) l = true ->
    str_mem (upper (c :: s)) l = false.
  Proof.
    intro H. destruct (str_mem (upper (c :: s)) l) eqn:E; auto. apply str_mem_In in E.
    rewrite forallb_forall in H. specialize (H _ E). cbn in H. now rewrite Ascii.eqb_refl in H.
  Qed.

  Lemma decZ_first n : exists c r, decZ n = c :: r /\ (is_digit c = true \/ c = "-"%char) /\ firm (decZ n).
  Proof.
    assert (G : forall m, firm (dec m)).
    { intro m. apply firm_all; [apply dec_nonempty|]. intros c Hc. apply dec_digits in Hc.
      destruct c as [[] [] [] [] [] [] [] []]; try reflexivity; discriminate. }
    unfold decZ. destruct (n <? 0)%Z.
    - exists "-"%char, (dec (Z.to_N (- n))). repeat split; auto. change ($"-" ++ dec (Z.to_N (- n))) with ("-"%char :: dec (Z.to_N (- n))).
      specialize (G (Z.to_N (- n))). unfold firm in *. destruct (dec (Z.to_N (- n))) as [|c s]; [destruct G|].
      change (rev ("-"%char :: c :: s)) with (rev (c :: s) ++ ["-"%char]).
      destruct (rev (c :: s)); [tauto|]. cbn [app]. split; [reflexivity|tauto].
    - pose proof (dec_nonempty (Z.to_N n)) as Hne. pose proof (dec_digits (Z.to_N n)) as Hd.
      specialize (G (Z.to_N n)). destruct (dec (Z.to_N n)) as [|c s]; [congruence|].
      exists c, s. repeat split; auto. left. apply Hd. now left.
  Qed.

Section L.
  Context (float_of date_of : str -> option value).
  Notation label := (get_token_type float_of date_of).

  (** what is looked at before a text is taken for a word of SQL *)
  Lemma label_word s c r : s = c :: r -> (is_alpha c = true \/ c = "_"%char) -> firm s -> float_of s = None ->
    label s =
      if str_mem (upper s) function_names then FUNCTION
      else if str_mem (upper s) operator_names then OPERATOR
      else if str_mem (upper s) aggregator_names then AGGREGATOR
      else if str_mem (upper s) [$"TRUE"; $"FALSE"] then BOOLEAN
      else if str_mem (upper s) [$"NULL"; $"NONE"] then NULL
      else if str_eqb (upper s) $"AND" then AND
      else if str_eqb (upper s) $"OR" then OR
      else if str_eqb (upper s) $"NOT" then NOT
      else if str_eqb (upper s) $"AS" then AS
      else VARIABLE.
  Proof.
    intros -> Hc Hf Hfl. destruct (alpha_not_int c Hc) as (H1 & H2 & H3 & H4 & H5 & H6).
    assert (Hq : Ascii.eqb c "`" = false /\ Ascii.eqb c """" = false /\ Ascii.eqb c "'" = false /\ c <> "*"%char /\
                 c <> "("%char /\ c <> "["%char /\ c <> ")"%char /\ c <> "]"%char /\ c <> ","%char).
    { destruct Hc as [Hc| ->]; [|repeat split; try reflexivity; discriminate].
      destruct c as [[] [] [] [] [] [] [] []]; try discriminate Hc; repeat split; try reflexivity; discriminate. }
    destruct Hq as (Q1 & Q2 & Q3 & Q4 & Q5 & Q6 & Q7 & Q8 & Q9).
    unfold get_token_type. rewrite firm_strip by auto. cbn [length Nat.eqb].
    rewrite !wrapped_first by auto. rewrite py_int_first by auto. rewrite Hfl.
    assert (N : forall d, c <> d -> str_eqb (c :: r) [d] = false).
    { intros d Hd. destruct (str_eqb_reflect (c :: r) [d]) as [E|]; auto. now injection E. }
    cbn [list_ascii_of_string]. rewrite (N "*"%char) by auto.
    cbn [orb].
    assert (M : forall d e, c <> d -> c <> e -> str_mem (c :: r) [[d]; [e]] = false).
    { intros d e Hd He. unfold str_mem. cbn [mem existsb]. now rewrite !N. }
    rewrite !M, !N by auto. cbn [orb].
    unfold starts_word. replace (is_alpha c || Ascii.eqb c "_") with true; [reflexivity|].
    symmetry. apply orb_true_iff. destruct Hc as [Hc| ->]; [now left|right; reflexivity].
  Qed.

  Definition word_label (u : str) : ttype :=
    if str_mem u function_names then FUNCTION
    else if str_mem u operator_names then OPERATOR
    else if str_mem u aggregator_names then AGGREGATOR
    else if str_mem u [$"TRUE"; $"FALSE"] then BOOLEAN
    else if str_mem u [$"NULL"; $"NONE"] then NULL
    else if str_eqb u $"AND" then AND
    else if str_eqb u $"OR" then OR
    else if str_eqb u $"NOT" then NOT
    else if str_eqb u $"AS" then AS
    else VARIABLE.

  (** texts that float may read *)
  Definition float_like (u : str) : bool :=
    match u with c :: _ => mem Ascii.eqb c $"+-.0123456789NI" | [] => false end &&
    (existsb is_digit u || contains $"nan" (lower u) || contains $"inf" (lower u)).

  Lemma lower_upper_c c : lower_c (upper_c c) = lower_c c.
  Proof. destruct c as [[] [] [] [] [] [] [] []]; reflexivity. Qed.
  Lemma lower_upper s : lower (upper s) = lower s.
  Proof. unfold lower, upper. rewrite map_map. apply map_ext. apply lower_upper_c. Qed.
  Lemma digit_upper_c c : is_digit (upper_c c) = is_digit c.
  Proof. destruct c as [[] [] [] [] [] [] [] []]; reflexivity. Qed.

  Lemma not_float s : reads_floats float_of -> firm s -> float_like (upper s) = false -> float_of s = None.
  Proof.
    intros HF Hf Hn. destruct (float_of s) as [v|] eqn:E; auto. exfalso. destruct (HF s v E) as [(c & r & Ec & Hc) Hd].
    rewrite firm_strip in Ec by auto. subst s. unfold float_like in Hn. cbn [upper map] in Hn.
    assert (H1 : mem Ascii.eqb (upper_c c) $"+-.0123456789NI" = true).
    { assert (F : forallb (fun c => mem Ascii.eqb (upper_c c) $"+-.0123456789NI") $"+-.0123456789nNiI" = true) by reflexivity.
      rewrite forallb_forall in F. now apply F. }
    rewrite H1 in Hn. change (upper_c c :: map upper_c r) with (upper (c :: r)) in Hn. rewrite lower_upper in Hn.
    cbn [andb] in Hn. apply orb_false_iff in Hn as [Hn H3]. apply orb_false_iff in Hn as [Hn H2].
    destruct Hd as [(d & Hin & Hd)|(w & [<-|[<-|[]]] & Hw)]; [|congruence..].
    rewrite existsb_exists_false in Hn. rewrite <- digit_upper_c in Hd.
    rewrite (Hn (upper_c d)) in Hd by (unfold upper; now apply in_map). discriminate.
  Qed.

  Definition wordlike (u : str) : bool :=
    match u, rev u with
    | c :: _, d :: _ => is_alpha c && negb (is_space d) && negb (float_like u)
    | _, _ => false
    end.

  Lemma label_wordlike s : reads_floats float_of -> wordlike (upper s) = true -> label s = word_label (upper s).
  Proof.
    intros HF H. unfold wordlike in H. destruct s as [|c r]; [discriminate|]. cbn [upper map] in H.
    change (upper_c c :: map upper_c r) with (upper (c :: r)) in H. destruct (rev (upper (c :: r))) as [|d t] eqn:E; [discriminate|].
    apply andb_true_iff in H as [H H3]. apply andb_true_iff in H as [H1 H2]. apply negb_true_iff in H2, H3.
    assert (Hc : is_alpha c = true) by (revert H1; destruct c as [[] [] [] [] [] [] [] []]; intro; try reflexivity; discriminate).
    assert (Hf : firm (c :: r)).
    { apply firm_upper. unfold firm. destruct (upper (c :: r)) eqn:Eu; [discriminate|]. rewrite E. split; auto.
      cbn [upper map] in Eu. injection Eu as <- _. rewrite upper_c_space. now destruct (alpha_not_int c (or_introl Hc)). }
    rewrite (label_word (c :: r) c r eq_refl (or_introl Hc) Hf); [reflexivity|]. now apply not_float.
  Qed.

  Lemma words_labels ws ty : reads_floats float_of ->
    forallb (fun u => wordlike u && ttype_beq (word_label u) ty) ws = true ->
    forall s, In (upper s) ws -> label s = ty.
  Proof.
    intros HF H s Hs. rewrite forallb_forall in H. specialize (H _ Hs). apply andb_true_iff in H as [H1 H2].
    rewrite label_wordlike by auto. now apply internal_ttype_dec_bl.
  Qed.

  (** signs are their own upper case *)
  Definition signs_only (u : str) : bool := forallb (fun c => negb (is_alpha c)) u.
  Lemma upper_signs s u : signs_only u = true -> upper s = u -> s = u.
  Proof.
    revert u. induction s as [|c s IH]; intros [|d u] H E; try discriminate; auto.
    cbn [upper map] in E. injection E as E1 E2. cbn in H. apply andb_true_iff in H as [H1 H2]. apply negb_true_iff in H1.
    f_equal; [now apply upper_c_not_letter|now apply IH].
  Qed.

  Lemma label_quoted q s : In q [""""%char; "'"%char] ->
    label (q :: s ++ [q]) = match date_of s with Some _ => DATE | None => LITERAL end.
  Proof.
    intro Hq. unfold get_token_type.
    assert (Hsp : is_space q = false) by (destruct Hq as [<-|[<-|[]]]; reflexivity).
    rewrite firm_strip by now apply firm_ends. cbn [length Nat.eqb].
    rewrite wrapped_first by (destruct Hq as [<-|[<-|[]]]; reflexivity).
    replace (str_eqb (q :: s ++ [q]) $"*") with false.
    2: { symmetry. destruct (str_eqb_reflect (q :: s ++ [q]) $"*") as [E|]; auto. injection E as -> _.
         destruct Hq as [Hq|[Hq|[]]]; discriminate. }
    rewrite !upper_first by (destruct Hq as [<-|[<-|[]]]; reflexivity).
    replace (wrapped """" (q :: s ++ [q]) || wrapped "'" (q :: s ++ [q])) with true.
    2: { symmetry. apply orb_true_iff. destruct Hq as [<-|[<-|[]]]; rewrite wrapped_both; auto. }
    now rewrite unquoted_both.
  Qed.

  Lemma label_integer n : label (decZ n) = INTEGER.
  Proof.
    destruct (decZ_first n) as (c & r & E & Hc & Hf). unfold get_token_type. rewrite firm_strip by auto.
    rewrite py_int_decZ. rewrite E. cbn [length Nat.eqb].
    assert (Hq : Ascii.eqb c "`" = false /\ Ascii.eqb c """" = false /\ Ascii.eqb c "'" = false /\ c <> "*"%char /\
      forallb (fun w => match w with d :: _ => negb (Ascii.eqb (upper_c c) d) | [] => true end)
         (function_names ++ operator_names ++ aggregator_names) = true).
    { destruct Hc as [Hc| ->]; [|repeat split; try reflexivity; discriminate].
      destruct c as [[] [] [] [] [] [] [] []]; try discriminate Hc; repeat split; try reflexivity; discriminate. }
    destruct Hq as (Q1 & Q2 & Q3 & Q4 & Q5). rewrite !wrapped_first by auto.
    rewrite !forallb_app in Q5. apply andb_true_iff in Q5 as [Q5 Q6]. apply andb_true_iff in Q6 as [Q6 Q7].
    rewrite !upper_first by auto.
    destruct (str_eqb_reflect (c :: r) $"*") as [Es|]; [now injection Es|]. reflexivity.
  Qed.

  Lemma label_back s : label ("`"%char :: s ++ ["`"%char]) = VARIABLE.
  Proof.
    unfold get_token_type. rewrite firm_strip by now apply firm_ends. cbn [length Nat.eqb]. now rewrite wrapped_both.
  Qed.

  Lemma reserved_lists : functions = function_names /\ aggregations = aggregator_names /\
    operators = operator_names.
  Proof. repeat split. Qed.

  Lemma name_firm s : name s -> exists c r, s = c :: r /\ (is_alpha c = true \/ c = "_"%char) /\ firm s.
  Proof.
    intros (c & r & -> & Hc & Hr). exists c, r. repeat split; auto. apply firm_all; [discriminate|].
    intros d [<-|Hd]; [now apply alpha_not_int|].
    destruct (Hr d Hd) as [Hw|[-> | ->]]; [|reflexivity..]. apply word_char_spec in Hw. now apply word_not_space.
  Qed.

  Lemma labels_spec s ty : reads_floats float_of -> labelled float_of date_of s ty -> label s = ty.
  Proof.
    intros HF H. destruct H as [s H|s H|s H|s H|s H| | |s H|s H|s H|s H|s H|s H|n|s H Hn Hfl|s|q s Hq Hd|q s d Hq Hd].
    - revert s H. apply words_labels; [exact HF|vm_compute; reflexivity].
    - revert s H. apply words_labels; [exact HF|vm_compute; reflexivity].
    - unfold operators in H. apply in_app_or in H as [H|H].
      + assert (E : In s comparison_signs).
        { assert (F : forallb signs_only comparison_signs = true) by reflexivity. rewrite forallb_forall in F.
          rewrite (upper_signs s (upper s)); auto. }
        clear H. unfold comparison_signs in E. cbn [In] in E.
        repeat (destruct E as [<-|E]; [reflexivity|]). destruct E.
      + revert s H. apply words_labels; [exact HF|vm_compute; reflexivity].
    - assert (N : forall s, In s [$"("; $"["] -> float_of s = None).
      { intros u Hu. apply not_float; auto; destruct Hu as [<-|[<-|[]]]; try reflexivity; split; reflexivity. }
      specialize (N s H). destruct H as [<-|[<-|[]]]; unfold get_token_type; cbn in N |- *; rewrite N; reflexivity.
    - assert (N : forall s, In s [$")"; $"]"] -> float_of s = None).
      { intros u Hu. apply not_float; auto; destruct Hu as [<-|[<-|[]]]; try reflexivity; split; reflexivity. }
      specialize (N s H). destruct H as [<-|[<-|[]]]; unfold get_token_type; cbn in N |- *; rewrite N; reflexivity.
    - assert (N : float_of $"," = None) by (apply not_float; auto; try reflexivity; split; reflexivity).
      unfold get_token_type. cbn in N |- *. rewrite N. reflexivity.
    - reflexivity.
    - apply (words_labels [$"AND"] AND HF); [vm_compute; reflexivity|rewrite H; now left].
    - apply (words_labels [$"OR"] OR HF); [vm_compute; reflexivity|rewrite H; now left].
    - apply (words_labels [$"NOT"] NOT HF); [vm_compute; reflexivity|rewrite H; now left].
    - apply (words_labels [$"AS"] AS HF); [vm_compute; reflexivity|rewrite H; now left].
    - revert s H. apply words_labels; [exact HF|vm_compute; reflexivity].
    - revert s H. apply words_labels; [exact HF|vm_compute; reflexivity].
    - apply label_integer.
    - destruct (name_firm s H) as (c & r & E & Hc & Hf). rewrite (label_word s c r E Hc Hf Hfl).
      destruct reserved_lists as (L1 & L2 & L3). rewrite <- L1, <- L2, <- L3.
      assert (NI : forall l, incl l (functions ++ aggregations ++ operators ++ constants ++ [$"AND"; $"OR"; $"NOT"]) ->
                   str_mem (upper s) l = false).
      { intros l Hl. destruct (str_mem (upper s) l) eqn:Em; auto. apply str_mem_In in Em. now apply Hl in Em. }
      assert (NE : forall w, In w (constants ++ [$"AND"; $"OR"; $"NOT"]) -> str_eqb (upper s) w = false).
      { intros w Hw. destruct (str_eqb_reflect (upper s) w) as [Ew|]; auto. exfalso. apply Hn. rewrite Ew.
        apply in_or_app. right. apply in_or_app. right. apply in_or_app. now right. }
      rewrite (NI functions), (NI operators), (NI aggregations).
      2-4: intros x Hx; rewrite !in_app_iff; tauto.
      rewrite (NI [$"TRUE"; $"FALSE"]), (NI [$"NULL"; $"NONE"]).
      2,3: intros x Hx; rewrite !in_app_iff; right; right; right; left; unfold constants; cbn [In] in Hx |- *; tauto.
      rewrite !NE; [reflexivity|apply str_mem_In; reflexivity..].
    - apply label_back.
    - rewrite label_quoted by auto. now rewrite Hd.
    - rewrite label_quoted by auto. now rewrite Hd.
  Qed.
End L.
