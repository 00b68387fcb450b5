(** Functions of select lists. *)
From Coq Require Import Sorted Permutation.
From Verif.Base Require Import Py Value PyFacts.
From Verif.Model Require Import Tokens DictSet Evaluator.
From Verif.Spec Require Import Evaluator.

Section Functions.
  Context (dumps : record -> str) (other : str -> list value -> result value).
  Notation fn := (functions dumps other).

  Lemma slice_to_pos (s : str) n : slice_to s (Z.of_nat n) = firstn n s.
  Proof.
    unfold slice_to, slice_bound. destruct (Z.ltb_spec (Z.of_nat n) 0); [lia|].
    destruct (Nat.le_gt_cases n (length s)).
    - f_equal. lia.
    - rewrite !firstn_all2 by lia. reflexivity.
  Qed.
  Lemma left_fn x n : fn $"LEFT" [x; VInt (Z.of_nat n)] = Ok (VStr (firstn n (py_str x))).
  Proof. unfold functions. cbn -[slice_to py_str Z.of_nat]. now rewrite slice_to_pos. Qed.
  Lemma right_fn x n : 0 < n -> exists t u, fn $"RIGHT" [x; VInt (Z.of_nat n)] = Ok (VStr t) /\
    py_str x = u ++ t /\ length t = Nat.min n (length (py_str x)).
  Proof.
    intros Hn. unfold functions. cbn -[last_n py_str Z.of_nat]. unfold last_n.
    destruct (Z.eqb_spec (Z.of_nat n) 0); [lia|]. destruct (Z.ltb_spec 0 (Z.of_nat n)); [|lia].
    rewrite Nat2Z.id. eexists _, (firstn (length (py_str x) - n) (py_str x)). split; [reflexivity|].
    split; [now rewrite firstn_skipn|]. rewrite skipn_length. lia.
  Qed.
  Lemma mid_fn x a n : fn $"MID" [x; VInt (Z.of_nat a); VInt (Z.of_nat n)] = Ok (VStr (firstn n (skipn a (py_str x)))).
  Proof.
    unfold functions. cbn -[from_n slice_to py_str Z.of_nat]. rewrite slice_to_pos. unfold from_n.
    destruct (Z.ltb_spec (Z.of_nat a) 0); [lia|]. now rewrite Nat2Z.id.
  Qed.
  Lemma parts_fn s n : exists a b, fn $"LEFT" [VStr s; VInt (Z.of_nat n)] = Ok a /\
    fn $"MID" [VStr s; VInt (Z.of_nat n); VInt (Z.of_nat (length s))] = Ok b /\ fn $"CONCAT" [a; b] = Ok (VStr s).
  Proof.
    eexists _, _. split; [apply left_fn|]. split; [apply mid_fn|]. unfold functions. cbn -[firstn skipn].
    rewrite app_nil_r. cbn [py_str]. rewrite (firstn_all2 (n := length s)); [now rewrite firstn_skipn|].
    rewrite skipn_length. lia.
  Qed.
  Lemma right_zero_fn s : fn $"RIGHT" [VStr s; VInt 0] = Ok (VStr s).
  Proof. reflexivity. Qed.

  Lemma lstrip_parts s : exists a, blanks a /\ s = a ++ lstrip s /\ (match lstrip s with nil => True | cons c _ => is_space c = false end).
  Proof.
    induction s as [|c s IH]; [exists []; split; [intros ? []|cbn; auto]|]. cbn [lstrip]. destruct (is_space c) eqn:E.
    - destruct IH as (a & Ha & Hs & Hc). exists (c :: a). split; [intros x [<-|H]; auto|]. split; [cbn; congruence|exact Hc].
    - exists []. split; [intros ? []|]. auto.
  Qed.
  Lemma trim_fn x : exists a t b, fn $"TRIM" [x] = Ok (VStr t) /\ py_str x = a ++ t ++ b /\ blanks a /\ blanks b /\
    match t with [] => True | c :: _ => is_space c = false end /\ match rev t with [] => True | c :: _ => is_space c = false end.
  Proof.
    unfold functions. cbn -[strip py_str]. generalize (py_str x). intros s. unfold strip, rstrip.
    destruct (lstrip_parts s) as (a & Ha & Hs & Hc). destruct (lstrip_parts (rev (lstrip s))) as (b & Hb & Hs' & Hc').
    exists a, (rev (lstrip (rev (lstrip s)))), (rev b). split; [reflexivity|].
    assert (E : lstrip s = rev (lstrip (rev (lstrip s))) ++ rev b).
    { rewrite <- rev_app_distr, <- Hs', rev_involutive. reflexivity. }
    split; [congruence|]. split; auto. split; [intros c Hin; apply Hb; now apply in_rev|].
    rewrite rev_involutive. split; [|exact Hc'].
    rewrite E in Hc. destruct (rev (lstrip (rev (lstrip s)))); auto.
  Qed.

  Lemma text_case_fn x : exists u l, fn $"UPPER" [x] = Ok (VStr u) /\ fn $"LOWER" [x] = Ok (VStr l) /\
    length u = length (py_str x) /\ length l = length (py_str x) /\ lower u = l /\ upper l = u.
  Proof.
    eexists _, _. split; [reflexivity|]. split; [reflexivity|]. generalize (py_str x). intros s. unfold upper, lower.
    rewrite !map_length. repeat split; auto; rewrite map_map; apply map_ext; intros [[] [] [] [] [] [] [] []]; vm_compute; reflexivity.
  Qed.

  Lemma between_fn x a b : fn $"BETWEEN" [VInt x; VInt a; VInt b] = Ok (VBool true) <-> (a < x < b)%Z.
  Proof.
    unfold functions. cbn -[Z.ltb]. unfold py_lt. cbn -[Z.ltb]. destruct (Z.ltb_spec a x); cbn -[Z.ltb].
    - destruct (Z.ltb_spec x b); split; intros; try lia; try discriminate; auto.
    - split; [discriminate|lia].
  Qed.
  Lemma concat_fn l : length l <> 1 -> fn $"CONCAT" (map VStr l) = Ok (VStr (concat l)).
  Proof.
    intros H. unfold functions. cbn -[fn_concat]. f_equal. unfold fn_concat.
    assert (E : concat (map py_str (map VStr l)) = concat l) by (rewrite map_map; cbn; now rewrite map_id).
    destruct l as [|a [|b l]]; [reflexivity|destruct (H eq_refl)|]. cbn [map]. cbn [map] in E. now rewrite E.
  Qed.

  Lemma join_texts x l : join $", " (map py_str (map VStr (x :: l))) = x ++ concat (map (fun t => $", " ++ t) l).
  Proof.
    rewrite map_map. cbn [py_str]. revert x. induction l as [|y l IH]; intros x; [symmetry; apply app_nil_r|].
    cbn [map concat]. rewrite <- app_assoc, <- IH. reflexivity.
  Qed.
  Lemma concat_list_fn x l : let text := VStr (x ++ concat (map (fun t => $", " ++ t) l)) in
    fn $"CONCAT" [VList (map VStr (x :: l))] = Ok text /\ fn $"STRING" [VList (map VStr (x :: l))] = Ok text /\
    fn $"CONCAT" [VList []] = Ok (VStr []) /\ fn $"STRING" [VList []] = Ok (VStr []).
  Proof.
    cbv zeta. rewrite <- join_texts. repeat split; reflexivity.
  Qed.
  Lemma isort_map {A B} (f : A -> B) (le1 : A -> A -> bool) (le2 : B -> B -> bool) : (forall a b, le2 (f a) (f b) = le1 a b) ->
    forall l, isort le2 (map f l) = map f (isort le1 l).
  Proof.
    intros H l. induction l as [|a l IH]; auto. cbn [map isort]. rewrite IH. generalize (isort le1 l). intros s.
    induction s as [|b s IHs]; auto. cbn [map insert]. rewrite H. destruct (le1 a b); auto. cbn [map]. now rewrite IHs.
  Qed.
  Lemma sort_fn {A} (f : A -> value) (le : A -> A -> bool) :
    (forall a b, py_lt (f b) (f a) = Ok (negb (le a b))) -> (forall a b, le a b = true \/ le b a = true) ->
    (forall a b c, le a b = true -> le b c = true -> le a c = true) ->
    forall l, exists s, fn $"SORT" [VList (map f l)] = Ok (VList (map f s)) /\ Permutation s l /\ StronglySorted (fun a b => le a b = true) s.
  Proof.
    intros H T Tr l. exists (isort le l). split; [|split; [apply isort_perm|]].
    - unfold functions. cbn -[sort_by]. unfold sort_by.
      assert (F : forallb (fun a => forallb (fun b => match py_lt a b with Ok _ => true | Raise _ => false end) (map f l)) (map f l) = true).
      { apply forallb_forall. intros a Ha. apply forallb_forall. intros b Hb. apply in_map_iff in Ha as (a' & <- & _), Hb as (b' & <- & _).
        rewrite H. reflexivity. }
      rewrite F. cbn [bind]. do 2 f_equal. apply isort_map. intros a b. rewrite H. destruct (le a b); reflexivity.
    - apply isort_sorted; auto.
  Qed.
  Lemma sort_numbers_fn l : exists s, fn $"SORT" [VList (map VInt l)] = Ok (VList (map VInt s)) /\ Permutation s l /\ StronglySorted Z.le s.
  Proof.
    destruct (sort_fn VInt Z.leb) with (l := l) as (s & E & P & S).
    - intros a b. unfold py_lt. cbn -[Z.ltb Z.leb]. f_equal. rewrite Z.leb_antisym. now rewrite negb_involutive.
    - intros a b. rewrite !Z.leb_le. lia.
    - intros a b c. rewrite !Z.leb_le. lia.
    - exists s. split; [exact E|]. split; [exact P|]. clear - S. induction S as [|a l S IH F]; constructor; auto.
      rewrite Forall_forall in *. intros x Hx. apply Z.leb_le. auto.
  Qed.
  Lemma sort_texts_fn l : exists s, fn $"SORT" [VList (map VStr l)] = Ok (VList (map VStr s)) /\ Permutation s l /\
    StronglySorted (fun a b => str_leb a b = true) s.
  Proof.
    apply sort_fn; [|apply str_leb_total|apply str_leb_trans].
    intros a b. unfold py_lt. cbn. f_equal. unfold str_ltb, str_leb. rewrite (str_compare_antisym a b).
    destruct (str_compare a b); reflexivity.
  Qed.
  Lemma sort_keys_fn (d : record) : exists s, fn $"SORT" [VDict d] = Ok (VList (map VStr s)) /\ Permutation s (map fst d) /\
    StronglySorted (fun a b => str_leb a b = true) s.
  Proof. exists (sorted_str (map fst d)). split; [reflexivity|]. split; [apply isort_perm|apply sorted_str_sorted]. Qed.
  Lemma isnone_fn x : fn $"ISNONE" [x] = Ok (VBool true) <-> x = VNull.
  Proof. split; [|intros ->; reflexivity]. destruct x; try discriminate; reflexivity. Qed.
  Lemma boolean_fn s : fn $"BOOLEAN" [VStr s] = Ok (VBool false) <-> lower s = $"false".
  Proof.
    assert (U : forall t, upper (lower t) = upper t /\ lower (upper t) = lower t).
    { intros t. unfold upper, lower. rewrite !map_map. split; apply map_ext; intros [[] [] [] [] [] [] [] []]; vm_compute; reflexivity. }
    assert (E : str_eqb (upper s) $"FALSE" = true <-> lower s = $"false").
    { rewrite str_eqb_eq. split; intros H.
      - rewrite <- (proj2 (U s)), H. reflexivity.
      - rewrite <- (proj1 (U s)), H. reflexivity. }
    rewrite <- E. unfold functions. cbn -[upper str_eqb]. destruct (str_eqb _ _); cbn; split; intros H; congruence.
  Qed.
  Lemma len_fn s l : fn $"LEN" [VStr s] = Ok (VInt (Z.of_nat (length s))) /\ fn $"LEN" [VList l] = Ok (VInt (Z.of_nat (length l))).
  Proof. split; reflexivity. Qed.
End Functions.
