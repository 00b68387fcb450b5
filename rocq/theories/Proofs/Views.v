(** Lemmas about samples and tables. *)
From Verif.Base Require Import Py PyFacts Value ValueFacts.
From Verif.Model Require Import DictSet Views.
From Verif.Spec Require Import DictSet Views.
From Verif.Proofs Require DictSet.

(** ** Samples *)
Lemma pick_sub sel draws : forall rows l, pick sel draws rows = Ok l -> subsequence l rows.
Proof.
  induction draws as [|d ds IH]; intros rows l H; destruct rows as [|r rows]; cbn [pick] in H.
  - injection H as <-. constructor.
  - discriminate.
  - injection H as <-. constructor.
  - destruct (sel =? 0)%Z; [discriminate|]. destruct (pick sel ds rows) as [l'|] eqn:E; [|discriminate]. cbn [bind] in H.
    apply IH in E. destruct (d mod sel =? 0)%Z; injection H as <-; constructor; auto.
Qed.
Lemma pick_exact sel draws : (sel <> 0)%Z -> forall rows, (length rows <= length draws)%nat ->
  pick sel draws rows = Ok (map snd (filter (fun dr => (fst dr mod sel =? 0)%Z) (combine draws rows))).
Proof.
  intros Hs. induction draws as [|d ds IH]; intros rows H; destruct rows as [|r rows]; cbn [length] in H; try lia; try reflexivity.
  cbn [pick]. rewrite (proj2 (Z.eqb_neq sel 0) Hs), IH by lia. cbn [bind combine filter fst].
  destruct (d mod sel =? 0)%Z; reflexivity.
Qed.
(** how many of [0 .. n-1] are multiples of [s] *)
Lemma multiples (s n : nat) : (0 < s)%nat ->
  length (filter (fun d => (d mod s =? 0)%nat) (seq 0 n)) = ((n + s - 1) / s)%nat.
Proof.
  intros Hs. induction n as [|n IH].
  - cbn. symmetry. apply Nat.div_small. lia.
  - rewrite seq_S, filter_app, app_length, IH. cbn [filter]. rewrite Nat.add_0_l.
    destruct (Nat.eqb_spec (n mod s) 0) as [E|E]; cbn [length].
    + apply Nat.mod_divides in E; [|lia]. destruct E as [q ->].
      replace (s * q + s - 1)%nat with ((s - 1) + q * s)%nat by lia. rewrite Nat.div_add by lia.
      replace (S (s * q) + s - 1)%nat with (0 + (q + 1) * s)%nat by lia. rewrite Nat.div_add by lia.
      rewrite !Nat.div_small by lia. lia.
    + pose proof (Nat.div_mod n s ltac:(lia)) as D. pose proof (Nat.mod_upper_bound n s ltac:(lia)) as B.
      rewrite Nat.add_0_r.
      assert ((n + s - 1) / s = n / s + 1)%nat as ->.
      { symmetry. apply (Nat.div_unique _ _ _ (n mod s - 1)); lia. }
      apply (Nat.div_unique _ _ _ (n mod s)); lia.
Qed.

(** ** Tables *)
Lemma center_centred s w : (length s <= w)%nat -> centred w s (text_glyphs (center s (w + 2))).
Proof.
  intros H. unfold center. replace (w + 2 <=? length s)%nat with false by (symmetry; apply Nat.leb_gt; lia).
  set (pad := (w + 2 - length s)%nat). set (left := (pad / 2 + _)%nat).
  assert (L: (1 <= left /\ 1 <= pad - left /\ left <= pad - left + 1 /\ pad - left <= left + 1)%nat).
  { unfold left. assert (P: (2 <= pad)%nat) by (unfold pad; lia).
    pose proof (Nat.div_mod pad 2 ltac:(lia)) as D. pose proof (Nat.mod_upper_bound pad 2 ltac:(lia)) as B.
    destruct (Nat.odd pad && Nat.odd (w + 2))%bool eqn:O.
    - apply andb_true_iff in O. destruct O as [O _]. rewrite <- Nat.bit0_odd, Nat.bit0_eqb in O. apply Nat.eqb_eq in O. lia.
    - lia. }
  exists left, (pad - left)%nat. split; [reflexivity|]. split; [|lia].
  unfold text_glyphs. rewrite map_length, !app_length, !repeat_length. unfold pad. destruct L as (L1 & L2 & L3 & L4). unfold pad in L2. lia.
Qed.
Lemma glue_cells ws texts cs : Forall2 (fun wt c => centred (fst wt) (snd wt) c) (combine ws texts) cs -> length ws = length texts -> cs <> [] ->
  cells ws texts (glue [Vertical] cs ++ [Vertical]).
Proof.
  revert texts cs. induction ws as [|w ws IH]; intros [|t ts] cs H L Hc; try discriminate; [inversion H; congruence|].
  cbn [combine] in H. inversion H as [|? c ? cs' Hh Ht]; subst. injection L as L.
  destruct cs' as [|c' cs'].
  - destruct ws as [|w' ws]; destruct ts as [|t' ts]; try discriminate; [|inversion Ht].
    cbn [glue]. change [Vertical] with ([Vertical] ++ []) at 1. constructor; [exact Hh|constructor].
  - change (glue [Vertical] (c :: c' :: cs')) with (c ++ [Vertical] ++ glue [Vertical] (c' :: cs')).
    rewrite <- !app_assoc. constructor; [exact Hh|]. apply IH; auto. discriminate.
Qed.
Lemma glue_rule mid (cols : list (str * nat)) : cols <> [] -> rule mid (map snd cols) (glue [mid] (map (fun kw => repeat Horizontal (snd kw + 2)) cols)).
Proof.
  induction cols as [|[k w] cols IH]; [congruence|]. intros _. destruct cols as [|[k' w'] cols]; [constructor|].
  cbn [map snd]. change (glue [mid] (?a :: ?b :: ?l)) with (a ++ [mid] ++ glue [mid] (b :: l)). constructor. apply IH. discriminate.
Qed.

Definition fits (cols : list (str * nat)) (kv : str * value) : Prop :=
  exists w, dget str_eqb (fst kv) cols = Some w /\ (length (format_value (snd kv)) <= w)%nat /\ (length (fst kv) <= w)%nat.
Definition wide (cols : list (str * nat)) : Prop := forall k w, dget str_eqb k cols = Some w -> (length k <= w)%nat.
Lemma widen_keys cols kv : fst kv <> [] ->
  dkeys (widen cols kv) = if str_mem (fst kv) (dkeys cols) then dkeys cols else dkeys cols ++ [fst kv].
Proof.
  intros Hk. unfold widen. destruct kv as [k v]. cbn [fst snd] in *.
  assert (P: (0 < length k)%nat) by (destruct k; [congruence|cbn; lia]).
  assert (M: str_mem k (dkeys cols) = dhas str_eqb k cols).
  { unfold dhas. destruct (dget str_eqb k cols) eqn:D.
    - apply dget_Some_keys in D; [|apply str_keqb]. now apply DictSet.str_mem_In.
    - apply dget_None in D; [|apply str_keqb]. destruct (str_mem k (dkeys cols)) eqn:X; auto. apply DictSet.str_mem_In in X. contradiction. }
  rewrite M. destruct (Nat.ltb_spec (match dget str_eqb k cols with Some w => w | None => 0%nat end) (Nat.max (length (format_value v)) (length k))) as [L|L].
  - rewrite dkeys_dset by apply str_keqb. reflexivity.
  - unfold dhas. destruct (dget str_eqb k cols); [reflexivity|lia].
Qed.
Lemma widen_grows cols kv k w : dget str_eqb k cols = Some w -> exists w', dget str_eqb k (widen cols kv) = Some w' /\ (w <= w')%nat.
Proof.
  intros H. unfold widen. set (n := Nat.max _ _). destruct (Nat.ltb_spec (match dget str_eqb (fst kv) cols with Some w => w | None => 0%nat end) n) as [L|L]; [|eauto].
  destruct (str_eqb k (fst kv)) eqn:E.
  - apply str_eqb_eq in E. subst k. rewrite H in L. rewrite dget_dset_same by apply str_keqb. exists n. split; [auto|lia].
  - rewrite dget_dset_other; [eauto|apply str_keqb|]. intros ->. rewrite str_eqb_refl in E. discriminate.
Qed.
Lemma widen_fits cols kv : fst kv <> [] -> fits (widen cols kv) kv.
Proof.
  intros Hk. unfold fits, widen. destruct kv as [k v]. cbn [fst snd] in *. assert (P: (0 < length k)%nat) by (destruct k; [congruence|cbn; lia]).
  set (n := Nat.max _ _). assert (N: (length (format_value v) <= n /\ length k <= n)%nat) by (unfold n; lia).
  destruct (dget str_eqb k cols) as [w|] eqn:E.
  - destruct (Nat.ltb_spec w n) as [L|L].
    + rewrite dget_dset_same by apply str_keqb. exists n. split; [auto|lia].
    + exists w. rewrite E. split; [auto|lia].
  - destruct (Nat.ltb_spec 0 n) as [L|L]; [|lia]. rewrite dget_dset_same by apply str_keqb. exists n. split; [auto|lia].
Qed.
Lemma fits_grows cols cols' kv : (forall k w, dget str_eqb k cols = Some w -> exists w', dget str_eqb k cols' = Some w' /\ (w <= w')%nat) ->
  fits cols kv -> fits cols' kv.
Proof. intros G (w & E & L1 & L2). destruct (G _ _ E) as (w' & E' & L'). exists w'. split; [auto|lia]. Qed.
Lemma row_grows row : forall cols k w, dget str_eqb k cols = Some w ->
  exists w', dget str_eqb k (fold_left widen row cols) = Some w' /\ (w <= w')%nat.
Proof.
  induction row as [|kv row IH]; intros cols k w H; [exists w; auto|]. cbn [fold_left].
  destruct (widen_grows cols kv k w H) as (w1 & E1 & L1). destruct (IH _ _ _ E1) as (w2 & E2 & L2). exists w2. split; [auto|lia].
Qed.
Lemma row_fits row : forall cols, (forall kv, In kv row -> fst kv <> []) -> forall kv, In kv row -> fits (fold_left widen row cols) kv.
Proof.
  induction row as [|x row IH]; intros cols H kv Hi; [destruct Hi|]. cbn [fold_left]. destruct Hi as [->|Hi].
  - eapply fits_grows; [apply row_grows|]. apply widen_fits. apply H. now left.
  - apply IH; auto. intros y Hy. apply H. now right.
Qed.
Lemma row_keys row : forall cols, (forall k, In k (map fst row) -> k <> []) -> NoDup (map fst row) ->
  dkeys (fold_left widen row cols) = dkeys cols ++ filter (fun k => negb (str_mem k (dkeys cols))) (map fst row).
Proof.
  induction row as [|kv row IH]; intros cols H N; [cbn; now rewrite app_nil_r|]. cbn [fold_left map] in *.
  inversion N as [|? ? N1 N2]; subst. rewrite IH; auto; [|intros k Hk; apply H; now right].
  rewrite widen_keys by (apply H; now left). cbn [filter]. destruct (str_mem (fst kv) (dkeys cols)) eqn:E; cbn [negb]; [reflexivity|].
  rewrite <- app_assoc. cbn [app]. f_equal. f_equal. apply filter_ext_in. intros k Hk. f_equal.
  unfold str_mem, mem. rewrite existsb_app. cbn [existsb]. rewrite orb_false_r.
  replace (str_eqb k (fst kv)) with false; [now rewrite orb_false_r|]. symmetry. apply not_true_is_false. intros X. apply str_eqb_eq in X. subst. contradiction.
Qed.

Lemma cells_length ws texts l : cells ws texts l -> length l = list_sum (map (fun w => w + 3)%nat ws).
Proof.
  induction 1 as [|w ws t ts c l H _ IH]; [reflexivity|]. destruct H as (a & b & _ & E & _).
  cbn [map]. change (list_sum (?x :: ?y)) with (x + list_sum y)%nat. rewrite !app_length, E, IH. cbn [length]. lia.
Qed.
Lemma rule_length mid ws l : rule mid ws l -> S (length l) = list_sum (map (fun w => w + 3)%nat ws).
Proof.
  induction 1 as [w|w ws l _ IH]; cbn [map]; change (list_sum (?x :: ?y)) with (x + list_sum y)%nat.
  - rewrite repeat_length. cbn. lia.
  - rewrite !app_length, repeat_length. cbn [length]. lia.
Qed.

Section Uniform.
  Context (ks : list str).
  Hypothesis (Hks : forall k, In k ks -> k <> []) (HN : NoDup ks) (Hne : ks <> []).
  Let uniform (r : record) := map fst r = ks.
  Lemma row_uniform row cols : uniform row -> dkeys cols = [] \/ dkeys cols = ks -> dkeys (fold_left widen row cols) = ks.
  Proof.
    intros U H. rewrite row_keys; [|rewrite U; auto|rewrite U; auto]. rewrite U. destruct H as [->| ->].
    - cbn [app]. clear. induction ks as [|k l IH]; [reflexivity|]. cbn [filter]. now rewrite IH.
    - rewrite <- (app_nil_r ks) at 3. f_equal.
      assert (G: forall l, incl l ks -> filter (fun k => negb (str_mem k ks)) l = []).
      { induction l as [|k l IH]; intros I; [reflexivity|]. cbn [filter]. rewrite (proj2 (DictSet.str_mem_In k ks)) by (apply I; now left).
        apply IH. intros x Hx. apply I. now right. }
      apply G, incl_refl.
  Qed.
  Lemma inspect_uniform rows : forall count limit cols, (count <= limit)%Z -> (forall r, In r rows -> uniform r) ->
    dkeys cols = [] \/ dkeys cols = ks ->
    exists cols', inspect count limit cols rows = (firstn (Z.to_nat (limit - count)) rows, cols') /\
      (forall k w, dget str_eqb k cols = Some w -> exists w', dget str_eqb k cols' = Some w' /\ (w <= w')%nat) /\
      (dkeys cols' = dkeys cols \/ dkeys cols' = ks) /\
      (forall r kv, In r (firstn (Z.to_nat (limit - count)) rows) -> In kv r -> fits cols' kv) /\
      (firstn (Z.to_nat (limit - count)) rows <> [] -> dkeys cols' = ks).
  Proof.
    induction rows as [|row rows IH]; intros count limit cols Hc HU Hk.
    - exists cols. rewrite firstn_nil. cbn [inspect]. split; [reflexivity|]. split; [eauto|]. split; [auto|]. split; [intros r kv []|congruence].
    - cbn [inspect]. destruct (Z.eqb_spec count limit) as [->|N].
      + exists cols. rewrite Z.sub_diag. cbn [Z.to_nat firstn]. split; [reflexivity|]. split; [eauto|]. split; [auto|]. split; [intros r kv []|congruence].
      + assert (U: uniform row) by (apply HU; now left).
        assert (K: dkeys (fold_left widen row cols) = ks) by (apply row_uniform; auto).
        destruct (IH (count + 1)%Z limit (fold_left widen row cols)) as (cols' & E & G & K' & F & _); [lia|intros r Hr; apply HU; now right|auto|].
        rewrite E. replace (Z.to_nat (limit - count)) with (S (Z.to_nat (limit - (count + 1)))) by lia. cbn [firstn].
        exists cols'. split; [reflexivity|]. assert (K2: dkeys cols' = ks) by (destruct K'; congruence).
        split; [|split; [auto|split; [|auto]]].
        * intros k w D. destruct (row_grows row cols k w D) as (w1 & D1 & L1). destruct (G _ _ D1) as (w2 & D2 & L2). exists w2. split; [auto|lia].
        * intros r kv [<-|Hr] Hkv; [|eauto]. eapply fits_grows; [exact G|]. apply row_fits; auto.
          intros x Hx. apply Hks. rewrite <- U. now apply in_map.
  Qed.

  Lemma row_cells cols : forall sub r, map fst r = map fst sub -> (forall k w, In (k, w) sub -> dget str_eqb k cols = Some w) ->
    (forall kv, In kv r -> fits cols kv) ->
    exists cs, mapM (fun kv => match dget str_eqb (fst kv) cols with
                               | Some w => Ok (text_glyphs (center (format_value (snd kv)) (w + 2)))
                               | None => Raise KeyError end) r = Ok cs /\
      Forall2 (fun wt c => centred (fst wt) (snd wt) c) (combine (map snd sub) (map (fun kv => format_value (snd kv)) r)) cs.
  Proof.
    induction sub as [|[k w] sub IH]; intros r E A F; destruct r as [|[k' v] r]; try discriminate E.
    - exists []. split; [reflexivity|constructor].
    - cbn [map fst] in E. injection E as -> E.
      destruct (F (k, v) ltac:(now left)) as (w' & D & L1 & L2). cbn [fst snd] in *.
      rewrite (A k w ltac:(now left)) in D. injection D as <-.
      destruct (IH r E) as (cs & Ec & Fc); [intros; apply A; now right|intros; apply F; now right|].
      exists (text_glyphs (center (format_value v) (w + 2)) :: cs). cbn [mapM fst snd map combine].
      rewrite (A k w ltac:(now left)). cbn [bind]. rewrite Ec. cbn [bind]. split; [reflexivity|]. constructor; [|exact Fc].
      cbn [fst snd]. now apply center_centred.
  Qed.
  Lemma cells_of_row cols r : dkeys cols = ks -> uniform r -> (forall kv, In kv r -> fits cols kv) ->
    exists line, table_row cols r = Ok (Vertical :: line) /\ cells (map snd cols) (map (fun kv => format_value (snd kv)) r) line.
  Proof.
    intros K U F. unfold table_row. unfold uniform in U.
    destruct (row_cells cols cols r) as (cs & E & FF); auto.
    { unfold dkeys in K. congruence. }
    { intros k w Hi. apply In_dget; auto; [apply str_keqb|now rewrite K]. }
    rewrite E. cbn [bind]. eexists. split; [reflexivity|].
    assert (L: length cols = length r) by (rewrite <- (map_length fst cols), <- (map_length fst r); unfold dkeys in K; congruence).
    apply glue_cells; [exact FF|now rewrite !map_length|].
    intros ->. inversion FF as [X|]. destruct cols; [|destruct r; discriminate]. cbn in K. congruence.
  Qed.
  Lemma header_cells cols : dkeys cols = ks -> (forall kw, In kw cols -> (length (fst kw) <= snd kw)%nat) ->
    exists line, headers cols = Vertical :: line /\ cells (map snd cols) ks line.
  Proof.
    intros K W. unfold headers. eexists. split; [reflexivity|]. apply glue_cells.
    - rewrite <- K. clear K. unfold dkeys. induction cols as [|[k w] cols IH]; [constructor|]. cbn [map fst snd combine].
      constructor; [cbn [fst snd]; apply center_centred; apply (W (k, w)); now left|]. apply IH. intros kw H. apply W. now right.
    - rewrite <- K. unfold dkeys. now rewrite !map_length.
    - destruct cols; [cbn in K; congruence|discriminate].
  Qed.

  Lemma table_uniform rows limit : (0 < limit)%Z -> rows <> [] -> (forall r, In r rows -> uniform r) ->
    exists ws t h m vs b,
      ascii_table limit rows = Ok ([TopLeft :: t ++ [TopRight]; Vertical :: h; MidLeft :: m ++ [MidRight]]
                                   ++ map (fun l => Vertical :: l) vs ++ [BottomLeft :: b ++ [BottomRight]]) /\
      rule TopMid ws t /\ cells ws ks h /\ rule Cross ws m /\
      Forall2 (fun r l => cells ws (map (fun kv => format_value (snd kv)) r) l) (firstn (Z.to_nat limit) rows) vs /\
      rule BottomMid ws b.
  Proof.
    intros Hl Hr HU. destruct (inspect_uniform rows 0 limit []) as (cols & E & _ & _ & F & K); [lia|auto|now left|].
    rewrite Z.sub_0_r in *.
    assert (Hf: firstn (Z.to_nat limit) rows <> []).
    { destruct rows; [congruence|]. destruct (Z.to_nat limit) eqn:X; [lia|]. discriminate. }
    specialize (K Hf). unfold ascii_table. rewrite E.
    assert (W: forall kw, In kw cols -> (length (fst kw) <= snd kw)%nat).
    { intros [k w] Hi. destruct (firstn (Z.to_nat limit) rows) as [|r0 rs] eqn:Ef; [congruence|].
      assert (U0: uniform r0). { apply HU. rewrite <- (firstn_skipn (Z.to_nat limit) rows), Ef. now left. }
      assert (Hk: In k (map fst r0)). { rewrite U0, <- K. apply (in_map fst) in Hi. exact Hi. }
      apply in_map_iff in Hk as ((k' & v) & Ek & Hv). cbn [fst] in Ek. subst k'.
      destruct (F r0 (k, v) ltac:(now left) Hv) as (w' & D & _ & L). cbn [fst snd] in *.
      rewrite (In_dget str_eqb str_keqb k w cols) in D; [injection D as <-; auto|now rewrite K|auto]. }
    assert (V: exists vs, mapM (table_row cols) (firstn (Z.to_nat limit) rows) = Ok (map (fun l => Vertical :: l) vs) /\
       Forall2 (fun r l => cells (map snd cols) (map (fun kv => format_value (snd kv)) r) l) (firstn (Z.to_nat limit) rows) vs).
    { assert (HU': forall r, In r (firstn (Z.to_nat limit) rows) -> uniform r).
      { intros r Hi. apply HU. rewrite <- (firstn_skipn (Z.to_nat limit) rows). apply in_or_app. now left. }
      revert F HU'. clear - K HN Hne. generalize (firstn (Z.to_nat limit) rows) as l. induction l as [|r l IH]; intros F HU'.
      - exists []. split; [reflexivity|constructor].
      - destruct (cells_of_row cols r K (HU' r ltac:(now left))) as (x & Ex & Cx).
        { intros kv Hi. apply (F r); auto. now left. }
        destruct IH as (vs & Ev & Cv); [intros r' kv Hi; apply F; now right|intros r' Hi; apply HU'; now right|].
        exists (x :: vs). cbn [mapM map]. rewrite Ex. cbn [bind]. rewrite Ev. cbn [bind]. split; [reflexivity|]. constructor; auto. }
    destruct V as (vs & Ev & Cv). rewrite Ev. cbn [bind].
    assert (Nc: cols <> []) by (destruct cols; [cbn in K; congruence|discriminate]).
    destruct (header_cells cols K W) as (h & Eh & Ch).
    exists (map snd cols), (glue [TopMid] (map (fun kw => repeat Horizontal (snd kw + 2)) cols)), h,
      (glue [Cross] (map (fun kw => repeat Horizontal (snd kw + 2)) cols)), vs,
      (glue [BottomMid] (map (fun kw => repeat Horizontal (snd kw + 2)) cols)).
    rewrite Eh. split; [reflexivity|]. split; [now apply glue_rule|]. split; [exact Ch|]. split; [now apply glue_rule|]. split; [exact Cv|now apply glue_rule].
  Qed.
  Lemma table_lines rows limit lines : (0 < limit)%Z -> rows <> [] -> (forall r, In r rows -> uniform r) ->
    ascii_table limit rows = Ok lines -> forall a b, In a lines -> In b lines -> length a = length b.
  Proof.
    intros Hl Hr HU E. destruct (table_uniform rows limit Hl Hr HU) as (ws & t & h & m & vs & b & Et & R1 & C & R2 & F & R3).
    rewrite Et in E. injection E as <-.
    assert (A: forall a, In a ([TopLeft :: t ++ [TopRight]; Vertical :: h; MidLeft :: m ++ [MidRight]]
                                   ++ map (fun l => Vertical :: l) vs ++ [BottomLeft :: b ++ [BottomRight]]) ->
               length a = S (list_sum (map (fun w => w + 3)%nat ws))).
    { apply rule_length in R1, R2, R3. apply cells_length in C. intros a Ha.
      assert (HV: forall l, In l vs -> length l = list_sum (map (fun w => w + 3)%nat ws)).
      { intros l Hi. clear - F Hi. induction F as [|r x rs xs Hx _ IH]; [destruct Hi|]. destruct Hi as [->|Hi]; auto. now apply cells_length in Hx. }
      apply in_app_or in Ha as [[<-|[<-|[<-|[]]]]|Ha]; cbn [length]; rewrite ?app_length; cbn [length]; try lia.
      apply in_app_or in Ha as [Ha|[<-|[]]]; cbn [length]; rewrite ?app_length; cbn [length]; try lia.
      apply in_map_iff in Ha as (l & <- & Hi). cbn [length]. now rewrite HV. }
    intros x y Hx Hy. now rewrite (A x Hx), (A y Hy).
  Qed.
End Uniform.

Lemma quot_unit k : (0 < k)%Z -> Z.quot k 1 = k.
Proof. intros _. apply Z.quot_1_r. Qed.
Lemma sample_unit k draws rows : (0 < k)%Z -> (length rows <= length draws)%nat ->
  sample 1 k draws rows = Ok (map snd (filter (fun dr => (fst dr mod k =? 0)%Z) (combine draws rows))).
Proof. intros Hk H. unfold sample. cbn [Z.eqb]. rewrite Z.quot_1_r. apply pick_exact; auto. lia. Qed.
Lemma sample_over_half num den draws rows : (0 < num <= den)%Z -> (den < 2 * num)%Z -> (length rows <= length draws)%nat ->
  sample num den draws rows = Ok rows.
Proof.
  intros H1 H2 HL. unfold sample. replace (num =? 0)%Z with false by lia.
  assert (Z.quot den num = 1)%Z as ->.
  { rewrite Z.quot_div_nonneg by lia. symmetry. apply (Z.div_unique _ _ _ (den - num)); lia. }
  rewrite pick_exact by (auto; lia). f_equal. revert rows HL. induction draws as [|d ds IH]; intros [|r rows] HL; cbn [length] in HL; try lia; try reflexivity.
  cbn [combine filter fst]. rewrite Z.mod_1_r. cbn [Z.eqb map snd]. f_equal. apply IH. lia.
Qed.
Lemma sample_over_one num den draws rows : (0 < den < num)%Z -> rows <> [] -> draws <> [] ->
  sample num den draws rows = Raise ZeroDivisionError.
Proof.
  intros H HR HD. unfold sample. replace (num =? 0)%Z with false by lia. rewrite Z.quot_div_nonneg, Z.div_small by lia.
  destruct rows; [congruence|]. destruct draws; [congruence|]. reflexivity.
Qed.
Lemma sample_sub num den draws rows l : sample num den draws rows = Ok l -> subsequence l rows.
Proof. unfold sample. destruct (num =? 0)%Z; [discriminate|]. apply pick_sub. Qed.
