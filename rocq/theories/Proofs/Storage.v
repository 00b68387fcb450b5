(** Proofs: storage classes. *)
From Coq Require Import Sorted Permutation.
From Verif.Base Require Import Py PyFacts Value ValueFacts.
From Verif.Model Require Import Storage.
From Verif.Spec Require Import Json Storage.

Lemma distinct_list l : distinct_keys (VList l) <-> Forall distinct_keys l.
Proof.
  induction l as [|x l IH]; split; intro H; [constructor|exact I| |].
  - destruct H as [Hx Hl]. constructor; auto. now apply IH.
  - inversion H; subst. split; auto. now apply IH.
Qed.

Lemma Forall2_weaken {A B} (P Q : A -> B -> Prop) a b : (forall x y, P x y -> Q x y) -> Forall2 P a b -> Forall2 Q a b.
Proof. intros H. induction 1; constructor; auto. Qed.

Lemma sorted_Z l : StronglySorted Z.le (isort Z.leb l).
Proof.
  assert (H : StronglySorted (fun x y => Z.leb x y = true) (isort Z.leb l)).
  { apply isort_sorted.
    - intros a b. destruct (Z.leb_spec a b); auto. right. apply Z.leb_le. lia.
    - intros a b c. rewrite !Z.leb_le. lia. }
  induction H as [|x m _ IH Hx]; constructor; auto. eapply Forall_impl; [|exact Hx]. intros y. apply Z.leb_le.
Qed.

Lemma nth_skipn {A} k (l : list A) j : nth_error (skipn k l) j = nth_error l (k + j).
Proof. revert l. induction k as [|k IH]; intros [|x l]; cbn; auto. now destruct j. Qed.

Section S.
  Context (dump : value -> str) (parse : str -> result value) (compress decompress : str -> str).
  Context (Hj : faithful_json dump parse) (Hc : faithful_compression compress decompress).

  (** ** Compressed memory *)
  Lemma open_compressed batch : Forall distinct_keys batch ->
    open_batch parse decompress (compressed_batch dump compress batch) = Ok batch.
  Proof.
    intro H. unfold open_batch, compressed_batch. rewrite Hc. apply distinct_list in H.
    destruct (Hj _ H) as [E _]. now rewrite E.
  Qed.

  Definition opens (bs : list str) (ls : list (list value)) : Prop :=
    Forall2 (fun b l => open_batch parse decompress b = Ok l) bs ls.

  Lemma fill_spec rows : forall batch batches n ls,
    opens batches ls -> Forall (fun l => length l = BATCH_SIZE) ls -> length batch < BATCH_SIZE ->
    Forall distinct_keys batch -> Forall distinct_keys rows ->
    exists full tail, opens (fst (fill_batches dump compress batch batches n rows)) (full ++ tail) /\
      Forall (fun l => length l = BATCH_SIZE) full /\ (tail = [] \/ exists t, tail = [t] /\ length t < BATCH_SIZE) /\
      concat (full ++ tail) = concat ls ++ batch ++ rows.
  Proof.
    induction rows as [|r rows IH]; intros batch batches n ls Ho Hf Hb Hdb Hdr; cbn [fill_batches].
    - destruct batch as [|x batch].
      + exists ls, []. rewrite !app_nil_r. cbn [fst]. repeat split; auto.
      + exists ls, [x :: batch]. cbn [fst]. split; [|split; [|split]]; auto.
        * apply Forall2_app; auto. constructor; auto. apply open_compressed; auto.
        * right. exists (x :: batch). auto.
        * rewrite concat_app. cbn [concat]. now rewrite !app_nil_r.
    - inversion Hdr as [|? ? Hr Hrs]; subst.
      assert (Hdb' : Forall distinct_keys (batch ++ [r])) by (apply Forall_app; auto).
      destruct (Nat.leb_spec BATCH_SIZE (length (batch ++ [r]))) as [Hle|Hlt].
      + destruct (IH [] (batches ++ [compressed_batch dump compress (batch ++ [r])]) (S n) (ls ++ [batch ++ [r]])) as (full & tail & H1 & H2 & H3 & H4); auto.
        * apply Forall2_app; auto. constructor; auto. now apply open_compressed.
        * apply Forall_app; split; auto. constructor; auto. rewrite app_length in Hle |- *. cbn [length] in *. lia.
        * unfold BATCH_SIZE. cbn [length]. lia.
        * exists full, tail. repeat split; auto. rewrite H4, concat_app. cbn [concat app]. rewrite app_nil_r, <- !app_assoc. reflexivity.
      + destruct (IH (batch ++ [r]) batches (S n) ls) as (full & tail & H1 & H2 & H3 & H4); auto.
        exists full, tail. repeat split; auto. rewrite H4, <- !app_assoc. reflexivity.
  Qed.

  Lemma fill_length rows : forall batch batches n, snd (fill_batches dump compress batch batches n rows) = n + length rows.
  Proof.
    induction rows as [|r rows IH]; intros; cbn [fill_batches length snd]; [lia|].
    destruct (BATCH_SIZE <=? _); rewrite IH; lia.
  Qed.

  Lemma compressed_init_spec rows : Forall distinct_keys rows ->
    exists full tail, opens (fst (compressed_init dump compress rows)) (full ++ tail) /\
      Forall (fun l => length l = BATCH_SIZE) full /\ (tail = [] \/ exists t, tail = [t] /\ length t < BATCH_SIZE) /\
      concat (full ++ tail) = rows.
  Proof.
    intro H. destruct (fill_spec rows [] [] 0 []) as (full & tail & H1 & H2 & H3 & H4); auto.
    - constructor.
    - unfold BATCH_SIZE. cbn [length]. lia.
    - exists full, tail. auto.
  Qed.

  Lemma compressed_records_spec bs ls : opens bs ls -> compressed_records parse decompress bs = (filter truthy (concat ls), None).
  Proof.
    induction 1 as [|b l bs ls E _ IH]; [reflexivity|]. cbn [compressed_records concat]. rewrite E, IH.
    now rewrite filter_app.
  Qed.


  (** ** The n-th of several batches *)
  Lemma nth_batches full tail : Forall (fun l => length l = BATCH_SIZE) full ->
    (tail = [] \/ exists t, tail = [t] /\ length t < BATCH_SIZE) ->
    forall i (v : value), nth_error (concat (full ++ tail)) i = Some v ->
    exists l, nth_error (full ++ tail) (i / BATCH_SIZE) = Some l /\ nth_error l (i mod BATCH_SIZE) = Some v.
  Proof.
    assert (Hs : BATCH_SIZE <> 0) by discriminate. generalize dependent BATCH_SIZE. intros size Hs.
    intros Hf Ht. induction Hf as [|l full Hl Hf IH]; intros i v Hi.
    - destruct Ht as [->|(t & -> & Hlt)]; cbn [app concat] in Hi; [destruct i; discriminate|]. rewrite app_nil_r in Hi.
      assert (i < length t) by (apply nth_error_Some; congruence). cbn [app].
      rewrite Nat.div_small, Nat.mod_small by lia. exists t. auto.
    - cbn [app concat] in *. destruct (Nat.lt_ge_cases i (length l)) as [H|H].
      + rewrite nth_error_app1 in Hi by auto. rewrite Nat.div_small, Nat.mod_small by lia. exists l. auto.
      + rewrite nth_error_app2 in Hi by auto. destruct (IH _ _ Hi) as (l' & H1 & H2). exists l'.
        rewrite Hl in *. assert (E : i = i - size + 1 * size) by lia. rewrite E at 1. rewrite Nat.div_add by auto.
        rewrite E at 2. rewrite Nat.mod_add by auto. rewrite Nat.add_1_r. auto.
  Qed.

  Lemma opens_nth bs ls : opens bs ls -> forall k l, nth_error ls k = Some l ->
    exists b, nth_error bs k = Some b /\ open_batch parse decompress b = Ok l.
  Proof.
    induction 1 as [|b l bs ls E _ IH]; intros k l' Hk; [destruct k; discriminate|].
    destruct k as [|k]; cbn in *; [|eauto]. injection Hk as <-. eauto.
  Qed.

  Lemma py_index_nat {A} (l : list A) i v : (0 <= i)%Z -> nth_error l (Z.to_nat i) = Some v -> py_index l i = Ok v.
  Proof.
    intros Hi H. unfold py_index. destruct (Z.ltb_spec i 0); [lia|]. destruct (Z.ltb_spec i 0); [lia|]. now rewrite H.
  Qed.

  Lemma compressed_at_spec rows bs full tail : opens bs (full ++ tail) -> Forall (fun l => length l = BATCH_SIZE) full ->
    (tail = [] \/ exists t, tail = [t] /\ length t < BATCH_SIZE) -> concat (full ++ tail) = rows ->
    forall locs, in_range rows locs -> forall batch,
    exists out, compressed_at parse decompress bs batch locs = (out, None) /\ records_at rows locs out.
  Proof.
    intros Ho Hf Ht E locs H. induction H as [|i locs Hi _ IH]; intro batch.
    - exists []. split; [reflexivity|constructor].
    - destruct (nth_error rows (Z.to_nat i)) as [v|] eqn:Ev; [|apply nth_error_None in Ev; lia].
      rewrite <- E in Ev. destruct (nth_batches _ _ Hf Ht _ _ Ev) as (l & H1 & H2).
      destruct (opens_nth _ _ Ho _ _ H1) as (b & Hb & Hl).
      assert (Hd : (0 <= i / Z.of_nat BATCH_SIZE)%Z) by (apply Z.div_pos; [lia|reflexivity]).
      assert (Hm : (0 <= i mod Z.of_nat BATCH_SIZE)%Z) by (apply Z.mod_pos_bound; reflexivity).
      destruct (IH l) as (out & Hout & Hrec). exists (v :: out). cbn [compressed_at].
      destruct (Z.eqb_spec (i / Z.of_nat BATCH_SIZE) (-1)) as [Hx|_]; [rewrite Hx in Hd; lia|].
      rewrite (py_index_nat bs _ b); auto.
      + cbn [bind]. rewrite Hl. rewrite (py_index_nat l _ v); auto.
        * rewrite Hout. split; auto. constructor; auto. split; [lia|]. congruence.
        * rewrite Z2Nat.inj_mod, Nat2Z.id by lia. exact H2.
      + rewrite Z2Nat.inj_div, Nat2Z.id by lia. exact Hb.
  Qed.

  (** ** Disk *)
  Definition line (r : value) : str := dump r ++ [newline].

  Lemma fill_file_spec rows : forall file buffer, fill_file dump file buffer rows = file ++ buffer ++ concat (map line rows).
  Proof.
    induction rows as [|r rows IH]; intros file buffer; cbn [fill_file map concat].
    - destruct (Nat.ltb_spec 0 (length buffer)) as [H|H]; [now rewrite app_nil_r|].
      destruct buffer; [now rewrite !app_nil_r|cbn in H; lia].
    - destruct (_ <? _)%N; rewrite IH; cbn [app]; unfold line; now rewrite <- !app_assoc.
  Qed.

  Lemma disk_length rows : snd (disk_init dump rows) = Z.of_nat (length rows).
  Proof.
    cbn [disk_init snd].
    assert (H : forall (l : list value) n, fold_left (fun n _ => (n + 1)%Z) l n = (n + Z.of_nat (length l))%Z).
    { induction l as [|x l IH]; intro n; cbn [fold_left length]; [lia|]. rewrite IH. lia. }
    rewrite H. lia.
  Qed.

  Lemma lines_one body rest : ~ In newline body -> forall acc,
    file_lines acc (body ++ newline :: rest) = (acc ++ body ++ [newline]) :: file_lines [] rest.
  Proof.
    induction body as [|c body IH]; intros H acc.
    - reflexivity.
    - cbn [app file_lines]. destruct (Ascii.eqb_spec c newline) as [->|_]; [destruct H; now left|].
      rewrite IH; [|intro; apply H; now right]. now rewrite <- app_assoc.
  Qed.

  Lemma lines_spec rows : Forall distinct_keys rows -> file_lines [] (concat (map line rows)) = map line rows.
  Proof.
    induction 1 as [|r rows Hr _ IH]; [reflexivity|]. cbn [map concat]. destruct (Hj _ Hr) as (_ & _ & Hn).
    unfold line at 1. rewrite <- app_assoc. cbn [app]. rewrite lines_one by exact Hn. now rewrite IH.
  Qed.

  Lemma read_spec rows : Forall distinct_keys rows -> rows <> [] ->
    read_file (fst (disk_init dump rows)) = (map line rows, None).
  Proof.
    intros H Hne. cbn [disk_init fst]. rewrite fill_file_spec. cbn [app]. unfold read_file.
    rewrite lines_spec by auto. destruct rows as [|r rows]; [easy|].
    cbn [map concat]. unfold line at 1. destruct (dump r); reflexivity.
  Qed.

  Lemma parse_lines rows : Forall distinct_keys rows -> map_gen parse (map line rows) None = (rows, None).
  Proof.
    induction 1 as [|r rows Hr _ IH]; [reflexivity|]. cbn [map map_gen]. destruct (Hj _ Hr) as (_ & E & _).
    unfold line at 1. change newline with line_feed. now rewrite E, IH.
  Qed.

  Lemma mem_Z i l : mem Z.eqb i l = true <-> In i l.
  Proof.
    unfold mem. rewrite existsb_exists. split.
    - intros (x & Hx & E). apply Z.eqb_eq in E. now subst.
    - intro H. exists i. split; auto. apply Z.eqb_refl.
  Qed.

  Lemma disk_at_spec locs maxl : In maxl locs -> (forall i, In i locs -> (i <= maxl)%Z) -> forall rows, Forall distinct_keys rows -> forall i,
    (0 <= i <= maxl)%Z -> (maxl < i + Z.of_nat (length rows))%Z ->
    exists positions out, disk_at parse i maxl locs (map line rows) None = (out, None) /\
      Forall2 (fun p v => (i <= p)%Z /\ nth_error rows (Z.to_nat (p - i)) = Some v) positions out /\
      StronglySorted Z.lt positions /\ (forall p, In p positions <-> In p locs /\ (i <= p)%Z).
  Proof.
    intros Hmax Hle rows Hd. induction Hd as [|r rows Hr _ IH]; intros i Hi Hlen; cbn [length] in Hlen; [lia|].
    cbn [map disk_at]. destruct (mem Z.eqb i locs) eqn:Em.
    - apply mem_Z in Em. destruct (Hj _ Hr) as (_ & E & _). unfold line at 1. change newline with line_feed. rewrite E.
      destruct (Z.eqb_spec i maxl) as [->|Hne].
      + exists [maxl], [r]. repeat split; auto.
        * constructor; [|constructor]. split; [lia|]. now rewrite Z.sub_diag.
        * constructor; constructor.
        * destruct H as [<-|[]]; auto.
        * destruct H as [<-|[]]; lia.
        * intros [Hp1 Hp2]. left. specialize (Hle _ Hp1). lia.
      + destruct (IH (i + 1)%Z ltac:(lia) ltac:(lia)) as (ps & out & E1 & E2 & E3 & E4). rewrite E1.
        exists (i :: ps), (r :: out). repeat split.
        * constructor; [split; [lia|now rewrite Z.sub_diag]|].
          eapply Forall2_weaken; [|exact E2]. intros p v [Hp Hn]. split; [lia|].
          replace (Z.to_nat (p - i)) with (S (Z.to_nat (p - (i + 1)))) by lia. exact Hn.
        * constructor; auto. apply Forall_forall. intros p Hp. apply E4 in Hp. lia.
        * destruct H as [<-|H]; auto. now apply E4.
        * destruct H as [<-|H]; [lia|]. apply E4 in H. lia.
        * intros [Hp1 Hp2]. destruct (Z.eq_dec p i) as [->|Hpi]; [now left|]. right. apply E4. split; auto. lia.
    - assert (Hni : ~ In i locs) by (rewrite <- mem_Z; congruence).
      assert (i <> maxl) by (intros ->; auto).
      destruct (IH (i + 1)%Z ltac:(lia) ltac:(lia)) as (ps & out & E1 & E2 & E3 & E4). rewrite E1.
      exists ps, out. repeat split; auto.
      + eapply Forall2_weaken; [|exact E2]. intros p v [Hp Hn]. split; [lia|].
        replace (Z.to_nat (p - i)) with (S (Z.to_nat (p - (i + 1)))) by lia. exact Hn.
      + apply E4 in H0. tauto.
      + apply E4 in H0. lia.
      + intros [Hp1 Hp2]. apply E4. split; auto. destruct (Z.eq_dec p i) as [->|Hpi]; [easy|]. lia.
  Qed.

  Lemma zmax_spec l d : In (zmax l d) (d :: l) /\ forall i, In i (d :: l) -> (i <= zmax l d)%Z.
  Proof.
    unfold zmax. revert d. induction l as [|x l IH]; intro d; cbn [fold_left]; [split; [now left|intros i [<-|[]]; lia]|].
    destruct (IH (Z.max d x)) as [H1 H2]. split.
    - destruct H1 as [H1|H1]; [|right; right; auto]. rewrite <- H1. destruct (Z.max_spec d x) as [[_ ->]|[_ ->]]; [right; left|left]; auto.
    - intros i [<-|[<-|Hi]].
      + specialize (H2 _ (or_introl eq_refl)). lia.
      + specialize (H2 _ (or_introl eq_refl)). lia.
      + apply H2. now right.
  Qed.
  Lemma zmin_spec l d : In (zmin l d) (d :: l) /\ forall i, In i (d :: l) -> (zmin l d <= i)%Z.
  Proof.
    unfold zmin. revert d. induction l as [|x l IH]; intro d; cbn [fold_left]; [split; [now left|intros i [<-|[]]; lia]|].
    destruct (IH (Z.min d x)) as [H1 H2]. split.
    - destruct H1 as [H1|H1]; [|right; right; auto]. rewrite <- H1. destruct (Z.min_spec d x) as [[_ ->]|[_ ->]]; [left|right; left]; auto.
    - intros i [<-|[<-|Hi]].
      + specialize (H2 _ (or_introl eq_refl)). lia.
      + specialize (H2 _ (or_introl eq_refl)). lia.
      + apply H2. now right.
  Qed.

  (** ** All of the set *)
  Lemma compressed_contents rows : Forall distinct_keys rows ->
    contents parse decompress (persist dump compress COMPRESSED_MEMORY rows) = (filter truthy rows, None).
  Proof.
    intro H. destruct (compressed_init_spec rows H) as (full & tail & Ho & _ & _ & E).
    cbn [persist]. destruct (compressed_init dump compress rows) as [bs n]. cbn [contents compressed_reader fst] in *.
    rewrite (compressed_records_spec _ _ Ho). now rewrite E.
  Qed.

  Lemma disk_contents rows : Forall distinct_keys rows -> rows <> [] ->
    contents parse decompress (persist dump compress DISK rows) = (rows, None).
  Proof.
    intros H Hne. pose proof (read_spec rows H Hne) as E. cbn [persist]. destruct (disk_init dump rows) as [file n].
    cbn [contents fst] in *. unfold disk_reader. rewrite E. now apply parse_lines.
  Qed.

  Lemma disk_contents_empty : contents parse decompress (persist dump compress DISK []) = ([], Some ValueError).
  Proof. reflexivity. Qed.

  Lemma contents_all rows c : Forall distinct_keys rows -> rows <> [] -> Forall (fun r => truthy r = true) rows ->
    contents parse decompress (persist dump compress c rows) = (rows, None).
  Proof.
    intros H Hne Ht. destruct c.
    - reflexivity.
    - reflexivity.
    - now apply disk_contents.
    - rewrite compressed_contents by auto. rewrite filter_all; auto. now apply Forall_forall.
  Qed.

  Lemma count_all rows c : count (persist dump compress c rows) = Z.of_nat (length rows).
  Proof.
    destruct c; try reflexivity.
    - cbn [persist]. pose proof (disk_length rows) as E. now destruct (disk_init dump rows).
    - cbn [persist]. pose proof (fill_length rows [] [] 0) as E. fold (compressed_init dump compress rows) in E.
      destruct (compressed_init dump compress rows). cbn [snd] in E. now subst.
  Qed.

  (** ** Positions *)
  Lemma compressed_items rows locs : Forall distinct_keys rows -> locs <> [] -> in_range rows locs ->
    exists positions out, get_items parse decompress (persist dump compress COMPRESSED_MEMORY rows) locs = (out, None) /\
      StronglySorted Z.le positions /\ Permutation positions locs /\ records_at rows positions out.
  Proof.
    intros H Hne Hr. destruct (compressed_init_spec rows H) as (full & tail & Ho & Hf & Ht & E).
    cbn [persist]. destruct (compressed_init dump compress rows) as [bs n]. cbn [get_items fst] in *.
    assert (Hr' : in_range rows (isort Z.leb locs)).
    { apply Forall_forall. intros i Hi. apply isort_In in Hi. unfold in_range in Hr. rewrite Forall_forall in Hr. auto. }
    destruct (compressed_at_spec rows bs full tail Ho Hf Ht E _ Hr' []) as (out & E1 & E2).
    exists (isort Z.leb locs), out. split; [|split; [|split]]; auto.
    - unfold compressed_reader. destruct locs; [easy|exact E1].
    - apply sorted_Z.
    - apply isort_perm.
  Qed.

  Lemma disk_items rows locs : Forall distinct_keys rows -> locs <> [] -> in_range rows locs ->
    exists positions out, get_items parse decompress (persist dump compress DISK rows) locs = (out, None) /\
      StronglySorted Z.lt positions /\ (forall i, In i positions <-> In i locs) /\ records_at rows positions out.
  Proof.
    intros H Hne Hr. unfold in_range in Hr. rewrite Forall_forall in Hr.
    destruct locs as [|l ls]; [easy|].
    assert (Hrows : rows <> []) by (intros ->; specialize (Hr _ (or_introl eq_refl)); cbn in Hr; lia).
    pose proof (read_spec rows H Hrows) as E. cbn [persist]. destruct (disk_init dump rows) as [file n].
    cbn [get_items fst] in *. unfold disk_reader. rewrite E.
    destruct (zmax_spec ls l) as [M1 M2]. destruct (zmin_spec ls l) as [m1 m2].
    set (M := zmax ls l) in *. set (m := zmin ls l) in *.
    pose proof (Hr _ M1) as HM. pose proof (Hr _ m1) as Hm. pose proof (m2 _ M1) as HmM.
    rewrite map_length. destruct (Nat.ltb_spec (length rows) (Z.to_nat m)) as [Hx|_]; [lia|].
    rewrite skipn_map.
    assert (Hd : Forall distinct_keys (skipn (Z.to_nat m) rows)).
    { rewrite <- (firstn_skipn (Z.to_nat m) rows) in H. now apply Forall_app in H. }
    destruct (disk_at_spec (l :: ls) M M1 M2 _ Hd m ltac:(lia) ltac:(rewrite skipn_length; lia)) as (ps & out & E1 & E2 & E3 & E4).
    exists ps, out. split; [exact E1|]. split; [exact E3|]. split.
    - intro i. rewrite E4. split; [tauto|]. intro Hi. split; auto.
    - eapply Forall2_weaken; [|exact E2]. intros p v [Hp Hn]. split; [lia|].
      rewrite nth_skipn in Hn. now replace (Z.to_nat m + Z.to_nat (p - m)) with (Z.to_nat p) in Hn by lia.
  Qed.

  Lemma list_items rows locs : in_range rows locs ->
    exists out, get_items parse decompress (persist dump compress NO_PERSISTANCE rows) locs = (out, None) /\ records_at rows locs out.
  Proof.
    intro H. cbn [persist get_items].
    assert (E : exists out, mapM (py_index rows) locs = Ok out /\ records_at rows locs out).
    { induction H as [|i locs Hi _ (out & E1 & E2)]; [exists []; split; [reflexivity|constructor]|].
      destruct (nth_error rows (Z.to_nat i)) as [v|] eqn:Ev; [|apply nth_error_None in Ev; lia].
      exists (v :: out). cbn [mapM]. rewrite (py_index_nat rows i v), E1 by (auto; lia). cbn [bind]. split; auto. constructor; auto.
      split; auto. lia. }
    destruct E as (out & -> & E). eauto.
  Qed.

  Lemma memory_items rows locs : get_items parse decompress (persist dump compress MEMORY rows) locs = ([], None).
  Proof. reflexivity. Qed.
End S.
