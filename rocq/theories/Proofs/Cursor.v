From Verif.Base Require Import Py PyFacts.
From Verif.Model Require Import Cursor.
From Verif.Spec Require Import Cursor.
From Coq Require Import Permutation Sorted.

(** ** bits and hex *)
Lemma bits_of_byte_of_bits a b c d e f g h :
  bits_of_byte (byte_of_bits a b c d e f g h) = [a;b;c;d;e;f;g;h].
Proof. destruct a, b, c, d, e, f, g, h; reflexivity. Qed.

Lemma byte_of_bits_lt a b c d e f g h : (byte_of_bits a b c d e f g h < 256)%N.
Proof. destruct a, b, c, d, e, f, g, h; reflexivity. Qed.

Lemma list_ind8 (P : list bool -> Prop) :
  (forall l, (length l < 8)%nat -> P l) ->
  (forall a b c d e f g h l, P l -> P (a::b::c::d::e::f::g::h::l)) ->
  forall l, P l.
Proof.
  intros H1 H2 l. remember (length l) as n eqn:En. revert l En.
  induction n as [n IH] using lt_wf_ind. intros l En.
  destruct l as [|a [|b [|c [|d [|e [|f [|g [|h l]]]]]]]]; try (apply H1; simpl; lia).
  apply H2. apply (IH (length l)); auto. subst; simpl; lia.
Qed.

(** the decoded bits are the original ones followed by padding zeros *)
Lemma frombytes_tobytes l : exists k, (k < 8)%nat /\ frombytes (tobytes l) = l ++ repeat false k.
Proof.
  induction l as [l Hl|a b c d e f g h l (k & Hk & IH)] using list_ind8.
  - destruct l as [|a [|b [|c [|d [|e [|f [|g [|h l]]]]]]]]; simpl in Hl; try lia;
      cbn [tobytes frombytes flat_map]; rewrite ?bits_of_byte_of_bits, ?app_nil_r.
    + exists 0%nat; split; [lia|reflexivity].
    + exists 7%nat; split; [lia|reflexivity].
    + exists 6%nat; split; [lia|reflexivity].
    + exists 5%nat; split; [lia|reflexivity].
    + exists 4%nat; split; [lia|reflexivity].
    + exists 3%nat; split; [lia|reflexivity].
    + exists 2%nat; split; [lia|reflexivity].
    + exists 1%nat; split; [lia|reflexivity].
  - exists k. split; auto. cbn [tobytes frombytes flat_map].
    rewrite bits_of_byte_of_bits. unfold frombytes in IH. rewrite IH. reflexivity.
Qed.

Lemma tobytes_lt l : Forall (fun n => n < 256)%N (tobytes l).
Proof.
  induction l as [l Hl|a b c d e f g h l IH] using list_ind8.
  - destruct l as [|a [|b [|c [|d [|e [|f [|g [|h l]]]]]]]]; simpl in Hl; try lia;
      cbn [tobytes]; repeat constructor; apply byte_of_bits_lt.
  - cbn [tobytes]. constructor; auto. apply byte_of_bits_lt.
Qed.

Lemma hex_val_digit n : (n < 16)%N -> hex_val (hex_digit n) = Some n.
Proof.
  intros H. assert (Hin : In n (map N.of_nat (seq 0 16))).
  { apply in_map_iff. exists (N.to_nat n). split; [apply N2Nat.id|]. apply in_seq. lia. }
  simpl in Hin. repeat (destruct Hin as [<-|Hin]; [reflexivity|]). contradiction.
Qed.

Lemma from_hex_to_hex l : Forall (fun n => n < 256)%N l -> from_hex (to_hex l) = Ok l.
Proof.
  induction 1 as [|n l Hn Hl IH]; [reflexivity|].
  unfold to_hex in *. cbn [flat_map app from_hex].
  rewrite !hex_val_digit by (zify; lia). rewrite IH. cbn [bind].
  replace (16 * (n / 16) + n mod 16)%N with n by (zify; lia). reflexivity.
Qed.

Lemma pick_map (f : str -> bool) l pad :
  pick l (map f l ++ pad) = Ok (filter f l).
Proof.
  induction l as [|b l IH]; simpl; auto.
  destruct (f b); rewrite IH; reflexivity.
Qed.

(** ** sorted names *)
Lemma str_ltb_leb a b : str_ltb a b = true <-> str_leb a b = true /\ a <> b.
Proof.
  unfold str_ltb, str_leb. split.
  - destruct (str_compare a b) eqn:E; try discriminate. split; auto. intros ->.
    rewrite str_compare_refl in E. discriminate.
  - intros [H N]. destruct (str_compare a b) eqn:E; auto; try discriminate.
    apply str_compare_eq in E. contradiction.
Qed.

Lemma strongly_sorted_filter {A} (P : A -> A -> Prop) f l :
  StronglySorted P l -> StronglySorted P (filter f l).
Proof.
  induction 1 as [|x l Hs IH Hf]; simpl; [constructor|].
  destruct (f x); auto. constructor; auto. rewrite Forall_forall in *.
  intros y Hy. apply filter_In in Hy as [Hy _]. auto.
Qed.

Lemma dedup_sorted (P : str -> str -> Prop) l : StronglySorted P l -> StronglySorted P (dedup str_eqb l).
Proof.
  induction 1 as [|x l Hs IH Hf]; simpl; [constructor|]. apply SSorted_cons.
  - apply strongly_sorted_filter; auto.
  - apply Forall_forall. intros y Hy. apply filter_In in Hy as [Hy _].
    rewrite (dedup_In str_eqb str_eqb_eq) in Hy. rewrite Forall_forall in Hf. auto.
Qed.

Lemma strictly_sorted l : NoDup l -> StronglySorted (fun a b => str_leb a b = true) l ->
  StronglySorted (fun a b => str_ltb a b = true) l.
Proof.
  induction l as [|x l IH]; intros Hn Hs; constructor; inversion Hn; inversion Hs; subst; auto.
  rewrite Forall_forall in *. intros y Hy. apply str_ltb_leb. split; auto. intros ->. auto.
Qed.

Lemma ascending_exists blobs : ascending_names blobs (dedup str_eqb (sorted_str blobs)).
Proof.
  split.
  - apply strictly_sorted.
    + apply dedup_NoDup, str_eqb_eq.
    + apply dedup_sorted, sorted_str_sorted.
  - intros b. rewrite (dedup_In str_eqb str_eqb_eq). apply sorted_str_In.
Qed.

Lemma strictly_sorted_NoDup l : StronglySorted (fun a b => str_ltb a b = true) l -> NoDup l.
Proof.
  induction 1 as [|x l Hs IH Hf]; constructor; auto.
  intros Hx. rewrite Forall_forall in Hf. apply Hf in Hx. apply str_ltb_leb in Hx as [_ Hx]. auto.
Qed.

Lemma ascending_unique blobs a b : ascending_names blobs a -> ascending_names blobs b -> a = b.
Proof.
  intros [Ha1 Ha2] [Hb1 Hb2].
  apply (sorted_perm_unique (fun a b => str_leb a b = true) str_leb_antisym).
  - clear -Ha1. induction Ha1 as [|x l Hs IH Hf]; constructor; auto.
    eapply Forall_impl; [|exact Hf]. intros y Hy. apply str_ltb_leb in Hy. tauto.
  - clear -Hb1. induction Hb1 as [|x l Hs IH Hf]; constructor; auto.
    eapply Forall_impl; [|exact Hf]. intros y Hy. apply str_ltb_leb in Hy. tauto.
  - apply NoDup_Permutation; try (apply strictly_sorted_NoDup; auto).
    intros x. rewrite Ha2, Hb2. tauto.
Qed.

Lemma ascending_dedup blobs names : ascending_names blobs names ->
  names = dedup str_eqb (sorted_str blobs).
Proof. intros H. eapply ascending_unique; eauto. apply ascending_exists. Qed.

(** ** the reading loop *)
Section Loop.
  Context {R : Type}.
  Variable hash : str -> Z.
  Variable dumps : cdict -> str.
  Variable loads : str -> result cdict.
  Variable contents : str -> list R.
  Variable blobs : list str.
  Hypothesis Hnonempty : ~ In [] blobs.

  Let srt := sorted_str blobs.
  Let D := dedup str_eqb srt.

  Lemma D_nonempty : ~ In [] D.
  Proof. unfold D, srt. rewrite (dedup_In str_eqb str_eqb_eq), sorted_str_In. auto. Qed.

  Lemma D_NoDup : NoDup D.
  Proof. apply dedup_NoDup, str_eqb_eq. Qed.

  Lemma dedup_filter f (l : list str) : dedup str_eqb (filter f l) = filter f (dedup str_eqb l).
  Proof.
    induction l as [|x l IH]; simpl; auto.
    destruct (f x) eqn:E; simpl.
    - rewrite IH. f_equal. apply filter_comm.
    - rewrite IH, filter_filter. apply filter_ext_in. intros y Hy.
      destruct (f y) eqn:Ey; [|rewrite andb_false_r; reflexivity].
      destruct (str_eqb x y) eqn:Exy; auto. apply str_eqb_eq in Exy. congruence.
  Qed.

  (** the names still to be read *)
  Definition unread (rd : list str) : list str := filter (fun b => negb (str_mem b rd)) D.

  Lemma unread_hd rd : hd_error (filter (fun b => negb (str_mem b rd)) srt) = hd_error (unread rd).
  Proof.
    unfold unread, D. rewrite <- dedup_filter. destruct (filter _ srt); reflexivity.
  Qed.

  Lemma unread_In rd b : In b (unread rd) <-> In b blobs /\ ~ In b rd.
  Proof.
    unfold unread, D, srt. rewrite filter_In, (dedup_In str_eqb str_eqb_eq), sorted_str_In.
    rewrite negb_true_iff, str_mem_false. tauto.
  Qed.

  Lemma unread_app rd b rest : unread rd = b :: rest -> unread (rd ++ [b]) = rest.
  Proof.
    intros H.
    assert (E : unread (rd ++ [b]) = filter (fun x => negb (str_eqb x b)) (unread rd)).
    { unfold unread. rewrite filter_filter. apply filter_ext. intros x.
      unfold str_mem, mem. rewrite existsb_app. simpl. rewrite orb_false_r, negb_orb. reflexivity. }
    rewrite E, H. simpl. rewrite str_eqb_refl. simpl. apply filter_all.
    intros x Hx. apply negb_true_iff, str_eqb_neq. intros ->.
    assert (Hn : NoDup (unread rd)) by (apply NoDup_filter, D_NoDup).
    rewrite H in Hn. inversion Hn; auto.
  Qed.

  Lemma unread_ext r1 r2 : (forall b, In b blobs -> (In b r1 <-> In b r2)) -> unread r1 = unread r2.
  Proof.
    intros H. unfold unread. apply filter_ext_in. intros b Hb.
    unfold D, srt in Hb. rewrite (dedup_In str_eqb str_eqb_eq), sorted_str_In in Hb.
    f_equal. apply eq_true_iff_eq. rewrite !str_mem_In. auto.
  Qed.

  (** the cursor stands before the records [l] (a location without a partition only occurs for a
      dictionary naming a blob that is gone) *)
  Definition Good (c : cursor) (l : list R) : Prop :=
    readable_blobs c = srt /\
    ((((location c < 0)%Z \/ partition c = []) /\ l = flat_map contents (unread (read_blobs c))) \/
     (In (partition c) blobs /\ (0 <= location c)%Z /\
      l = skipn (Z.to_nat (location c + 1)) (contents (partition c))
          ++ flat_map contents (unread (read_blobs c ++ [partition c])))).

  Definition SInv (s : saved) (l : list R) : Prop :=
    exists c, new_cursor hash loads blobs s = Ok c /\ Good c l.

  Definition GInv (s : saved) (g : gen) (l : list R) : Prop :=
    match g with
    | NotStarted => SInv s l
    | InBlob b rest loc =>
        exists c, s = AsObject c /\ readable_blobs c = srt /\ In b blobs /\ partition c = b /\
          location c = (loc - 1)%Z /\ (1 <= loc)%Z /\
          rest = skipn (Z.to_nat loc) (contents b) /\
          l = rest ++ flat_map contents (unread (read_blobs c ++ [b]))
    | Finished => l = [] /\ exists c, s = AsObject c /\ Good c []
    end.

  Lemma skipn_cons {A} n (l : list A) x rest : skipn n l = x :: rest -> skipn (S n) l = rest.
  Proof.
    revert l. induction n as [|n IH]; intros [|y l] H; simpl in *; try discriminate.
    - congruence.
    - apply IH in H. exact H.
  Qed.

  Lemma next_blob_prev c b : readable_blobs c = srt -> In b blobs ->
    next_blob c (Some b) =
      match unread (read_blobs c ++ [b]) with
      | [] => Ok (None, mkCursor srt (read_blobs c ++ [b]) [] (-1))
      | b' :: _ => Ok (Some b', mkCursor srt (read_blobs c ++ [b]) b' (-1))
      end.
  Proof.
    intros Hr HD. unfold next_blob.
    assert (Hb : b <> []) by (intros ->; auto).
    destruct b as [|x b]; [congruence|].
    cbn [partition location readable_blobs read_blobs str_eqb list_eqb negb andb].
    rewrite Hr.
    pose proof (unread_hd (read_blobs c ++ [x :: b])) as Hu.
    destruct (filter _ srt) as [|b' u]; destruct (unread _) as [|b'' post];
      simpl in Hu; try discriminate; auto.
    injection Hu as ->. reflexivity.
  Qed.

  Lemma advance_spec fuel : forall c b it loc,
    readable_blobs c = srt -> In b blobs ->
    (it <> [] -> partition c = b) -> (0 <= loc)%Z -> it = skipn (Z.to_nat loc) (contents b) ->
    (length (unread (read_blobs c ++ [b])) < fuel)%nat ->
    exists c' g, advance contents fuel c b it loc
        = Ok (hd_error (it ++ flat_map contents (unread (read_blobs c ++ [b]))), c', g)
      /\ GInv (AsObject c') g (tl (it ++ flat_map contents (unread (read_blobs c ++ [b])))).
  Proof.
    induction fuel as [|f IH]; intros c b it loc Hr HD Hpart Hloc Hit Hf; [lia|].
    destruct it as [|r rest].
    - cbn [advance]. rewrite (next_blob_prev c b) by auto.
      destruct (unread (read_blobs c ++ [b])) as [|b' post] eqn:EU.
      + cbn [bind]. do 2 eexists. split; [reflexivity|]. simpl. split; auto.
        eexists. split; [reflexivity|]. split; auto. left. cbn [location read_blobs].
        split; [left; lia|]. rewrite EU. reflexivity.
      + cbn [bind].
        assert (Hin : In b' blobs).
        { apply (unread_In (read_blobs c ++ [b])). rewrite EU. left; auto. }
        assert (Hb' : b' <> []) by (intros ->; auto).
        destruct b' as [|x b']; [congruence|].
        unfold skip_to_cursor. cbn [location]. change (-1 <? 0)%Z with true. cbn iota.
        pose proof (unread_app _ _ _ EU) as EU2.
        specialize (IH (mkCursor srt (read_blobs c ++ [b]) (x :: b') (-1)) (x :: b') (contents (x :: b')) 0%Z).
        cbn [read_blobs readable_blobs partition] in IH. rewrite EU2 in IH.
        simpl in Hf. destruct IH as (c' & g & E & HG); auto; [lia|lia|].
        exists c', g. split; auto.
    - cbn [advance]. do 2 eexists. split; [reflexivity|].
      cbn [app tl GInv]. exists (with_location c loc).
      repeat split; auto.
      + cbn [with_location partition]. apply Hpart. discriminate.
      + cbn [with_location location]. lia.
      + lia.
      + replace (Z.to_nat (loc + 1)) with (S (Z.to_nat loc)) by lia.
        symmetry. eapply skipn_cons. symmetry. exact Hit.
  Qed.

  Lemma filter_length_le {A} (f : A -> bool) l : (length (filter f l) <= length l)%nat.
  Proof. induction l as [|y l' IH']; simpl; auto; destruct (f y); simpl; lia. Qed.

  Lemma dedup_length_le (l : list str) : (length (dedup str_eqb l) <= length l)%nat.
  Proof.
    induction l as [|x l IH]; simpl; auto.
    pose proof (filter_length_le (fun y => negb (str_eqb x y)) (dedup str_eqb l)). lia.
  Qed.

  Lemma unread_fuel rd : (length (unread rd) < S (length srt))%nat.
  Proof.
    unfold unread. pose proof (filter_length_le (fun b => negb (str_mem b rd)) D).
    pose proof (dedup_length_le srt) as H2. change (dedup str_eqb srt) with D in H2. lia.
  Qed.

  Lemma py_next_spec rd l : rd_blobs rd = blobs -> GInv (rd_cursor rd) (rd_gen rd) l ->
    exists rd', py_next hash loads contents rd = Ok (hd_error l, rd') /\ rd_blobs rd' = blobs /\
      GInv (rd_cursor rd') (rd_gen rd') (tl l).
  Proof.
    destruct rd as [bl s g]. cbn [rd_blobs rd_cursor rd_gen]. intros -> HG.
    unfold py_next. cbn [rd_blobs rd_cursor rd_gen]. destruct g as [|b rest loc|].
    - destruct HG as (c & Hc & Hr & Hcase). rewrite Hc. cbn [bind].
      destruct Hcase as [[Hloc Hl]|(Hin & Hloc & Hl)].
      + unfold next_blob.
        replace (negb (str_eqb (partition c) []) && (0 <=? location c)%Z) with false.
        2:{ symmetry. destruct Hloc as [Hloc| ->]; [|reflexivity].
            apply andb_false_intro2. lia. }
        rewrite Hr. pose proof (unread_hd (read_blobs c)) as Hu.
        destruct (filter _ srt) as [|b u]; destruct (unread (read_blobs c)) as [|b' post] eqn:EU;
          simpl in Hu; try discriminate.
        * cbn [bind]. simpl in Hl. subst l. eexists. split; [reflexivity|]. cbn [rd_blobs rd_cursor rd_gen].
          split; auto. simpl. split; auto. eexists. split; [reflexivity|]. split; auto.
          left. rewrite EU. auto.
        * injection Hu as ->. cbn [bind].
          assert (Hin : In b' blobs).
          { apply (unread_In (read_blobs c)). rewrite EU. left; auto. }
          assert (Hb : b' <> []) by (intros ->; auto).
          destruct b' as [|x b]; [congruence|].
          unfold skip_to_cursor. cbn [location]. change (-1 <? 0)%Z with true. cbn iota.
          pose proof (unread_app _ _ _ EU) as EU2.
          pose proof (advance_spec (S (length srt)) (mkCursor srt (read_blobs c) (x :: b) (-1))
                        (x :: b) (contents (x :: b)) 0%Z) as HA.
          cbn [read_blobs readable_blobs partition] in HA |- *.
          destruct HA as (c' & g & E & HG); auto; [lia|apply unread_fuel|].
          rewrite E. cbn [bind]. rewrite EU2 in *. simpl in Hl. rewrite Hl.
          eexists. split; [reflexivity|].
          cbn [rd_blobs rd_cursor rd_gen]. auto.
      + unfold next_blob.
        assert (Hb : partition c <> []) by (intros Hx; rewrite Hx in Hin; auto).
        replace (0 <=? location c)%Z with true by lia.
        replace (str_eqb (partition c) []) with false by (symmetry; apply str_eqb_neq; auto).
        cbn [negb andb]. rewrite Hr.
        replace (str_mem (partition c) srt) with true.
        2:{ symmetry. apply str_mem_In. apply sorted_str_In. auto. }
        cbn [bind]. destruct (partition c) as [|x b] eqn:Epart; [congruence|].
        unfold skip_to_cursor. replace (location c <? 0)%Z with false by lia.
        rewrite Hr.
        destruct (advance_spec (S (length srt)) c (x :: b)
                    (skipn (Z.to_nat (location c + 1)) (contents (x :: b))) (location c + 1)%Z)
          as (c' & g & E & HG); auto; [lia|apply unread_fuel|].
        rewrite E. cbn [bind]. rewrite <- Hl in *. eexists. split; [reflexivity|].
        cbn [rd_blobs rd_cursor rd_gen]. auto.
    - destruct HG as (c & -> & Hr & Hin & Hpart & Hloc & Hl1 & Hrest & Hl).
      rewrite Hr.
      destruct (advance_spec (S (length srt)) c b rest loc)
        as (c' & g & E & HG); auto; [lia|apply unread_fuel|].
      rewrite E. cbn [bind]. rewrite <- Hl in *. eexists. split; [reflexivity|].
      cbn [rd_blobs rd_cursor rd_gen]. auto.
    - destruct HG as (-> & c & -> & Hg). eexists. split; [reflexivity|].
      cbn [rd_blobs rd_cursor rd_gen tl]. split; auto. simpl. split; auto. eauto.
  Qed.

  Lemma read_n_spec k : forall rd l, rd_blobs rd = blobs -> GInv (rd_cursor rd) (rd_gen rd) l ->
    exists rd', read_n hash loads contents k rd = Ok (firstn k l, rd') /\ rd_blobs rd' = blobs /\
      GInv (rd_cursor rd') (rd_gen rd') (skipn k l).
  Proof.
    induction k as [|k IH]; intros rd l Hb HG; cbn [read_n].
    - exists rd. auto.
    - destruct (py_next_spec rd l Hb HG) as (rd' & E & Hb' & HG'). rewrite E. cbn [bind].
      destruct l as [|x l]; cbn [hd_error].
      + exists rd'. split; auto.
      + cbn [tl] in HG'. destruct (IH rd' l Hb' HG') as (rd'' & E' & Hb'' & HG'').
        rewrite E'. cbn [bind]. exists rd''. auto.
  Qed.

  Lemma GInv_SInv s g l : GInv s g l -> SInv s l.
  Proof.
    destruct g as [|b rest loc|]; cbn [GInv].
    - auto.
    - intros (c & -> & Hr & Hin & Hpart & Hloc & Hl1 & Hrest & Hl).
      exists c. split; auto. split; auto. right. rewrite Hpart. split; auto. split; [lia|].
      rewrite Hl, Hrest, Hloc. do 3 f_equal. lia.
    - intros (-> & c & -> & Hg). exists c. auto.
  Qed.

  Lemma session_spec s l k : SInv s l ->
    exists s', session hash loads contents blobs s k = Ok (firstn k l, s') /\ SInv s' (skipn k l).
  Proof.
    intros H. unfold session.
    destruct (read_n_spec k (mkReader blobs s NotStarted) l eq_refl H) as (rd' & E & _ & HG).
    rewrite E. cbn [bind]. exists (rd_cursor rd'). split; auto. eapply GInv_SInv; eauto.
  Qed.

  Lemma SInv_start : SInv NoCursor (flat_map contents D).
  Proof.
    exists (mkCursor srt [] [] (-1)). split; auto. split; auto.
    left. cbn [location read_blobs]. split; [left; lia|]. unfold unread.
    rewrite filter_all; auto.
  Qed.

  (** *** keeping the cursor as a dictionary or as text *)
  Hypothesis HNoDup : NoDup blobs.
  Hypothesis Hhash : forall a b, In a ([] :: blobs) -> In b ([] :: blobs) -> hash a = hash b -> a = b.
  Hypothesis Hcodec : forall d, loads (dumps d) = Ok d.
  Hypothesis Hdumps : forall d, dumps d <> [].

  Lemma srt_NoDup : NoDup srt.
  Proof. apply isort_NoDup, HNoDup. Qed.

  Lemma find_unique b : In b srt -> filter (fun x => Z.eqb (hash x) (hash b)) srt = [b].
  Proof.
    intros Hb. pose proof srt_NoDup as Hn.
    assert (Hh : forall x, In x srt -> hash x = hash b -> x = b).
    { intros x Hx E. apply Hhash; auto; right; apply sorted_str_In; auto. }
    clear -Hb Hn Hh. induction srt as [|y l IH]; [contradiction|].
    inversion Hn as [|? ? Hy Hn']; subst. simpl in *. destruct Hb as [->|Hb].
    - rewrite Z.eqb_refl. f_equal. apply filter_nil. intros x Hx.
      destruct (Z.eqb_spec (hash x) (hash b)); auto. rewrite (Hh x) in Hx; auto. contradiction.
    - destruct (Z.eqb_spec (hash y) (hash b)) as [E|E]; [|auto].
      rewrite (Hh y) in Hy by auto. contradiction.
  Qed.

  (** a cursor dictionary written for the blobs [rd] (read), the blob name hash [h] and the
      location [loc] *)
  Lemma load_dict_any rd h loc :
    load_dict hash (mkCursor srt [] [] (-1))
      [($"map", CStr (cursor_map (mkCursor srt rd [] (-1)))); ($"partition", CInt h); ($"location", CInt loc)]
    = Ok (mkCursor srt (filter (fun b => str_mem b rd) srt)
            (match filter (fun b => Z.eqb (hash b) h) srt with [b] => b | _ => [] end) loc).
  Proof.
    unfold load_dict.
    match goal with |- context [dget str_eqb $"location" ?d] =>
      change (dget str_eqb $"location" d) with (Some (CInt loc));
      change (dget str_eqb $"map" d) with (Some (CStr (cursor_map (mkCursor srt rd [] (-1)))));
      change (dget str_eqb $"partition" d) with (Some (CInt h)) end.
    cbv beta iota. cbn [readable_blobs partition]. unfold cursor_map.
    rewrite from_hex_to_hex by apply tobytes_lt. cbn [bind].
    destruct (frombytes_tobytes (map (fun b => str_mem b rd) srt)) as (k & _ & E).
    cbn [read_blobs readable_blobs]. rewrite E, pick_map. cbn [bind]. reflexivity.
  Qed.

  Lemma unread_filtered rd : unread (filter (fun b => str_mem b rd) srt) = unread rd.
  Proof.
    apply unread_ext. intros b Hb. rewrite filter_In, str_mem_In.
    unfold srt. rewrite sorted_str_In. tauto.
  Qed.

  Lemma unread_filtered_app rd b : unread (filter (fun b => str_mem b rd) srt ++ [b]) = unread (rd ++ [b]).
  Proof.
    apply unread_ext. intros x Hx. rewrite !in_app_iff, filter_In, str_mem_In.
    unfold srt. rewrite sorted_str_In. tauto.
  Qed.

  Lemma load_dict_get c l : Good c l ->
    exists c', load_dict hash (mkCursor srt [] [] (-1)) (cursor_get hash c) = Ok c' /\ Good c' l.
  Proof.
    intros (Hr & Hcase).
    assert (E : cursor_get hash c =
      [($"map", CStr (cursor_map (mkCursor srt (read_blobs c) [] (-1))));
       ($"partition", CInt (hash (partition c))); ($"location", CInt (location c))]).
    { unfold cursor_get, cursor_map. cbn [read_blobs readable_blobs]. rewrite Hr. reflexivity. }
    rewrite E, load_dict_any. eexists. split; [reflexivity|]. split; auto.
    cbn [location partition read_blobs].
    destruct Hcase as [[Hloc Hl]|(Hin & Hloc & Hl)].
    - left. rewrite unread_filtered. split; auto.
      destruct Hloc as [Hloc|Hloc]; [left; auto|right]. rewrite Hloc.
      rewrite filter_nil; auto. intros b Hb. apply Z.eqb_neq. intros Eh.
      assert (b = []).
      { apply Hhash; auto; [right; apply sorted_str_In; auto|left; auto]. }
      subst b. apply Hnonempty. apply sorted_str_In. auto.
    - right. rewrite find_unique by (apply sorted_str_In; auto).
      rewrite unread_filtered_app. auto.
  Qed.

  Lemma keep_SInv t s l : SInv s l -> SInv (keep hash dumps t s) l.
  Proof.
    intros H. destruct s as [|s|d|c]; auto. destruct H as (c0 & E & HG).
    simpl in E. injection E as <-. destruct t; cbn [keep].
    - exists c. auto.
    - unfold SInv. cbn [new_cursor]. change (cursor_get hash c) with
        (($"map", CStr (cursor_map c)) :: tl (cursor_get hash c)). cbv iota.
      change (($"map", CStr (cursor_map c)) :: tl (cursor_get hash c)) with (cursor_get hash c).
      apply load_dict_get; auto.
    - unfold SInv. cbn [new_cursor]. unfold cursor_repr.
      pose proof (Hdumps (cursor_get hash c)) as Hn.
      destruct (dumps (cursor_get hash c)) as [|x t] eqn:Et; [congruence|].
      rewrite <- Et, Hcodec. cbn [bind]. apply load_dict_get; auto.
  Qed.

  Lemma firstn_plus {A} i j (l : list A) : firstn (i + j) l = firstn i l ++ firstn j (skipn i l).
  Proof.
    revert l. induction i as [|i IH]; intros [|x l]; simpl; auto.
    - rewrite firstn_nil. reflexivity.
    - f_equal. apply IH.
  Qed.

  Lemma sessions_spec plan : forall s l, SInv s l ->
    exists s', sessions hash dumps loads contents blobs s plan
               = Ok (firstn (list_sum (map fst plan)) l, s').
  Proof.
    induction plan as [|[k t] plan IH]; intros s l H; cbn [sessions].
    - eexists. reflexivity.
    - destruct (session_spec s l k H) as (s1 & E & H1). rewrite E. cbn [bind].
      destruct (IH _ _ (keep_SInv t _ _ H1)) as (s2 & E2). rewrite E2. cbn [bind].
      exists s2. do 2 f_equal. simpl. symmetry. apply firstn_plus.
  Qed.

  (** *** any dictionary *)
  Lemma ascending_unread rd blobs' :
    (forall b, In b blobs' <-> In b blobs /\ ~ In b rd) -> ascending_names blobs' (unread rd).
  Proof.
    intros H. split.
    - apply strongly_sorted_filter. apply strictly_sorted; [apply D_NoDup|].
      apply dedup_sorted, sorted_str_sorted.
    - intros b. rewrite unread_In, H. tauto.
  Qed.

  Lemma any_dict rd b loc : In b blobs -> (0 <= loc)%Z ->
    SInv (AsDict [($"map", CStr (cursor_map (mkCursor srt rd [] (-1))));
                  ($"partition", CInt (hash b)); ($"location", CInt loc)])
         (skipn (Z.to_nat (loc + 1)) (contents b) ++ flat_map contents (unread (rd ++ [b]))).
  Proof.
    intros Hb Hl. unfold SInv. cbn [new_cursor]. fold srt. rewrite load_dict_any.
    eexists. split; [reflexivity|]. split; auto. right. cbn [partition location read_blobs].
    rewrite find_unique by (apply sorted_str_In; auto).
    rewrite unread_filtered_app. auto.
  Qed.

  Lemma any_dict_many rd h loc : length (filter (fun b => Z.eqb (hash b) h) srt) <> 1%nat ->
    SInv (AsDict [($"map", CStr (cursor_map (mkCursor srt rd [] (-1))));
                  ($"partition", CInt h); ($"location", CInt loc)])
         (flat_map contents (unread rd)).
  Proof.
    intros Hb. unfold SInv. cbn [new_cursor]. fold srt. rewrite load_dict_any.
    eexists. split; [reflexivity|]. split; auto. left. cbn [partition location read_blobs].
    destruct (filter (fun b => Z.eqb (hash b) h) srt) as [|a [|a' l]]; [|exfalso; apply Hb; reflexivity|];
      rewrite unread_filtered; auto.
  Qed.
  Lemma any_dict_gone rd h loc : (forall b, In b blobs -> hash b <> h) ->
    SInv (AsDict [($"map", CStr (cursor_map (mkCursor srt rd [] (-1))));
                  ($"partition", CInt h); ($"location", CInt loc)])
         (flat_map contents (unread rd)).
  Proof.
    intros Hb. unfold SInv. cbn [new_cursor]. fold srt. rewrite load_dict_any.
    eexists. split; [reflexivity|]. split; auto. left. cbn [partition location read_blobs].
    rewrite filter_nil.
    - rewrite unread_filtered. auto.
    - intros x Hx. apply Z.eqb_neq. apply Hb. apply sorted_str_In. auto.
  Qed.
End Loop.

(** ** packaged results *)
Section Results.
  Context {R : Type}.
  Variables (hash : str -> Z) (dumps : cdict -> str) (loads : str -> result cdict).
  Variables (contents : str -> list R) (blobs : list str).

  Lemma full_read_flat out : full_read contents blobs out ->
    out = flat_map contents (dedup str_eqb (sorted_str blobs)).
  Proof. intros (names & H & ->). rewrite (ascending_dedup _ _ H). reflexivity. Qed.

  Lemma read_once : ~ In [] blobs -> forall out k, full_read contents blobs out ->
    exists s, session hash loads contents blobs NoCursor k = Ok (firstn k out, s).
  Proof.
    intros Hn out k H. apply full_read_flat in H. subst out.
    destruct (session_spec hash loads contents blobs Hn NoCursor _ k (SInv_start hash loads contents blobs))
      as (s & E & _). eauto.
  Qed.

  Lemma full_read_exists : exists out, full_read contents blobs out.
  Proof. eexists. eexists. split; [apply ascending_exists|reflexivity]. Qed.

  Lemma full_read_unique o1 o2 : full_read contents blobs o1 -> full_read contents blobs o2 -> o1 = o2.
  Proof. intros H1 H2. rewrite (full_read_flat _ H1), (full_read_flat _ H2). reflexivity. Qed.

  Hypothesis Hnonempty : ~ In [] blobs.
  Hypothesis HNoDup : NoDup blobs.
  Hypothesis Hhash : forall a b, In a ([] :: blobs) -> In b ([] :: blobs) -> hash a = hash b -> a = b.

  Lemma dict_meaning rd b loc out k : In b blobs -> (0 <= loc)%Z ->
    full_read contents (filter (fun x => negb (str_mem x (rd ++ [b]))) blobs) out ->
    exists s, session hash loads contents blobs
      (AsDict [($"map", CStr (cursor_map (mkCursor (sorted_str blobs) rd [] (-1))));
               ($"partition", CInt (hash b)); ($"location", CInt loc)]) k
      = Ok (firstn k (skipn (Z.to_nat (loc + 1)) (contents b) ++ out), s).
  Proof.
    intros Hb Hl (names & Hn & ->).
    destruct (session_spec hash loads contents blobs Hnonempty _ _ k
      (any_dict hash loads contents blobs HNoDup Hhash rd b loc Hb Hl)) as (s & E & _).
    exists s. rewrite E. do 5 f_equal. eapply ascending_unique; eauto.
    apply (ascending_unread (R:=R)); auto. intros x. rewrite filter_In, negb_true_iff, str_mem_false. tauto.
  Qed.

  Lemma dict_gone rd h loc out k : (forall b, In b blobs -> hash b <> h) ->
    full_read contents (filter (fun x => negb (str_mem x rd)) blobs) out ->
    exists s, session hash loads contents blobs
      (AsDict [($"map", CStr (cursor_map (mkCursor (sorted_str blobs) rd [] (-1))));
               ($"partition", CInt h); ($"location", CInt loc)]) k
      = Ok (firstn k out, s).
  Proof.
    intros Hb (names & Hn & ->).
    destruct (session_spec hash loads contents blobs Hnonempty _ _ k
      (any_dict_gone hash loads contents blobs rd h loc Hb)) as (s & E & _).
    exists s. rewrite E. do 4 f_equal. eapply ascending_unique; eauto.
    apply (ascending_unread (R:=R)); auto. intros x. rewrite filter_In, negb_true_iff, str_mem_false. tauto.
  Qed.

  Lemma dict_repeated rd b l1 l2 l3 loc out k : blobs = l1 ++ b :: l2 ++ b :: l3 ->
    full_read contents (filter (fun x => negb (str_mem x rd)) blobs) out ->
    exists s, session hash loads contents blobs
      (AsDict [($"map", CStr (cursor_map (mkCursor (sorted_str blobs) rd [] (-1))));
               ($"partition", CInt (hash b)); ($"location", CInt loc)]) k
      = Ok (firstn k out, s).
  Proof.
    clear HNoDup Hhash. intros Hb (names & Hn & ->).
    assert (L : length (filter (fun x => Z.eqb (hash x) (hash b)) (sorted_str blobs)) <> 1%nat).
    { assert (P : Permutation (filter (fun x => Z.eqb (hash x) (hash b)) (sorted_str blobs))
                              (filter (fun x => Z.eqb (hash x) (hash b)) blobs)).
      { generalize (isort_perm str_leb blobs : Permutation (sorted_str blobs) blobs). generalize (sorted_str blobs). clear.
        intros l P. induction P as [|x l l' P IH|x y l|l l' l'' P IH P' IH']; cbn [filter]; auto.
        - destruct (hash x =? hash b)%Z; auto.
        - destruct (hash x =? hash b)%Z, (hash y =? hash b)%Z; auto. apply perm_swap.
        - eapply perm_trans; eauto. }
      rewrite (Permutation_length P), Hb, !filter_app. cbn [filter]. rewrite Z.eqb_refl, filter_app. cbn [filter]. rewrite Z.eqb_refl.
      rewrite app_length. cbn [length]. rewrite app_length. cbn [length]. lia. }
    destruct (session_spec hash loads contents blobs Hnonempty _ _ k
      (any_dict_many hash loads contents blobs rd (hash b) loc L)) as (s & E & _).
    exists s. rewrite E. do 4 f_equal. eapply ascending_unique; eauto.
    apply (ascending_unread (R:=R)); auto. intros x. rewrite filter_In, negb_true_iff, str_mem_false. tauto.
  Qed.

  Hypothesis Hcodec : forall d, loads (dumps d) = Ok d.
  Hypothesis Hdumps : forall d, dumps d <> [].

  Lemma resume out k t : full_read contents blobs out ->
    exists s, session hash loads contents blobs NoCursor k = Ok (firstn k out, s) /\
      forall j, exists s',
        session hash loads contents blobs (keep hash dumps t s) j = Ok (firstn j (skipn k out), s').
  Proof.
    intros H. apply full_read_flat in H. subst out.
    destruct (session_spec hash loads contents blobs Hnonempty NoCursor _ k
                (SInv_start hash loads contents blobs)) as (s & E & HS).
    exists s. split; auto. intros j.
    destruct (session_spec hash loads contents blobs Hnonempty _ _ j
                (keep_SInv hash dumps loads contents blobs Hnonempty HNoDup Hhash Hcodec Hdumps t _ _ HS))
      as (s' & E' & _). eauto.
  Qed.

  Lemma many_sessions out plan : full_read contents blobs out ->
    exists s, sessions hash dumps loads contents blobs NoCursor plan
              = Ok (firstn (list_sum (map fst plan)) out, s).
  Proof.
    intros H. apply full_read_flat in H. subst out.
    apply sessions_spec; auto. apply SInv_start.
  Qed.
End Results.

Lemma map_roundtrip (hash : str -> Z) (c : cursor) :
  exists c', load_dict hash (mkCursor (readable_blobs c) [] [] (-1)) (cursor_get hash c) = Ok c' /\
    readable_blobs c' = readable_blobs c /\ location c' = location c /\
    read_blobs c' = filter (fun b => str_mem b (read_blobs c)) (readable_blobs c).
Proof.
  unfold load_dict.
  change (dget str_eqb $"location" (cursor_get hash c)) with (Some (CInt (location c))).
  change (dget str_eqb $"map" (cursor_get hash c)) with (Some (CStr (cursor_map c))).
  change (dget str_eqb $"partition" (cursor_get hash c)) with (Some (CInt (hash (partition c)))).
  cbv beta iota. cbn [readable_blobs partition]. unfold cursor_map.
  rewrite from_hex_to_hex by apply tobytes_lt. cbn [bind].
  destruct (frombytes_tobytes (map (fun b => str_mem b (read_blobs c)) (readable_blobs c))) as (k & _ & E).
  rewrite E, pick_map. cbn [bind]. eexists. split; [reflexivity|]. auto.
Qed.

Lemma map_roundtrip_In (hash : str -> Z) (c : cursor) :
  exists c', load_dict hash (mkCursor (readable_blobs c) [] [] (-1)) (cursor_get hash c) = Ok c' /\
    readable_blobs c' = readable_blobs c /\ location c' = location c /\
    (forall b, In b (read_blobs c') <-> In b (readable_blobs c) /\ In b (read_blobs c)).
Proof.
  destruct (map_roundtrip hash c) as (c' & H1 & H2 & H3 & H4). exists c'.
  repeat split; auto; rewrite H4 in *; rewrite filter_In, str_mem_In in *; tauto.
Qed.

Lemma missing_field (hash : str -> Z) (loads : str -> result cdict) {R} (contents : str -> list R)
  blobs d k : d <> [] ->
  (dget str_eqb $"location" d = None \/ dget str_eqb $"map" d = None \/ dget str_eqb $"partition" d = None) ->
  session hash loads contents blobs (AsDict d) (S k) = Raise InvalidCursor.
Proof.
  intros Hd H. unfold session. cbn [read_n]. unfold py_next. cbn [rd_gen rd_blobs rd_cursor].
  unfold new_cursor. destruct d as [|e d]; [congruence|]. unfold load_dict.
  destruct H as [-> | [-> | ->]]; cbn [bind]; auto.
  - destruct (dget str_eqb $"location" (e :: d)); auto.
  - destruct (dget str_eqb $"location" (e :: d)); destruct (dget str_eqb $"map" (e :: d)); auto.
Qed.
