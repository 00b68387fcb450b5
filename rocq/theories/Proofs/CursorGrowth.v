(** Cursors resumed over more blobs than they were saved over. *)
From Coq Require Import Lia Sorted Permutation PeanoNat.
From Verif.Base Require Import Py PyFacts.
From Verif.Model Require Import Cursor.
From Verif.Spec Require Import Cursor.
From Verif.Proofs Require Import Cursor.

(** bits for [n] blobs are kept in full bytes *)
Lemma frombytes_length l : length (frombytes l) = (8 * length l)%nat.
Proof. induction l as [|x l IH]; [reflexivity|]. unfold frombytes in *. cbn [flat_map]. rewrite app_length, IH. change (length (bits_of_byte x)) with 8%nat. cbn [length]. lia. Qed.
Lemma bits_kept l : exists k, frombytes (tobytes l) = l ++ repeat false k /\ (length l + k = 8 * ((length l + 7) / 8))%nat.
Proof.
  destruct (frombytes_tobytes l) as (k & L & E). exists k. split; [exact E|].
  pose proof (frombytes_length (tobytes l)) as Q. rewrite E, app_length, repeat_length in Q.
  assert ((length l + 7) / 8 = length (tobytes l))%nat; [|lia].
  symmetry. apply (Nat.div_unique _ 8 _ (7 - k)); lia.
Qed.
Lemma pick_more (f : str -> bool) l more k : (length more <= k)%nat -> pick (l ++ more) (map f l ++ repeat false k) = Ok (filter f l).
Proof.
  intros L. induction l as [|b l IH]; cbn [app map pick filter].
  - revert k L. induction more as [|x more IH]; intros k L; [reflexivity|]. destruct k as [|k]; [cbn in L; lia|].
    cbn [repeat pick]. apply IH. cbn in L. lia.
  - destruct (f b); rewrite IH; reflexivity.
Qed.
Lemma pick_short l : forall bits, (length bits < length l)%nat -> pick l bits = Raise IndexError.
Proof.
  induction l as [|b l IH]; intros bits L; [cbn in L; lia|]. destruct bits as [|[] bits]; [reflexivity|..]; cbn in L |- *; rewrite IH by lia; reflexivity.
Qed.

Lemma sorted_app (P : str -> str -> Prop) l1 l2 : StronglySorted P l1 -> StronglySorted P l2 -> (forall a b, In a l1 -> In b l2 -> P a b) -> StronglySorted P (l1 ++ l2).
Proof.
  induction 1 as [|x l S IH F]; intros S2 H; [exact S2|]. cbn [app]. constructor.
  - apply IH; auto. intros a b Ha. apply H. now right.
  - apply Forall_app. split; auto. apply Forall_forall. intros b Hb. apply H; auto. now left.
Qed.

Lemma parts_nodup (a b : list str) : NoDup (a ++ b) -> NoDup a /\ NoDup b.
Proof.
  induction a as [|x a IH]; intros H; [split; [constructor|exact H]|]. cbn [app] in H. inversion H as [|? ? N ND]; subst.
  destruct (IH ND). split; auto. constructor; auto. intros Q. apply N, in_app_iff. auto.
Qed.

Section Growth.
  Context {R : Type}.
  Variables (hash : str -> Z) (dumps : cdict -> str) (loads : str -> result cdict).
  Variables (contents : str -> list R) (blobs : list str).

  Lemma load_length c all : length all = length (sorted_str all) /\
    (8 * ((length (readable_blobs c) + 7) / 8) < length all)%nat ->
    load_dict hash (mkCursor (sorted_str all) [] [] (-1)) (cursor_get hash c) = Raise IndexError.
  Proof.
    intros [E L]. unfold load_dict.
    change (dget str_eqb $"location" (cursor_get hash c)) with (Some (CInt (location c))).
    change (dget str_eqb $"map" (cursor_get hash c)) with (Some (CStr (cursor_map c))).
    change (dget str_eqb $"partition" (cursor_get hash c)) with (Some (CInt (hash (partition c)))).
    cbv beta iota. cbn [readable_blobs partition]. unfold cursor_map.
    rewrite from_hex_to_hex by apply tobytes_lt. cbn [bind].
    destruct (bits_kept (map (fun b => str_mem b (read_blobs c)) (readable_blobs c))) as (k & -> & K). rewrite map_length in K.
    rewrite pick_short; [reflexivity|]. rewrite app_length, map_length, repeat_length, <- E. lia.
  Qed.

  (** the cursor of a reader which was started *)
  Definition plain_saved (s : saved) : Prop := s = NoCursor \/ exists c, s = AsObject c.
  Lemma next_plain rd x rd' : plain_saved (rd_cursor rd) -> py_next hash loads contents rd = Ok (x, rd') -> plain_saved (rd_cursor rd').
  Proof.
    intros H. unfold py_next. destruct (rd_gen rd).
    - destruct (new_cursor _ _ _ _) as [c|]; [cbn [bind]|discriminate]. destruct (next_blob c None) as [[nb c']|]; [cbn [bind]|discriminate].
      destruct nb as [[|y b]|].
      + cbn [bind]. intros E. injection E as _ <-. right. cbn. eauto.
      + destruct (skip_to_cursor _ _) as [it loc]. destruct (advance _ _ _ _ _ _) as [[[r cc] g]|]; [|discriminate]. cbn [bind]. intros E. injection E as _ <-. right. cbn. eauto.
      + cbn [bind]. intros E. injection E as _ <-. right. cbn. eauto.
    - destruct (rd_cursor rd); try discriminate. destruct (advance _ _ _ _ _ _) as [[[r cc] g]|]; [|discriminate]. cbn [bind]. intros E. injection E as _ <-. right. cbn. eauto.
    - intros E. injection E as _ <-. exact H.
  Qed.
  Lemma read_plain k : forall rd xs rd', plain_saved (rd_cursor rd) -> read_n hash loads contents k rd = Ok (xs, rd') -> plain_saved (rd_cursor rd').
  Proof.
    induction k as [|k IH]; intros rd xs rd' H; cbn [read_n]; [intros E; injection E as _ <-; auto|].
    destruct (py_next hash loads contents rd) as [[x r]|] eqn:E; [cbn [bind]|discriminate]. pose proof (next_plain _ _ _ H E) as H'.
    destruct x as [x|]; [|intros Q; injection Q as _ <-; auto].
    destruct (read_n hash loads contents k r) as [[ys r']|] eqn:E'; [cbn [bind]|discriminate]. intros Q. injection Q as _ <-. eapply IH; eauto.
  Qed.
  Lemma session_plain bl s k xs s' : plain_saved s -> session hash loads contents bl s k = Ok (xs, s') -> plain_saved s'.
  Proof.
    intros H. unfold session. destruct (read_n _ _ _ _ _) as [[ys rd]|] eqn:E; [cbn [bind]|discriminate]. intros Q. injection Q as _ <-. eapply read_plain; [|eauto]. exact H.
  Qed.

  Hypothesis Hcodec : forall d, loads (dumps d) = Ok d.
  Hypothesis Hdumps : forall d, dumps d <> [].

  Lemma kept_loaded t c bl : t <> KeepObject ->
    new_cursor hash loads bl (keep hash dumps t (AsObject c)) = load_dict hash (mkCursor (sorted_str bl) [] [] (-1)) (cursor_get hash c).
  Proof.
    intros T. destruct t; [congruence|reflexivity|]. cbn [keep new_cursor]. unfold cursor_repr.
    pose proof (Hdumps (cursor_get hash c)) as Hn. destruct (dumps (cursor_get hash c)) as [|x t] eqn:Et; [congruence|].
    rewrite <- Et, Hcodec. reflexivity.
  Qed.

  Lemma sorted_length (l : list str) : length (sorted_str l) = length l.
  Proof. apply Permutation_length, isort_perm. Qed.

  Section More.
    Context (news : list str).
    Notation all := (blobs ++ news).
    Hypothesis Hne : ~ In [] all.
    Hypothesis HND : NoDup all.
    Hypothesis Hhash : forall a b, In a ([] :: all) -> In b ([] :: all) -> hash a = hash b -> a = b.
    Hypothesis Later : forall old new, In old blobs -> In new news -> str_ltb old new = true.
    Hypothesis Fits : (length all <= 8 * ((length blobs + 7) / 8))%nat.

    Lemma sorted_all : sorted_str all = sorted_str blobs ++ sorted_str news.
    Proof.
      apply (sorted_perm_unique (fun a b => str_leb a b = true) str_leb_antisym).
      - apply sorted_str_sorted.
      - apply sorted_app; try apply sorted_str_sorted. intros a b Ha Hb. rewrite sorted_str_In in Ha, Hb.
        pose proof (Later a b Ha Hb) as L. apply str_ltb_leb in L. tauto.
      - eapply perm_trans; [apply isort_perm|]. apply Permutation_app; symmetry; apply isort_perm.
    Qed.
    Lemma old_nodup : NoDup blobs. Proof. apply (parts_nodup blobs news HND). Qed.
    Lemma new_nodup : NoDup news. Proof. apply (parts_nodup blobs news HND). Qed.
    Lemma apart b : In b blobs -> In b news -> False.
    Proof. intros H1 H2. pose proof (Later b b H1 H2) as L. apply str_ltb_leb in L as [_ L]. congruence. Qed.
    Lemma unread_all r : (forall b, In b news -> ~ In b r) -> unread all r = unread blobs r ++ sorted_str news.
    Proof.
      intros H. unfold unread.
      rewrite !(dedup_NoDup_id str_eqb str_eqb_eq) by (apply isort_NoDup; auto using old_nodup).
      rewrite sorted_all, filter_app. f_equal. apply filter_all. intros b Hb. rewrite sorted_str_In in Hb.
      apply negb_true_iff, str_mem_false. auto.
    Qed.

    Lemma load_more c l : Good contents blobs c l ->
      exists c', load_dict hash (mkCursor (sorted_str all) [] [] (-1)) (cursor_get hash c) = Ok c' /\
                 Good contents all c' (l ++ flat_map contents (sorted_str news)).
    Proof.
      intros (Hr & Hcase). unfold load_dict.
      change (dget str_eqb $"location" (cursor_get hash c)) with (Some (CInt (location c))).
      change (dget str_eqb $"map" (cursor_get hash c)) with (Some (CStr (cursor_map c))).
      change (dget str_eqb $"partition" (cursor_get hash c)) with (Some (CInt (hash (partition c)))).
      cbv beta iota. cbn [readable_blobs partition]. unfold cursor_map.
      rewrite from_hex_to_hex by apply tobytes_lt. cbn [bind]. rewrite Hr.
      destruct (bits_kept (map (fun b => str_mem b (read_blobs c)) (sorted_str blobs))) as (k & -> & K).
      rewrite map_length, sorted_length in K. rewrite app_length in Fits.
      rewrite sorted_all, pick_more by (rewrite sorted_length; lia). cbn [bind]. rewrite <- sorted_all.
      eexists. split; [reflexivity|]. split; [reflexivity|]. cbn [location partition read_blobs].
      assert (U : forall r, (forall b, In b r -> In b blobs) -> unread all (filter (fun b => str_mem b (read_blobs c)) (sorted_str blobs) ++ r)
                  = unread blobs (read_blobs c ++ r) ++ sorted_str news).
      { intros r Hrr. rewrite unread_all.
        - f_equal. apply unread_ext. intros x Hx. rewrite !in_app_iff, filter_In, str_mem_In, sorted_str_In. tauto.
        - intros b Hb Q. apply in_app_iff in Q as [Q|Q]; [apply filter_In in Q as [Q _]; rewrite sorted_str_In in Q|apply Hrr in Q]; eapply apart; eauto. }
      destruct Hcase as [[Hloc Hl]|(Hin & Hloc & Hl)].
      - left. pose proof (U [] (fun b H => match H with end)) as U0. rewrite !app_nil_r in U0. rewrite U0, flat_map_app, <- Hl. split; [|reflexivity].
        destruct Hloc as [Hloc|Hloc]; [left; auto|right]. rewrite Hloc. rewrite filter_nil; auto.
        intros b Hb. apply Z.eqb_neq. intros Eh. assert (b = []) by (apply Hhash; auto; [right; apply sorted_str_In; auto|left; auto]).
        subst b. apply Hne, sorted_str_In. auto.
      - right. assert (Ha : In (partition c) all) by (apply in_app_iff; auto).
        rewrite (find_unique hash all HND Hhash) by (apply sorted_str_In; auto).
        split; [exact Ha|]. split; [exact Hloc|]. rewrite U by (intros b [<-|[]]; auto). rewrite Hl, flat_map_app, app_assoc. reflexivity.
    Qed.

    Lemma resume_more out outN k t : full_read contents blobs out -> full_read contents news outN -> t <> KeepObject ->
      exists s, session hash loads contents blobs NoCursor k = Ok (firstn k out, s) /\
        forall j, exists s', session hash loads contents all (keep hash dumps t s) j = Ok (firstn j (skipn k out ++ outN), s').
    Proof.
      intros H HN T. apply full_read_flat in H, HN. subst out outN.
      assert (Hne' : ~ In [] blobs) by (intros Q; apply Hne, in_app_iff; auto).
      destruct (session_spec hash loads contents blobs Hne' NoCursor _ k (SInv_start hash loads contents blobs)) as (s & E & HS).
      exists s. split; auto. intros j.
      rewrite (dedup_NoDup_id str_eqb str_eqb_eq (sorted_str news)) by apply isort_NoDup, new_nodup.
      assert (G : SInv hash loads contents all (keep hash dumps t s) (skipn k (flat_map contents (dedup str_eqb (sorted_str blobs))) ++ flat_map contents (sorted_str news))).
      { pose proof (session_plain _ _ _ _ _ (or_introl eq_refl) E) as [->|[c ->]].
        - assert (K : keep hash dumps t NoCursor = NoCursor) by reflexivity. rewrite K.
          destruct HS as (c & C & Gd). cbn in C. injection C as <-. exists (mkCursor (sorted_str all) [] [] (-1)). split; [reflexivity|].
          split; [reflexivity|]. left. split; [left; cbn; lia|]. cbn [read_blobs]. destruct Gd as (_ & [[_ Q]|(_ & Q & _)]); [|cbn in Q; lia].
          cbn [read_blobs] in Q. rewrite Q, unread_all by (intros ? ? []). now rewrite flat_map_app.
        - destruct HS as (c0 & C & Gd). cbn in C. injection C as <-. destruct (load_more c _ Gd) as (c' & L & Gd').
          exists c'. split; [|exact Gd']. rewrite kept_loaded; auto. }
      destruct (session_spec hash loads contents all Hne _ _ j G) as (s' & E' & _). eauto.
    Qed.
  End More.

  (** a reader which was started keeps the blobs it was started with *)
  Lemma session_cursor k out s : ~ In [] blobs -> full_read contents blobs out ->
    session hash loads contents blobs NoCursor (S k) = Ok (firstn (S k) out, s) -> exists c, s = AsObject c /\ readable_blobs c = sorted_str blobs.
  Proof.
    intros Hn H E. apply full_read_flat in H. subst out.
    destruct (session_spec hash loads contents blobs Hn NoCursor _ (S k) (SInv_start hash loads contents blobs)) as (s' & E' & c & C & Rb & _).
    rewrite E in E'. injection E' as <-. exists c. split; [|exact Rb].
    pose proof (session_plain _ _ _ _ _ (or_introl eq_refl) E) as [->|[c' ->]]; [|cbn in C; congruence].
    exfalso. clear - E. unfold session in E. cbn [read_n] in E. destruct (py_next hash loads contents _) as [[x rd]|] eqn:P; [cbn [bind] in E|discriminate].
    assert (A : exists c, rd_cursor rd = AsObject c).
    { unfold py_next in P. cbn [rd_gen rd_blobs rd_cursor new_cursor bind] in P. destruct (next_blob _ None) as [[nb c']|]; [cbn [bind] in P|discriminate].
      destruct nb as [[|y b]|]; [cbn [bind] in P; injection P as _ <-; cbn; eauto| |cbn [bind] in P; injection P as _ <-; cbn; eauto].
      destruct (skip_to_cursor _ _) as [it loc]. destruct (advance _ _ _ _ _ _) as [[[r cc] g]|]; [|discriminate]. cbn [bind] in P. injection P as _ <-. cbn. eauto. }
    assert (Keeps : forall k rd xs rd', (exists c, rd_cursor rd = AsObject c) -> read_n hash loads contents k rd = Ok (xs, rd') -> exists c, rd_cursor rd' = AsObject c).
    { clear. induction k as [|k IH]; intros rd xs rd' H; cbn [read_n]; [intros E; injection E as _ <-; auto|].
      destruct (py_next hash loads contents rd) as [[x r]|] eqn:E; [cbn [bind]|discriminate].
      assert (H' : exists c, rd_cursor r = AsObject c).
      { destruct H as [c Hc]. unfold py_next in E. destruct (rd_gen rd).
        - destruct (new_cursor _ _ _ _) as [c1|]; [cbn [bind] in E|discriminate]. destruct (next_blob c1 None) as [[nb c']|]; [cbn [bind] in E|discriminate].
          destruct nb as [[|y b]|]; [cbn [bind] in E; injection E as _ <-; cbn; eauto| |cbn [bind] in E; injection E as _ <-; cbn; eauto].
          destruct (skip_to_cursor _ _) as [it loc]. destruct (advance _ _ _ _ _ _) as [[[q cc] g]|]; [|discriminate]. cbn [bind] in E. injection E as _ <-. cbn. eauto.
        - rewrite Hc in E. destruct (advance _ _ _ _ _ _) as [[[q cc] g]|]; [|discriminate]. cbn [bind] in E. injection E as _ <-. cbn. eauto.
        - injection E as _ <-. eauto. }
      destruct x as [x|]; [|intros Q; injection Q as _ <-; auto].
      destruct (read_n hash loads contents k r) as [[ys r']|] eqn:E'; [cbn [bind]|discriminate]. intros Q. injection Q as _ <-. eapply IH; eauto. }
    destruct x as [x|].
    - destruct (read_n hash loads contents k rd) as [[ys r']|] eqn:Q; [cbn [bind] in E|discriminate]. injection E as _ E.
      destruct (Keeps _ _ _ _ A Q) as [c Hc]. congruence.
    - injection E as _ E. destruct A as [c Hc]. congruence.
  Qed.

  Lemma too_many out k t all : ~ In [] blobs -> full_read contents blobs out -> t <> KeepObject ->
    (8 * ((length blobs + 7) / 8) < length all)%nat ->
    exists s, session hash loads contents blobs NoCursor (S k) = Ok (firstn (S k) out, s) /\
      forall j, session hash loads contents all (keep hash dumps t s) (S j) = Raise IndexError.
  Proof.
    intros Hn H T L. destruct (read_once hash loads contents blobs Hn out (S k) H) as (s & E). exists s. split; [exact E|]. intros j.
    destruct (session_cursor k out s Hn H E) as (c & -> & Rb).
    unfold session. cbn [read_n]. unfold py_next at 1. cbn [rd_gen rd_blobs rd_cursor]. rewrite kept_loaded by auto.
    rewrite load_length; [reflexivity|]. split; [symmetry; apply sorted_length|]. rewrite Rb, sorted_length. exact L.
  Qed.

  (** what a reader with a cursor object does, it does over the blobs of the cursor *)
  Lemma object_reads c bl1 bl2 k : let only (r : result (list R * saved)) := (let* (xs, s) := r in Ok (xs, s)) in
    only (session hash loads contents bl1 (AsObject c) k) = only (session hash loads contents bl2 (AsObject c) k).
  Proof.
    cbv zeta.
    assert (N : forall b1 b2 s g, (exists c, s = AsObject c) ->
      match py_next hash loads contents (mkReader b1 s g), py_next hash loads contents (mkReader b2 s g) with
      | Ok (x1, r1), Ok (x2, r2) => x1 = x2 /\ rd_cursor r1 = rd_cursor r2 /\ rd_gen r1 = rd_gen r2 /\ exists c, rd_cursor r1 = AsObject c
      | Raise e1, Raise e2 => e1 = e2 | _, _ => False end).
    { clear. intros b1 b2 s g [c ->]. unfold py_next. cbn [rd_gen rd_blobs rd_cursor new_cursor]. destruct g as [|b rest loc|].
      - cbn [bind]. destruct (next_blob c None) as [[nb c']|]; cbn [bind]; [|reflexivity].
        destruct nb as [[|y b]|]; [cbn; eauto 6| |cbn; eauto 6].
        destruct (skip_to_cursor _ _) as [it loc]. destruct (advance _ _ _ _ _ _) as [[[q cc] g]|]; cbn [bind]; [cbn; eauto 6|reflexivity].
      - destruct (advance _ _ _ _ _ _) as [[[q cc] g]|]; cbn [bind]; [cbn; eauto 6|reflexivity].
      - cbn. eauto 6. }
    assert (G : forall k b1 b2 s g, (exists c, s = AsObject c) ->
      match read_n hash loads contents k (mkReader b1 s g), read_n hash loads contents k (mkReader b2 s g) with
      | Ok (x1, r1), Ok (x2, r2) => x1 = x2 /\ rd_cursor r1 = rd_cursor r2
      | Raise e1, Raise e2 => e1 = e2 | _, _ => False end).
    { induction k0 as [|n IH]; intros b1 b2 s g H; cbn [read_n]; [auto|].
      pose proof (N b1 b2 s g H) as P. destruct (py_next hash loads contents (mkReader b1 s g)) as [[x1 [d1 s1 g1]]|], (py_next hash loads contents (mkReader b2 s g)) as [[x2 [d2 s2 g2]]|]; try contradiction; cbn [bind]; [|exact P].
      cbn [rd_cursor rd_gen] in P. destruct P as (-> & -> & -> & A). destruct x2 as [x|]; [|auto].
      pose proof (IH d1 d2 s2 g2 A) as Q. destruct (read_n _ _ _ n (mkReader d1 _ _)) as [[y1 r1]|], (read_n _ _ _ n (mkReader d2 _ _)) as [[y2 r2]|]; try contradiction; cbn [bind]; [|exact Q].
      destruct Q as [-> Q]. auto. }
    unfold session. pose proof (G k bl1 bl2 (AsObject c) NotStarted (ex_intro _ c eq_refl)) as P.
    destruct (read_n _ _ _ k (mkReader bl1 _ _)) as [[y1 r1]|], (read_n _ _ _ k (mkReader bl2 _ _)) as [[y2 r2]|]; try contradiction; cbn [bind]; [|congruence].
    destruct P as [-> ->]. reflexivity.
  Qed.
  Lemma object_session c bl1 bl2 k : session hash loads contents bl1 (AsObject c) k = session hash loads contents bl2 (AsObject c) k.
  Proof.
    pose proof (object_reads c bl1 bl2 k) as H. cbv zeta in H.
    destruct (session _ _ _ bl1 _ _) as [[x1 s1]|], (session _ _ _ bl2 _ _) as [[x2 s2]|]; cbn [bind] in H; congruence.
  Qed.
  Lemma object_more out k all : ~ In [] blobs -> full_read contents blobs out ->
    exists s, session hash loads contents blobs NoCursor (S k) = Ok (firstn (S k) out, s) /\
      forall j, exists s', session hash loads contents all (keep hash dumps KeepObject s) j = Ok (firstn j (skipn (S k) out), s').
  Proof.
    intros Hn H. pose proof (full_read_flat contents blobs out H) as F.
    destruct (session_spec hash loads contents blobs Hn NoCursor _ (S k) (SInv_start hash loads contents blobs)) as (s & E & HS).
    rewrite <- F in E, HS. exists s. split; [exact E|]. intros j. destruct (session_cursor k out s Hn H E) as (c & -> & _).
    cbn [keep]. rewrite (object_session c all blobs j).
    destruct (session_spec hash loads contents blobs Hn _ _ j HS) as (s' & E' & _). eauto.
  Qed.
End Growth.
