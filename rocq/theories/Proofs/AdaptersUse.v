(** Sequences of commits, the completion marker and what readers make of them. *)
From Verif.Base Require Import Py PyFacts.
From Verif.Model Require Import Paths Writers Adapters.
From Verif.Spec Require Import Paths Adapters.
From Verif.Proofs Require Import Paths Writers Adapters.

(** ** different times have different texts *)
Lemma hex_size n : (0 < n)%N -> exists k, (16 ^ N.of_nat k <= n < 16 ^ N.of_nat (S k))%N.
Proof.
  induction n as [n IH] using (well_founded_induction N.lt_wf_0). intros P.
  destruct (N.lt_ge_cases n 16) as [L|G].
  - exists 0%nat. change (16 ^ N.of_nat 0)%N with 1%N. change (16 ^ N.of_nat 1)%N with 16%N. lia.
  - destruct (IH (n / 16)%N) as (k & K1 & K2).
    + apply N.div_lt; lia.
    + apply N.div_str_pos. lia.
    + exists (S k). rewrite !Nat2N.inj_succ, !N.pow_succ_r' in *. pose proof (N.div_mod n 16). pose proof (N.mod_lt n 16).
      split; lia.
Qed.
Lemma hex_is_hexk n : exists k, (n < 16 ^ N.of_nat (S k))%N /\ hex n = hexk (S k) n.
Proof.
  destruct (N.eq_dec n 0) as [->|Hn].
  - exists 0%nat. split; reflexivity.
  - destruct (hex_size n) as (k & K); [lia|]. exists k. split; [apply K|]. apply hex_hexk. auto.
Qed.
Lemma hex_inj n m : hex n = hex m -> n = m.
Proof.
  destruct (hex_is_hexk n) as (k & Kn & En), (hex_is_hexk m) as (k' & Km & Em).
  intros E. rewrite En, Em in E.
  assert (k = k') by (apply (f_equal (@length ascii)) in E; rewrite !hexk_length in E; lia). subst k'.
  destruct (N.lt_total n m) as [L|[L|L]]; auto.
  - apply (hexk_lt (S k)) in L; auto. rewrite E, str_compare_refl in L. discriminate.
  - apply (hexk_lt (S k)) in L; auto. rewrite E, str_compare_refl in L. discriminate.
Qed.
Lemma blob_file_inj f ext node t t' : blob_file f ext node t = blob_file f ext node t' -> t = t'.
Proof.
  unfold blob_file. intros E. apply hex_inj.
  assert (H: forall n, ~ In "-"%char (hex n)) by (intros n H; apply hex_chars in H; vm_compute in H; discriminate).
  apply (sep_inj "-"%char) in E; auto. tauto.
Qed.

(** ** other blobs *)
Lemma components_pp p : (forall c, In c (snd (pp_parse p)) -> component c) ->
  components_of (pp_str (pp_parse p)) = components_of p.
Proof.
  intros C. change (components_of p) with (snd (pp_parse p)).
  assert (R: fst (pp_parse p) = [] \/ fst (pp_parse p) = $"/" \/ fst (pp_parse p) = $"//").
  { cbn [pp_parse fst]. unfold pp_root. destruct (startswith $"///" p); auto. destruct (startswith $"//" p); auto.
    destruct (startswith $"/" p); auto. }
  destruct (pp_parse p) as [r cs]. cbn [fst snd] in *.
  destruct R as [->|[->| ->]].
  - apply components_pp_str. auto.
  - change (pp_str ($"/", cs)) with ($"/" ++ join $"/" cs). pose proof (components_app_slash [] (join $"/" cs)) as Q. cbn [app] in Q. rewrite Q.
    rewrite components_join by auto. reflexivity.
  - change (pp_str ($"//", cs)) with ([] ++ $"/" ++ ([] ++ $"/" ++ join $"/" cs)).
    rewrite !components_app_slash, components_join by auto. reflexivity.
Qed.

Lemma relative_dec n : relative n \/ exists r, n = "/"%char :: r.
Proof.
  destruct n as [|c n]; [left; discriminate|]. destruct (Ascii.ascii_dec c "/"%char) as [->|H]; [right; eauto|].
  left. intros r E. congruence.
Qed.

Lemma slash_root r : pp_root ("/"%char :: r) = $"/" \/ pp_root ("/"%char :: r) = $"//".
Proof.
  unfold pp_root. destruct (startswith $"///" ("/"%char :: r)); auto. destruct (startswith $"//" ("/"%char :: r)); auto.
Qed.

Section Other.
  Variables (b : str) (fs : list str).
  Hypothesis F : folder (b :: fs).
  Let obj := join $"/" fs.
  Let base := join $"/" (b :: fs).

  Lemma read_other k n file v s : component file -> with_extension file ->
    components_of n <> components_of (base ++ $"/" ++ file) ->
    get_blob_bytes k n (put (place_in b fs k file) v s) = get_blob_bytes k n s.
  Proof.
    intros C X D.
    assert (O: forall kk, kk <> Disk -> get_blob_bytes kk n (put (b, obj ++ $"/" ++ file) v s) = get_blob_bytes kk n s).
    { intros kk Hk.
      assert (G: forall b' op st su, get_parts n = Ok (b', op, Some st, Some su) ->
                 (b', op ++ st ++ su) <> (b, obj ++ $"/" ++ file)).
      { intros b' op st su G E. injection E as -> E. apply D.
        destruct (relative_dec n) as [R|(r & ->)].
        - destruct (le_lt_dec 2 (length (components_of n))) as [L|L].
          + destruct (get_parts_rebuild n (or_introl (conj R L))) as (b2 & f2 & st2 & su2 & G2 & E2 & _).
            rewrite G in G2. injection G2 as <- <- <- <-. cbn [opt_text] in E2. rewrite <- E2, E.
            unfold base. rewrite (base_eq b fs F), <- !app_assoc. reflexivity.
          + exfalso. unfold get_parts in G. destruct n as [|c0 n0] eqn:En; [discriminate|]. rewrite <- En in *.
            assert (P: pp_parts (pp_parse n) = components_of n).
            { unfold pp_parts. cbn [pp_parse fst snd]. rewrite relative_root by auto. reflexivity. }
            rewrite P in G. destruct (components_of n) as [|c1 [|c2 l]]; try discriminate. cbn [length] in L. lia.
        - exfalso. unfold get_parts in G.
          assert (P: exists r' l, pp_parts (pp_parse ("/"%char :: r)) = ("/"%char :: r') :: l).
          { unfold pp_parts. cbn [pp_parse fst snd]. destruct (slash_root r) as [-> | ->]; do 2 eexists; reflexivity. }
          destruct P as (r' & l & P). rewrite P in G.
          assert (Hb: b = "/"%char :: r').
          { destruct l; [discriminate|]. destruct (pp_suffix _); [discriminate|]. injection G. intros. congruence. }
          destruct (b_comp b fs F) as (_ & _ & S). apply S. rewrite Hb. left. auto. }
      destruct kk; [congruence| |]; cbn [get_blob_bytes];
        destruct (get_parts n) as [[[[b' op] [st|]] [su|]]|e]; cbn [bind]; auto;
        rewrite lookup_put_other; auto. }
    destruct k; [|apply O; discriminate|apply O; discriminate].
    cbn [get_blob_bytes place_in]. rewrite lookup_put_other; auto.
    intros E. apply D. apply (f_equal snd) in E. change (pp_str (pp_parse n) = base ++ $"/" ++ file) in E.
    rewrite <- E, components_pp; [reflexivity|apply parse_components].
  Qed.

  Lemma proper_put k file v s : component file -> proper k s -> proper k (put (place_in b fs k file) v s).
  Proof.
    intros C (N & P). split; [apply put_nodup; auto|].
    destruct k; intros p w H; apply in_put in H; destruct H as [E|[_ H]].
    - injection E as -> _. cbn [place_in snd]. symmetry. apply (named_file b fs F). auto.
    - apply (P p w). auto.
    - injection E as -> _. apply (b_comp b fs F).
    - apply (P p w). auto.
    - injection E as -> _. apply (b_comp b fs F).
    - apply (P p w). auto.
  Qed.

  Lemma holds_put k file v s n : component file -> proper k s ->
    (exists data, holds k (put (place_in b fs k file) v s) n data) <->
    (n = base ++ $"/" ++ file \/ exists data, holds k s n data).
  Proof.
    intros C P.
    assert (E: base ++ $"/" ++ file = b ++ $"/" ++ obj ++ $"/" ++ file).
    { unfold base. rewrite (base_eq b fs F), <- !app_assoc. reflexivity. }
    assert (O: (exists data bucket key, component bucket /\ n = bucket ++ $"/" ++ key /\
                 In (bucket, key, data) (put (b, obj ++ $"/" ++ file) v s)) <->
               (n = base ++ $"/" ++ file \/ exists data bucket key, component bucket /\ n = bucket ++ $"/" ++ key /\
                 In (bucket, key, data) s)).
    { split.
      - intros (data & bucket & key & Cb & -> & H). apply in_put in H. destruct H as [X|[_ H]].
        + injection X as -> -> _. left. rewrite E. reflexivity.
        + right. eauto 6.
      - intros [->|(data & bucket & key & Cb & -> & H)].
        + exists v, b, (obj ++ $"/" ++ file). split; [apply (b_comp b fs F)|]. split; [exact E|]. apply in_put. auto.
        + destruct (place_eqb (bucket, key) (b, obj ++ $"/" ++ file)) eqn:Q.
          * apply place_eqb_spec in Q. injection Q as -> ->. exists v, b, (obj ++ $"/" ++ file).
            split; [auto|]. split; [auto|]. apply in_put. auto.
          * exists data, bucket, key. split; [auto|]. split; [auto|]. apply in_put. right. split; auto.
            cbn [fst]. intros X. rewrite X, place_eqb_refl in Q. discriminate. }
    destruct k; cbn [holds place_in]; auto. split.
    - intros (data & H). apply in_put in H. destruct H as [X|[_ H]]; [injection X as -> _; auto|eauto].
    - intros [->|(data & H)]; [exists v; apply in_put; auto|].
      destruct (str_eqb n (base ++ $"/" ++ file)) eqn:Q.
      + apply str_eqb_eq in Q. subst n. exists v. apply in_put. auto.
      + exists data. apply in_put. right. split; auto. cbn [fst]. intros X. injection X as ->.
        fold base in Q. rewrite str_eqb_refl in Q. discriminate.
  Qed.

  Lemma named_listed file : component file ->
    startswith (base ++ $"/") (base ++ $"/" ++ file) = true /\ endswith $"/" (base ++ $"/" ++ file) = false.
  Proof.
    intros C. split.
    - rewrite app_assoc. apply startswith_app.
    - rewrite app_assoc, ends_slash_app by apply C. apply ends_no_slash, C.
  Qed.
End Other.

(** ** Sequences of commits *)
Section Use.
  Variables (k : kind) (f : format) (ext node ds rnd : str) (b : str) (fs : list str) (hours : list moment).
  Hypothesis F : folder (b :: fs).
  Hypothesis R : relative ds.
  Hypothesis C : components_of ds = b :: fs.
  Hypothesis Fit : fit_names f ext node.
  Hypothesis Hours : k = MinIo -> hours <> [].
  Let base := join $"/" (b :: fs).
  Let name t := base ++ $"/" ++ blob_file f ext node t.

  Lemma file_comp t : component (blob_file f ext node t).
  Proof. apply blob_file_good. auto. Qed.
  Lemma file_ext t : with_extension (blob_file f ext node t).
  Proof. apply blob_file_good. auto. Qed.
  Lemma name_components t : components_of (name t) = (b :: fs) ++ [blob_file f ext node t].
  Proof. unfold name, base. rewrite (named b fs). apply components_join. apply (named_comp b fs F), file_comp. Qed.
  Lemma name_comp_inj t t' : components_of (name t) = components_of (name t') -> t = t'.
  Proof.
    rewrite !name_components. intros E. apply app_inv_head in E. injection E. apply blob_file_inj.
  Qed.

  Lemma commit_seq blobs : forall i s, writer_at b fs k (extension f ext) i -> proper k s -> NoDup (map fst blobs) ->
    exists i' s', commit_all k i node blobs s = Ok (i', s') /\ writer_at b fs k (extension f ext) i' /\ proper k s' /\
      (blobs <> [] -> k = Gcs -> i_filename i' = join $"/" fs ++ $"/" ++ $"{stem}" ++ extension f ext) /\
      (forall n, (exists data, holds k s' n data) <->
                 (exists data, holds k s n data) \/ exists t data, In (t, data) blobs /\ n = name t) /\
      (forall t data, In (t, data) blobs -> get_blob_bytes k (name t) s' = Ok data) /\
      (forall n, (forall t data, In (t, data) blobs -> components_of n <> components_of (name t)) ->
                 get_blob_bytes k n s' = get_blob_bytes k n s).
  Proof.
    induction blobs as [|[t data] blobs IH]; intros i s W P N.
    - exists i, s. split; [auto|]. split; [auto|]. split; [auto|]. split; [congruence|]. split; [|split; [|auto]].
      + intros n. split; [auto|]. intros [H|(t & d & [] & _)]; auto.
      + intros t d [].
    - cbn [map fst] in N. inversion N; subst. cbn [commit_all].
      destruct (commit_at b fs F k f ext i node t data s Fit W) as (nm & i1 & E & W1 & G1). rewrite E. cbn [bind].
      pose proof (proper_put b fs F k _ data s (file_comp t) P) as P1.
      destruct (IH i1 _ W1 P1 H2) as (i' & s' & E' & W' & P' & G' & H' & Rd & Ro).
      exists i', s'. split; [exact E'|]. split; [auto|]. split; [auto|]. split; [|split; [|split]].
      + intros _ Hk. destruct blobs as [|x blobs].
        * cbn [commit_all] in E'. injection E' as <- _. auto.
        * apply G'; auto. discriminate.
      + intros n. rewrite H', (holds_put b fs F k _ data s n (file_comp t) P). fold base. split.
        * intros [[->|H]|(t' & d & Hin & ->)]; [right; exists t, data; split; [left|]; auto|auto|].
          right. exists t', d. split; [right|]; auto.
        * intros [H|(t' & d & [X|Hin] & ->)]; [auto| |].
          -- injection X as -> ->. left. left. auto.
          -- right. eauto.
      + intros t' d [X|Hin]; [|apply Rd; auto]. injection X as <- <-.
        rewrite Ro.
        * unfold name, base. rewrite (read_named b fs F) by (apply file_comp || apply file_ext).
          rewrite lookup_put. auto.
        * intros t' d Hin E2. apply name_comp_inj in E2. subst t'. apply H1. apply in_map_iff. exists (t, d). auto.
      + intros n Hn. rewrite Ro by (intros t' d Hin; apply (Hn t' d); right; auto).
        apply (read_other b fs F); [apply file_comp|apply file_ext|]. apply (Hn t data). left. auto.
  Qed.

  Theorem commits_found blobs s : proper k s -> NoDup (map fst blobs) ->
    exists i i' s' before after,
      new_inner k f ext ds = Ok i /\ commit_all k i node blobs s = Ok (i', s') /\ proper k s' /\
      get_blobs_at_path k rnd hours base s = Ok before /\ get_blobs_at_path k rnd hours base s' = Ok after /\
      (forall n, In n after <-> In n before \/ exists t data, In (t, data) blobs /\ n = name t) /\
      (forall t data, In (t, data) blobs -> get_blob_bytes k (name t) s' = Ok data) /\
      (forall n, (forall t data, In (t, data) blobs -> components_of n <> components_of (name t)) ->
                 get_blob_bytes k n s' = get_blob_bytes k n s) /\
      (k <> MinIo -> NoDup after).
  Proof.
    intros P N. destruct (new_writer_at b fs F k f ext ds R C) as (i & Ei & W & _).
    destruct (commit_seq blobs i s W P N) as (i' & s' & E & W' & P' & _ & H & Rd & Ro).
    destruct (listed b fs F k rnd hours s P Hours) as (before & Eb & Hb & _).
    destruct (listed b fs F k rnd hours s' P' Hours) as (after & Ea & Ha & Na).
    exists i, i', s', before, after.
    split; [auto|]. split; [auto|]. split; [auto|]. split; [auto|]. split; [auto|]. split; [|auto].
    intros n. rewrite Ha, Hb, H. split.
    - intros (S & En & [X|X]); auto.
    - intros [(S & En & X)|(t & d & Hin & ->)]; auto.
      destruct (named_listed b fs (blob_file f ext node t) (file_comp t)) as [S En].
      split; [exact S|]. split; [exact En|]. right. eauto.
  Qed.

  Theorem marker_found blobs s : proper k s -> NoDup (map fst blobs) -> (k = Gcs -> blobs <> []) ->
    forall i i' s' t, new_inner k f ext ds = Ok i -> commit_all k i node blobs s = Ok (i', s') ->
    exists nm i2 s2 before after, mark_complete k i' node t s' = Ok (nm, i2, s2) /\
      get_blobs_at_path k rnd hours base s' = Ok before /\ get_blobs_at_path k rnd hours base s2 = Ok after /\
      (forall n, In n after <-> In n before \/ n = base ++ $"/frame.complete") /\
      get_blob_bytes k (base ++ $"/frame.complete") s2 = Ok [] /\
      (forall n, components_of n <> components_of (base ++ $"/frame.complete") ->
         get_blob_bytes k n s2 = get_blob_bytes k n s').
  Proof.
    intros P N G i i' s' t Ei E. destruct (new_writer_at b fs F k f ext ds R C) as (i0 & Ei0 & W & _).
    rewrite Ei in Ei0. injection Ei0 as <-.
    destruct (commit_seq blobs i s W P N) as (i1 & s1 & E1 & W' & P' & G' & _). rewrite E in E1. injection E1 as <- <-.
    destruct marker_good as [Mc Mx].
    destruct (mark_at b fs F k f ext i' node t s' Fit W') as (nm & i2 & Em).
    { intros Hk. apply G'; auto. }
    pose proof (proper_put b fs F k _ [] s' Mc P') as P2.
    destruct (listed b fs F k rnd hours s' P' Hours) as (before & Eb & Hb & _).
    destruct (listed b fs F k rnd hours _ P2 Hours) as (after & Ea & Ha & _).
    exists nm, i2. eexists. exists before, after. split; [exact Em|]. split; [exact Eb|]. split; [exact Ea|].
    change (base ++ $"/frame.complete") with (base ++ $"/" ++ $"frame.complete").
    split; [|split].
    - intros n. rewrite Ha, Hb, (holds_put b fs F k _ [] s' n Mc P'). fold base. split.
      + intros (S & En & [->|X]); auto.
      + intros [(S & En & X)| -> ]; auto.
        destruct (named_listed b fs $"frame.complete" Mc) as [S En]. split; [exact S|]. split; [exact En|]. left. reflexivity.
    - unfold base. rewrite (read_named b fs F) by auto. rewrite lookup_put. auto.
    - intros n Hn. apply (read_other b fs F); auto.
  Qed.
End Use.

(** ** a marker written before any blob *)
Theorem gcs_marker_lost f ext node ds rnd cs hours s i t :
  folder cs -> relative ds -> components_of ds = cs -> fit_names f ext node -> proper Gcs s ->
  new_inner Gcs f ext ds = Ok i ->
  exists nm i2 s2 before after, mark_complete Gcs i node t s = Ok (nm, i2, s2) /\
    get_blobs_at_path Gcs rnd hours (join $"/" cs) s = Ok before /\
    get_blobs_at_path Gcs rnd hours (join $"/" cs) s2 = Ok after /\
    (In (join $"/" cs ++ $"/frame.complete") after <-> In (join $"/" cs ++ $"/frame.complete") before).
Proof.
  intros F R C Fit P Ei. destruct cs as [|b fs]; [destruct F as (L & _); cbn in L; lia|].
  destruct (mark_misplaced b fs F f ext ds i node t s Fit R C Ei) as (nm & i2 & Em).
  set (base := join $"/" (b :: fs)) in *.
  assert (P2: proper Gcs (put (b, base ++ $"/" ++ $"frame.complete") [] s)).
  { destruct P as [N P]. split; [apply put_nodup; auto|]. intros p v H. apply in_put in H.
    destruct H as [H|[_ H]]; [injection H as -> _; apply (b_comp b fs F)|apply (P p v); auto]. }
  destruct (listed b fs F Gcs rnd hours s P ltac:(discriminate)) as (before & Eb & Hb & _).
  destruct (listed b fs F Gcs rnd hours _ P2 ltac:(discriminate)) as (after & Ea & Ha & _).
  exists nm, i2. eexists. exists before, after. split; [exact Em|]. split; [exact Eb|]. split; [exact Ea|].
  rewrite Ha, Hb. fold base. split; intros (S & En & data & bucket & key & Cb & E & H); (split; [exact S|]; split; [exact En|]).
  - apply in_put in H. destruct H as [H|[_ H]].
    + exfalso. apply (f_equal fst) in H. cbn [fst] in H. injection H as -> ->.
      change (base ++ $"/frame.complete") with (base ++ $"/" ++ $"frame.complete") in E.
      apply (f_equal (@length ascii)) in E. rewrite !app_length in E. cbn [length list_ascii_of_string] in E. lia.
    + exists data, bucket, key. auto.
  - destruct (place_eqb (bucket, key) (b, base ++ $"/" ++ $"frame.complete")) eqn:Q.
    + apply place_eqb_spec in Q. injection Q as -> ->. exists [], b, (base ++ $"/" ++ $"frame.complete").
      split; [auto|]. split; [exact E|]. apply in_put. auto.
    + exists data, bucket, key. split; [auto|]. split; [auto|]. apply in_put. right. split; auto.
      cbn [fst]. intros X. rewrite X, place_eqb_refl in Q. discriminate.
Qed.

(** ** MinIO lists a folder again for every hour of the range *)
Theorem minio_repeats rnd cs hours s : folder cs -> exists once,
  get_blobs_at_path Gcs rnd hours (join $"/" cs) s = Ok once /\
  get_blobs_at_path MinIo rnd hours (join $"/" cs) s = Ok (concat (repeat once (length hours))).
Proof.
  intros F. destruct cs as [|b fs]; [destruct F as (L & _); cbn in L; lia|].
  cbn [get_blobs_at_path].
  rewrite (folder_parts b fs F) by (apply (base_relative b fs F) || apply (base_components b fs F)). cbn [bind].
  eexists. split; [reflexivity|].
  assert (M: forall hs, mapM (fun h => let* cycle := build_path rnd (join $"/" fs ++ $"/") h in Ok (keys_at b cycle s)) hs
             = Ok (repeat (keys_at b (join $"/" fs ++ $"/") s) (length hs))).
  { induction hs as [|h hs IH]; auto. cbn [mapM length repeat]. rewrite IH, (minio_prefix b fs F). reflexivity. }
  rewrite M. reflexivity.
Qed.

(** ** blobs without an extension *)
Theorem no_extension_unreadable k n s : k <> Disk -> relative n -> (2 <= length (components_of n))%nat ->
  no_extension (last (components_of n) []) -> get_blob_bytes k n s = Raise TypeError.
Proof.
  intros Hk R L X. destruct (two_ends _ L) as (b & mid & z & Hc).
  assert (E: get_parts n = Ok (b, pp_str ([], mid ++ [z]) ++ $"/", None, None)).
  { rewrite (get_parts_eq n b mid z R Hc). rewrite Hc in X.
    change (b :: mid ++ [z]) with ((b :: mid) ++ [z]) in X. rewrite last_last in X.
    rewrite no_ext_suffix by auto. reflexivity. }
  destruct k; [congruence| |]; cbn [get_blob_bytes]; rewrite E; reflexivity.
Qed.

Theorem listed_folder k rnd hours cs s : folder cs -> proper k s -> (k = MinIo -> hours <> []) ->
  exists out, get_blobs_at_path k rnd hours (join $"/" cs) s = Ok out /\
    (forall n, In n out <->
       startswith (join $"/" cs ++ $"/") n = true /\ endswith $"/" n = false /\ exists data, holds k s n data) /\
    (k <> MinIo -> NoDup out).
Proof.
  intros F. destruct cs as [|b fs]; [destruct F as (L & _); cbn in L; lia|]. apply (listed b fs F).
Qed.
