(** A batch becomes visible at once. *)
From Coq Require Import Sorted Permutation.
From Verif.Base Require Import Py PyFacts.
From Verif.Model Require Import Frames Writers.
From Verif.Spec Require Import Frames Writers.
From Verif.Proofs Require Import Frames Writers.

Lemma startswith_slash n a b : ~ In "/"%char n -> startswith n (a ++ $"/" ++ b) = true -> startswith n a = true.
Proof.
  revert n; induction a as [|x a IH]; intros [|c n] Hn; auto.
  - cbn. destruct (Ascii.eqb_spec c "/"%char); [subst; exfalso; apply Hn; left; auto|discriminate].
  - cbn [app startswith]. rewrite !andb_true_iff. intros [H1 H2]. split; auto. apply IH; auto.
    intros H; apply Hn; right; auto.
Qed.
Lemma contains_slash_app n a b : ~ In "/"%char n -> contains n (a ++ $"/" ++ b) = true ->
  contains n a = true \/ contains n b = true.
Proof.
  intros Hn. rewrite contains_iff. intros (x & y & H).
  (* locate the slash *)
  assert (G: forall x a, a ++ $"/" ++ b = x ++ n ++ y -> (exists z, a = x ++ n ++ z) \/ (exists u, b = u ++ n ++ y) \/ n = []).
  { clear -Hn. induction x as [|c x IH]; intros a H.
    - cbn [app] in H. destruct n as [|c0 n0]; [auto|]. left.
      assert (S: startswith (c0 :: n0) a = true).
      { eapply startswith_slash; eauto. rewrite H. apply startswith_app. }
      apply startswith_iff in S. destruct S as [t ->]. exists t. reflexivity.
    - destruct a as [|c' a].
      + cbn [app] in H. injection H as <- H. right. left. eauto.
      + cbn [app] in H. injection H as -> H. destruct (IH _ H) as [[z ->]|[U|N]]; [left; exists z; reflexivity|auto|auto]. }
  destruct (G x a H) as [[z ->]|[[u ->]| ->]].
  - left. apply contains_iff. eauto.
  - right. apply contains_iff. eauto.
  - left. apply contains_iff. exists [], a. reflexivity.
Qed.
Lemma contains_plain_false n s c : In c n -> plain_char c = false -> plain s -> contains n s = false.
Proof.
  intros Hc Hp Hs. apply contains_false. intros a b ->.
  assert (plain_char c = true); [|congruence]. apply Hs. rewrite !in_app_iff. auto.
Qed.

Lemma lists_unique root P Q out out' : (forall e, served P e <-> served Q e) ->
  lists_exactly root P out -> lists_exactly root Q out' -> out = out'.
Proof.
  intros H (S1 & N1 & I1) (S2 & N2 & I2).
  apply (sorted_perm_unique _ str_leb_antisym); auto.
  apply NoDup_Permutation; auto. intros b. rewrite I1, I2.
  split; intros (e & He & ->); exists e; (split; [apply H; auto|auto]).
Qed.

Lemma pick_entries root (P : entry -> Prop) l : NoDup l ->
  (forall n, In n l -> exists e, n = name_in root e /\ P e) ->
  exists es, l = map (name_in root) es /\ NoDup es /\ Forall P es.
Proof.
  intros Hnd H.
  assert (G: exists es, l = map (name_in root) es /\ Forall P es).
  { clear Hnd. induction l as [|n l IH]; [exists []; auto|].
    destruct (H n (or_introl eq_refl)) as (e & -> & Pe).
    destruct IH as (es & -> & F); [intros m Hm; apply H; right; auto|]. exists (e :: es). auto. }
  destruct G as (es & -> & F). exists es. split; auto. split; auto. eapply NoDup_map_inv; eauto.
Qed.

Lemma older_other P frame : older_frames P frame -> other_frames P frame.
Proof.
  intros O e He. destruct (O e He) as (A & f & B & C & L). split; auto. exists f. repeat split; auto.
  intros ->. unfold str_ltb in L. rewrite str_compare_refl in L. discriminate.
Qed.
Lemma older_newest (P : entry -> Prop) frame : older_frames P frame -> forall k f, good_frame P k f -> str_leb f frame = true.
Proof.
  intros O k f [H _]. destruct (O _ H) as (_ & f' & [= <-] & _ & L).
  unfold str_ltb in L. unfold str_leb. destruct (str_compare f frame); auto; discriminate.
Qed.

Section Batch.
  Context {R : Type} (E : setting R) (root frame ext : str) (K : nat).
  Definition bdir : str := root ++ $"/" ++ frame.
  Hypothesis W : writes_in E bdir ext.
  Hypothesis CF : clean_failures E.
  Hypothesis CL : good_clock E K.
  Hypothesis PN : plain (s_node E).
  Hypothesis PE : plain ext.
  Hypothesis FR : ~ In "/"%char frame /\ startswith $"as_at_" frame = true.
  Hypothesis NB : contains $"BACKOUT" bdir = false.

  Definition blob_file (n : nat) : str := hex (s_clock E n) ++ $"-" ++ s_node E ++ ext.
  Definition bname (n : nat) : str := blob_name (s_filename E) (s_node E) (s_clock E n).
  Lemma bname_eq n : bname n = bdir ++ $"/" ++ blob_file n.
  Proof. apply (blob_name_eq E bdir ext W). Qed.

  Lemma hex_char_plain c : hex_char c = true -> plain_char c = true.
  Proof. unfold hex_char, plain_char. lia. Qed.
  Lemma blob_file_plain n : plain (blob_file n).
  Proof.
    intros c. unfold blob_file. rewrite !in_app_iff. intros [H|[[<-|[]]|[H|H]]]; auto.
    apply hex_char_plain. eapply hex_chars; eauto.
  Qed.
  Lemma blob_file_hex n : (n < K)%nat -> exists c1 c2 s, blob_file n = c1 :: c2 :: s /\ hex_char c1 = true /\ hex_char c2 = true.
  Proof.
    intros HK. unfold blob_file.
    assert (Hk: hex (s_clock E n) = hexk 16 (s_clock E n)).
    { apply hex_hexk. destruct CL as [C _]. apply (C n HK). }
    assert (L: length (hex (s_clock E n)) = 16%nat) by (rewrite Hk; apply hexk_length).
    assert (H: forall c, In c (hex (s_clock E n)) -> hex_char c = true) by apply hex_chars.
    destruct (hex (s_clock E n)) as [|c1 [|c2 s]]; try discriminate.
    exists c1, c2, (s ++ $"-" ++ s_node E ++ ext). split; auto. split; apply H; cbn; auto.
  Qed.
  Lemma bname_lt n m : (n < m)%nat -> (m < K)%nat -> str_compare (bname n) (bname m) = Lt.
  Proof.
    intros H HK. rewrite !bname_eq, !str_compare_prefix. unfold blob_file. destruct CL as [C1 C2].
    rewrite !(hex_hexk 15) by (apply C1; lia). apply str_compare_app; [rewrite !hexk_length; auto|].
    apply hexk_lt; auto. apply C1; auto.
  Qed.
  Lemma bname_sorted ns : StronglySorted Peano.lt ns -> Forall (fun n => (n < K)%nat) ns ->
    StronglySorted (fun a b => str_leb a b = true) (map bname ns) /\ NoDup (map bname ns).
  Proof.
    induction 1 as [|n ns S IH F]; [split; constructor|]. intros FK. inversion FK as [|? ? HK0 FK']; subst.
    destruct (IH FK') as [IH1 IH2]. rewrite Forall_forall in FK'. split.
    - cbn [map]. constructor; auto. apply Forall_forall. intros b Hb. apply in_map_iff in Hb.
      destruct Hb as (m & <- & Hm). rewrite Forall_forall in F. unfold str_leb. pose proof (bname_lt n m (F m Hm) (FK' m Hm)) as L. rewrite L. reflexivity.
    - cbn [map]. constructor; auto. intros Hb. apply in_map_iff in Hb. destruct Hb as (m & Em & Hm).
      rewrite Forall_forall in F. pose proof (bname_lt n m (F m Hm) (FK' m Hm)) as L. rewrite Em, str_compare_refl in L. discriminate.
  Qed.

  (** *** the names in the log *)
  Definition log_names (w : world) : Prop :=
    exists ns, map fst (data_of bdir (puts w)) = map bname ns /\ StronglySorted Peano.lt ns /\
      Forall (fun n => (n < attempts w)%nat) ns.
  Lemma sorted_snoc ns k : StronglySorted Peano.lt ns -> Forall (fun n => (n < k)%nat) ns -> StronglySorted Peano.lt (ns ++ [k]).
  Proof.
    induction 1 as [|n ns S IH F]; intros Hk; cbn; [repeat constructor|].
    inversion Hk; subst. constructor; auto. apply Forall_app. split; auto.
  Qed.
  Lemma log_names_commit b w o b' w' : log_names w -> commit E b w = (o, (b', w')) -> log_names w'.
  Proof.
    intros (ns & En & Sn & Fn). unfold commit. destruct (0 <? _)%nat; [|intros [= <- <- <-]; exists ns; auto].
    destruct (write_buffer E b) as [d|e]; [|intros [= <- <- <-]; exists ns; auto].
    unfold inner_commit. destruct (s_fails E (attempts w)) as [[k|]|] eqn:Ef.
    - exfalso. eapply CF; eauto.
    - intros [= <- <- <-]. exists ns. cbn. split; auto. split; auto. eapply Forall_impl; [|exact Fn]. cbn; intros; lia.
    - intros [= <- <- <-]. exists (ns ++ [attempts w]). cbn [puts attempts].
      rewrite data_of_app, (data_of_blob E bdir ext W), !map_app, En. split; auto. split; [apply sorted_snoc; auto|].
      apply Forall_app. split; [|repeat constructor]. eapply Forall_impl; [|exact Fn]. cbn; intros; lia.
  Qed.
  Lemma log_names_step s c o s' : log_names (st_world s) -> step E s c = (o, s') -> log_names (st_world s').
  Proof.
    intros L. destruct c as [r|f]; unfold step.
    - unfold append. destruct (s_check E r); [|intros [= <- <-]; auto].
      unfold blob_append, arrow_append, text_append. cbv zeta. destruct (is_parquet (s_format E)).
      + match goal with |- context [if ?c then _ else _] => destruct c end; [|intros [= <- <-]; auto].
        match goal with |- context [commit E ?b ?w] => destruct (commit E b w) as [[x|e] [b2 w2]] eqn:Ec end;
        apply log_names_commit in Ec; auto; intros [= <- <-]; auto.
      + destruct (s_ser E r); [|intros [= <- <-]; auto].
        match goal with |- context [if ?c then _ else _] => destruct c end; [|intros [= <- <-]; auto].
        match goal with |- context [commit E ?b ?w] => destruct (commit E b w) as [[x|e] [b2 w2]] eqn:Ec end;
        apply log_names_commit in Ec; auto; intros [= <- <-]; auto.
    - unfold finalize. destruct (commit E (st_blob s) (st_world s)) as [[x|e] [b2 w2]] eqn:Ec;
      apply log_names_commit in Ec; auto; [|intros [= <- <-]; auto].
      destruct f; [intros [= <- <-]; auto|]. destruct (st_seen s); [intros [= <- <-]; auto|].
      destruct (_ && _); [intros [= <- <-]; auto|]. unfold inner_commit. rewrite (completion_eq E bdir ext W).
      destruct Ec as (ns & En & Sn & Fn).
      assert (Fn': Forall (fun n => (n < S (attempts w2))%nat) ns) by (eapply Forall_impl; [|exact Fn]; cbn; intros; lia).
      destruct (s_fails E (attempts w2)) as [[k|]|] eqn:Ef; [exfalso; eapply CF; eauto| |]; intros [= <- <-];
      exists ns; cbn [st_world puts attempts]; auto. rewrite data_of_app, data_of_marker, app_nil_r. auto.
  Qed.
  Lemma log_names_run cs : forall s os s', log_names (st_world s) -> run E s cs = (os, s') -> log_names (st_world s').
  Proof.
    induction cs as [|c cs IH]; intros s os s' L; cbn [run]; [intros [= <- <-]; auto|].
    destruct (step E s c) as [o s1] eqn:Es. destruct (run E s1 cs) as [os1 s2] eqn:Er. intros [= <- <-].
    eapply (IH s1); [eapply log_names_step; eauto|exact Er].
  Qed.

  (** *** shape of the log: data, then markers *)
  Definition shaped (s : state (R:=R)) : Prop :=
    exists a b, puts (st_world s) = a ++ b /\ ~ marked bdir a /\ Forall (fun p => fst p = marker bdir) b /\
      (b <> [] -> st_blob s = open_buffer).
  Lemma appends_unmarked rs : forall s os s', ~ marked bdir (puts (st_world s)) ->
    run E s (map Append rs) = (os, s') -> ~ marked bdir (puts (st_world s')).
  Proof.
    induction rs as [|r rs IH]; intros s os s' M; cbn [map run]; [intros [= <- <-]; auto|].
    destruct (step E s (Append r)) as [o s1] eqn:Es. destruct (run E s1 (map Append rs)) as [os1 s2] eqn:Er.
    intros [= <- <-]. eapply (IH s1); [|exact Er].
    destruct (step_marker E bdir ext W CF _ _ _ _ Es) as (a & P & M1 & _). cbn in M1. rewrite P.
    apply not_marked_app; auto.
  Qed.
  Lemma finalizes_shaped fs : forall s os s', shaped s -> run E s (map Finalize fs) = (os, s') -> shaped s'.
  Proof.
    induction fs as [|f fs IH]; intros s os s' Sh; cbn [map run]; [intros [= <- <-]; auto|].
    destruct (step E s (Finalize f)) as [o s1] eqn:Es. destruct (run E s1 (map Finalize fs)) as [os1 s2] eqn:Er.
    intros [= <- <-]. eapply IH; [|exact Er]. clear IH Er.
    destruct Sh as (a & b & Ep & Ma & Fb & Eb). revert Es. unfold step, finalize.
    assert (G: forall w2, (exists a' b', puts w2 = a' ++ b' /\ ~ marked bdir a' /\ Forall (fun p => fst p = marker bdir) b') ->
       forall n sn o s1, 
       match (if f then (Ok None, mkState open_buffer w2 n true) else
              if st_seen s then (Ok None, mkState open_buffer w2 n sn) else
              if (st_records s =? 0)%nat && negb (s_always E) then (Ok None, mkState open_buffer w2 n sn) else
              match inner_commit E w2 (Some (completion_path (s_filename E))) [] with
              | (Ok _, w') => (Ok (Some o), mkState open_buffer w' n sn)
              | (Raise e, w') => (Raise e, mkState open_buffer w' n sn)
              end) with
       | (Ok x, s') => (Returned x, s')
       | (Raise e, s') => (Raised e, s') end = (s1 : outcome * state (R:=R)) -> shaped (snd s1)).
    { intros w2 (a' & b' & P2 & Ma' & Fb') n sn o0 s0.
      assert (Z: forall n sn, shaped (mkState open_buffer w2 n sn)) by (intros; exists a', b'; auto).
      destruct f; [intros <-; apply Z|]. destruct (st_seen s); [intros <-; apply Z|].
      destruct (_ && _); [intros <-; apply Z|]. unfold inner_commit. rewrite (completion_eq E bdir ext W).
      destruct (s_fails E (attempts w2)) as [[k|]|] eqn:Ef; [exfalso; eapply CF; eauto| |]; intros <-.
      - exists a', b'. auto.
      - exists a', (b' ++ [(marker bdir, [])]). cbn. rewrite P2, app_assoc. split; auto. split; auto.
        split; auto. apply Forall_app. auto. }
    destruct b as [|b0 b].
    - destruct (commit E (st_blob s) (st_world s)) as [[x|e] [b2 w2]] eqn:Ec.
      + intros Es. assert (Hb2: b2 = open_buffer).
        { revert Ec. unfold commit. destruct (0 <? _)%nat; [|now intros [= _ <- _]]. destruct (write_buffer _ _); [|discriminate].
          clear. destruct (inner_commit _ _ _ _) as [[?|?] ?]; intros Q; inversion Q; reflexivity. }
        subst b2. destruct (commit_unmarked E bdir ext W CF _ _ _ _ _ Ec) as (ad & Pa & Mad).
        specialize (G w2). change s1 with (snd (o, s1)). eapply G; [|exact Es].
        exists (a ++ ad), []. rewrite app_nil_r. rewrite Pa, Ep, app_nil_r. split; auto. split; [|constructor].
        apply not_marked_app; auto.
      + intros [= <- <-]. destruct (commit_unmarked E bdir ext W CF _ _ _ _ _ Ec) as (ad & Pa & Mad).
        exists (a ++ ad), []. cbn. rewrite app_nil_r. rewrite Pa, Ep, app_nil_r. split; auto. split; [|split; [constructor|congruence]].
        apply not_marked_app; auto.
    - assert (Hopen: st_blob s = open_buffer) by (apply Eb; discriminate). rewrite Hopen.
      unfold commit. cbn [records_in_buffer open_buffer Nat.ltb Nat.leb]. intros Es.
      change s1 with (snd (o, s1)). eapply G; [|exact Es]. exists a, (b0 :: b). auto.
  Qed.

  Lemma data_of_unmarked a : ~ marked bdir a -> data_of bdir a = a.
  Proof.
    intros H. unfold data_of. apply filter_all. intros p Hp. apply negb_true_iff, str_eqb_neq. intros Hm.
    apply H. unfold marked. rewrite <- Hm. apply in_map. auto.
  Qed.
  Lemma data_of_markers b : Forall (fun p => fst p = marker bdir) b -> data_of bdir b = [].
  Proof.
    intros F. unfold data_of. apply filter_nil. intros p Hp. rewrite Forall_forall in F.
    rewrite (F p Hp), str_eqb_refl. reflexivity.
  Qed.

  (** after a crash that left the marker, all data is there *)
  Lemma crash_marked a b log' : ~ marked bdir a -> Forall (fun p => fst p = marker bdir) b ->
    crashed (a ++ b) log' -> marked bdir log' -> b <> [] /\ data_of bdir log' = a.
  Proof.
    intros Ma Fb (k & Hc) Ml.
    assert (Hb: forall j, Forall (fun p => fst p = marker bdir) (firstn j b)).
    { intros j. apply Forall_forall. intros p Hp. rewrite Forall_forall in Fb. apply Fb. eapply In_firstn; eauto. }
    destruct (le_lt_dec (length a) k) as [Hk|Hk].
    - assert (F: firstn k (a ++ b) = a ++ firstn (k - length a) b) by (rewrite firstn_app, firstn_all2 by lia; auto).
      destruct Hc as [->|(name & data & cut & En & ->)].
      + rewrite F, data_of_app, (data_of_markers (firstn _ b)), app_nil_r by auto. split.
        * intros ->. apply Ma. rewrite F, firstn_nil, app_nil_r in Ml. exact Ml.
        * apply data_of_unmarked; auto.
      + rewrite nth_error_app2 in En by lia.
        assert (Hn: name = marker bdir).
        { rewrite Forall_forall in Fb. apply nth_error_In in En. apply (Fb _ En). }
        rewrite F, !data_of_app, (data_of_markers (firstn _ b)) by auto.
        rewrite (data_of_markers [_]) by (repeat constructor; exact Hn). rewrite !app_nil_r.
        split; [|apply data_of_unmarked; auto]. intros ->. destruct (k - length a)%nat; discriminate.
    - exfalso. apply Ma. assert (F: firstn k (a ++ b) = firstn k a) by (apply firstn_app_le; lia).
      destruct Hc as [->|(name & data & cut & En & ->)].
      + rewrite F in Ml. unfold marked in *. rewrite <- firstn_map in Ml. eapply In_firstn; eauto.
      + rewrite F in Ml. unfold marked in *. rewrite map_app, in_app_iff in Ml. destruct Ml as [Ml|[Ml|[]]].
        * rewrite <- firstn_map in Ml. eapply In_firstn; eauto.
        * rewrite nth_error_app1 in En by auto. apply nth_error_In in En. cbn in Ml. rewrite <- Ml.
          change name with (fst (name, data)). apply in_map. auto.
  Qed.
  (** the names after a crash are a beginning of the names *)
  Lemma crash_names log log' : crashed log log' -> exists j, map fst log' = firstn j (map fst log).
  Proof.
    intros (k & [->|(name & data & cut & En & ->)]).
    - exists k. now rewrite firstn_map.
    - exists (S k). rewrite map_app. cbn [map fst].
      apply nth_error_split in En. destruct En as (l1 & l2 & -> & <-).
      rewrite firstn_app, firstn_all, Nat.sub_diag, firstn_O, app_nil_r.
      rewrite map_app. cbn [map fst]. rewrite firstn_app, map_length.
      rewrite firstn_all2 by (rewrite map_length; lia).
      replace (S (length l1) - length l1)%nat with 1%nat by lia. reflexivity.
  Qed.
  Lemma data_names log : map fst (data_of bdir log) = filter (fun n => negb (str_eqb n (marker bdir))) (map fst log).
  Proof.
    unfold data_of. induction log as [|p log IH]; auto. cbn [filter map].
    destruct (str_eqb (fst p) (marker bdir)); cbn [negb map]; auto. now rewrite IH.
  Qed.

  Definition newent (e : entry) : Prop := exists file, e = mkEntry None (Some frame) file /\
    (file = $"frame.complete" \/ exists n, (n < K)%nat /\ file = blob_file n).
  Lemma new_name file : name_in root (mkEntry None (Some frame) file) = bdir ++ $"/" ++ file.
  Proof. unfold name_in, local_parts, bdir. cbn [e_by e_frame e_file app join]. rewrite <- !app_assoc. reflexivity. Qed.
  Lemma newent_file file : (file = $"frame.complete" \/ exists n, (n < K)%nat /\ file = blob_file n) -> plain file.
  Proof.
    intros [->|(n & _ & ->)]; [|apply blob_file_plain].
    intros c Hc. cbn in Hc. repeat (destruct Hc as [<-|Hc]; [reflexivity|]). destruct Hc.
  Qed.
  Lemma newent_live e : newent e -> contains $"BACKOUT" (name_in root e) = false.
  Proof.
    intros (file & -> & Hf). rewrite new_name. apply not_true_iff_false. intros C.
    apply contains_slash_app in C; [|cbn; intuition discriminate]. destruct C as [C|C]; [congruence|].
    assert (F: contains $"BACKOUT" file = false); [|congruence].
    apply (contains_plain_false _ _ "B"%char); [left; reflexivity|reflexivity|apply newent_file; auto].
  Qed.
  Lemma plain_noslash s : plain s -> ~ In "/"%char s.
  Proof. intros H Hin. apply H in Hin. discriminate. Qed.
  Lemma hex_not c : hex_char c = true -> c <> "y"%char /\ c <> "r"%char.
  Proof. intros H. split; intros ->; discriminate. Qed.

  Lemma tidy_union es : tidy root (live root es) -> other_frames (live root es) frame ->
    tidy root (fun e => live root es e \/ newent e).
  Proof.
    intros T O.
    assert (NoBy: forall e, live root es e \/ newent e -> e_by e = None).
    { intros e [H|(file & -> & _)]; auto. apply O; auto. }
    assert (NAB: forall P c, not_a_by P c -> not_a_by (fun e => live root es e \/ newent e) c).
    { intros P c [A _]. split; auto. intros e b f He Hb. rewrite NoBy in Hb by auto. discriminate. }
    destruct FR as [F1 F2].
    constructor.
    - intros c Hc. destruct (t_root _ _ T c Hc) as (A & B & C). split; [eapply NAB; eauto|auto].
    - intros e b f He Hb. rewrite NoBy in Hb by auto. discriminate.
    - intros e f [He|(file & -> & _)] Hf.
      + destruct (t_frame _ _ T e f He Hf) as (A & B & C). split; auto. split; auto. eapply NAB; eauto.
      + cbn in Hf. injection Hf as <-. split; auto. split; auto.
        apply (NAB (fun _ => False)). split; [|intros e b f []].
        apply startswith_iff in F2. destruct F2 as [t ->]. reflexivity.
    - assert (LL: forall e f, live root es e \/ newent e -> e_frame e = Some f -> length f = length frame).
      { intros e f [He|(file & -> & _)] Hf.
        - destruct (O e He) as (_ & f' & Ef & L & _). rewrite Ef in Hf. injection Hf as <-. auto.
        - injection Hf as <-. auto. }
      intros e e' f f' He He' Hf Hf'. rewrite (LL e f), (LL e' f'); auto.
    - intros e [He|(file & -> & Hf)]; [apply (t_file _ _ T); auto|]. cbn [e_file].
      assert (P: plain file) by (apply newent_file; auto).
      split; [apply plain_noslash; auto|].
      assert (C: contains $"as_at_" file = false).
      { apply (contains_plain_false _ _ "_"%char); auto. cbn; auto 8. }
      destruct Hf as [->|(n & HK & ->)]; [repeat split; auto; discriminate|].
      destruct (blob_file_hex n HK) as (c1 & c2 & s & Eb & H1 & H2). rewrite Eb in *.
      destruct (hex_not c2 H2) as [N1 N2].
      assert (Q1: Ascii.eqb "y" c2 = false) by (destruct (Ascii.eqb_spec "y"%char c2); congruence).
      assert (Q2: Ascii.eqb "r" c2 = false) by (destruct (Ascii.eqb_spec "r"%char c2); congruence).
      split; [cbn [startswith list_ascii_of_string]; rewrite Q1; apply andb_false_r|]. split; [auto|].
      split; cbn [startswith list_ascii_of_string]; rewrite Q2; rewrite andb_false_r; discriminate.
  Qed.

  (** what changes for the reader *)
  Lemma served_unmarked (P Q : entry -> Prop) :
    (forall e, Q e <-> P e \/ (newent e /\ Q e)) -> other_frames P frame ->
    ~ Q (mkEntry None (Some frame) $"frame.complete") ->
    forall e, served Q e <-> served P e.
  Proof.
    intros HQ O M.
    assert (NB': forall e, Q e -> e_by e = None).
    { intros e He. apply HQ in He. destruct He as [He|[(file & -> & _) _]]; auto. apply O; auto. }
    assert (HF: forall e, P e -> has_frames P (e_by e)).
    { intros e He. destruct (O e He) as (_ & f & Ef & _). exists e, f. auto. }
    assert (PQ: forall e, P e -> Q e) by (intros e He; apply HQ; auto).
    assert (QP: forall k f file, Q (mkEntry k (Some f) file) -> f <> frame -> P (mkEntry k (Some f) file)).
    { intros k f file H N. apply HQ in H. destruct H as [H|[(file' & [= -> -> ->] & _) _]]; congruence. }
    assert (PF: forall k f file, P (mkEntry k (Some f) file) -> f <> frame).
    { intros k f file H ->. destruct (O _ H) as (_ & f & Ef & _ & L). injection Ef as <-. auto. }
    assert (GF: forall f, good_frame Q None f <-> good_frame P None f).
    { intros f. unfold good_frame, has_file. destruct (str_eq_dec f frame) as [->|N].
      - split; [intros [H _]; contradiction|]. intros [H _]. exfalso. eapply PF; eauto.
      - split; intros [H1 H2]; split; auto. }
    assert (NG: forall f, newest_good_frame Q None f <-> newest_good_frame P None f).
    { intros f. unfold newest_good_frame. rewrite GF. split; intros [H1 H2]; split; auto; intros f' Hf'; apply H2, GF; auto. }
    intros e. unfold served. split.
    - intros (He & _ & H3). rewrite (NB' e He) in *.
      assert (HfQ: has_frames Q None).
      { destruct (proj1 (HQ e) He) as [Pe|[(file & -> & _) _]].
        - destruct (O e Pe) as (_ & f & Ef & _). exists e, f. rewrite (NB' e He). auto.
        - exists (mkEntry None (Some frame) file), frame. auto. }
      destruct (H3 HfQ) as (f & Ef & Nf & Nc). apply NG in Nf.
      assert (Pe: P e).
      { destruct e as [k o file]. cbn in Ef. subst o. apply QP; auto. intros ->.
        destruct Nf as [[G _] _]. eapply PF; eauto. }
      split; auto. split.
      + intros e' He'. apply O; auto.
      + intros _. exists f. auto.
    - intros (Pe & _ & H3). destruct (H3 (HF e Pe)) as (f & Ef & Nf & Nc).
      rewrite (NB' e (PQ e Pe)) in *. split; auto. split.
      + intros e' He'. auto.
      + intros _. exists f. apply NG in Nf. auto.
  Qed.
  Lemma served_marked (P Q : entry -> Prop) :
    (forall e, Q e <-> P e \/ (newent e /\ Q e)) -> other_frames P frame ->
    (forall f, good_frame P None f -> str_leb f frame = true) ->
    Q (mkEntry None (Some frame) $"frame.complete") ->
    forall e, served Q e <-> newent e /\ Q e /\ e_file e <> $"frame.complete".
  Proof.
    intros HQ O NW M.
    assert (NB': forall e, Q e -> e_by e = None).
    { intros e He. apply HQ in He. destruct He as [He|[(file & -> & _) _]]; auto. apply O; auto. }
    assert (FE: forall e f, Q e -> e_frame e = Some f -> f = frame -> newent e).
    { intros e f He Ef. apply HQ in He. destruct He as [He|[Ne _]]; auto.
      destruct (O e He) as (_ & f' & Ef' & _ & L). rewrite Ef in Ef'. injection Ef' as <-. congruence. }
    assert (G: good_frame Q None frame).
    { split; auto. intros H. destruct (FE _ _ H eq_refl eq_refl) as (file & [= <-] & [C|(n & HK & C)]); [discriminate|].
      destruct (blob_file_hex n HK) as (c1 & c2 & s & Eb & H1 & H2). rewrite Eb in C. injection C as <- <- _. discriminate. }
    assert (LE: forall f, good_frame Q None f -> str_leb f frame = true).
    { intros f [H1 H2]. destruct (str_eq_dec f frame) as [->|N]; [apply str_leb_refl|]. apply NW. split.
      - apply HQ in H1. destruct H1 as [H1|[(file & [= -> _] & _) _]]; [auto|congruence].
      - intros H. apply H2. apply HQ. auto. }
    assert (NG: forall f, newest_good_frame Q None f <-> f = frame).
    { intros f. split.
      - intros [H1 H2]. apply str_leb_antisym; [apply LE; auto|apply H2; auto].
      - intros ->. split; auto. }
    intros e. unfold served. split.
    - intros (He & _ & H3). rewrite (NB' e He) in *.
      destruct H3 as (f & Ef & Nf & Nc).
      { exists (mkEntry None (Some frame) $"frame.complete"), frame. auto. }
      apply NG in Nf. subst f. split; auto. apply (FE e frame); auto.
    - intros (Ne & He & Nc). split; auto. rewrite (NB' e He). split; [intros e' He'; auto|].
      intros _. exists frame. split; [destruct Ne as (file & -> & _); auto|]. split; auto. apply NG; auto.
  Qed.

  (** the names a batch leaves *)
  Lemma left_names rs fs os s log' :
    run E (new_writer nothing) (map Append rs ++ map Finalize fs) = (os, s) ->
    crashed (puts (st_world s)) log' -> attempts (st_world s) = K ->
    forall n, In n (map fst log') -> exists file, n = bdir ++ $"/" ++ file /\
        (file = $"frame.complete" \/ exists k, (k < K)%nat /\ file = blob_file k).
  Proof.
    intros Hrun Hcr HKs.
    assert (LN: log_names (st_world s)).
    { eapply log_names_run; [|exact Hrun]. exists []. repeat split; constructor. }
    destruct LN as (ns & En & Sn & Fn). destruct (crash_names _ _ Hcr) as (j & Ej).
    intros n Hn. rewrite Ej in Hn. apply In_firstn in Hn.
    destruct (str_eqb n (marker bdir)) eqn:Em.
    - apply str_eqb_eq in Em. subst n. exists $"frame.complete". split; auto.
    - assert (Hd: In n (map fst (data_of bdir (puts (st_world s))))) by (rewrite data_names; apply filter_In; rewrite Em; auto).
      rewrite En in Hd. apply in_map_iff in Hd. destruct Hd as (k & <- & Hk). exists (blob_file k).
      rewrite Forall_forall in Fn. split; [apply bname_eq|]. right. exists k. rewrite <- HKs. auto.
  Qed.

  (** the entries of the folder with what the batch leaves *)
  Lemma extended es (log' : list (str * str)) listing :
    tidy root (live root es) -> other_frames (live root es) frame ->
    (forall n, In n (map fst log') -> exists file, n = bdir ++ $"/" ++ file /\
        (file = $"frame.complete" \/ exists k, (k < K)%nat /\ file = blob_file k)) ->
    NoDup listing ->
    (forall n, In n listing <-> In n (map (name_in root) es) \/ In n (map fst log')) ->
    exists es', listing = map (name_in root) es' /\ NoDup es' /\ tidy root (live root es') /\
      (forall e, live root es' e <-> live root es e \/ (newent e /\ live root es' e)) /\
      (forall e, newent e -> (live root es' e <-> In (name_in root e) (map fst log'))).
  Proof.
    intros T O LOG Hl HI.
    pose proof (tidy_union es T O) as TU.
    destruct (pick_entries root (fun e => In e es \/ (newent e /\ In (name_in root e) (map fst log'))) listing Hl) as (es' & El & Nd' & FP).
    { intros n Hn. apply HI in Hn. destruct Hn as [Hn|Hn].
      - apply in_map_iff in Hn. destruct Hn as (e & <- & He). eauto.
      - destruct (LOG n Hn) as (file & E1 & Hf). exists (mkEntry None (Some frame) file). rewrite new_name.
        split; auto. right. split; [exists file; auto|]. rewrite <- E1. auto. }
    rewrite Forall_forall in FP.
    assert (LV: forall e, live root es' e <-> live root es e \/ (newent e /\ live root es' e)).
    { intros e. split.
      - intros [H1 H2]. destruct (FP e H1) as [H|[H H']]; [left; split; auto|right; split; auto; split; auto].
      - intros [[H1 H2]|[_ H]]; auto. split; auto.
        assert (Hin: In (name_in root e) (map (name_in root) es')).
        { rewrite <- El. apply HI. left. apply in_map. auto. }
        apply in_map_iff in Hin. destruct Hin as (e' & Ee & He').
        assert (e' = e); [|congruence].
        apply (name_inj root _ TU); auto; [|left; split; auto].
        destruct (FP e' He') as [H|[H _]]; [left; split; auto; congruence|right; auto]. }
    assert (LVn: forall e, newent e -> (live root es' e <-> In (name_in root e) (map fst log'))).
    { intros e Ne. split.
      - intros [H1 H2]. destruct (FP e H1) as [H|[_ H]]; auto. exfalso.
        destruct (O e) as (_ & f & Ef & _ & L); [split; auto|]. destruct Ne as (file & -> & _). injection Ef as <-. auto.
      - intros H. split; [|apply newent_live; auto].
        assert (Hin: In (name_in root e) (map (name_in root) es')) by (rewrite <- El; apply HI; auto).
        apply in_map_iff in Hin. destruct Hin as (e' & Ee & He').
        assert (e' = e); [|congruence].
        apply (name_inj root _ TU); auto.
        destruct (FP e' He') as [H'|[H' _]]; [left; split; auto; rewrite Ee; apply newent_live; auto|right; auto]. }
    assert (T': tidy root (live root es')).
    { eapply tidy_mono; [|exact TU]. intros e He. apply LV in He. tauto. }
    exists es'. auto 8.
  Qed.

  Lemma left_and_seen es rs fs os s log' listing :
    NoDup es -> tidy root (live root es) -> other_frames (live root es) frame ->
    run E (new_writer nothing) (map Append rs ++ map Finalize fs) = (os, s) ->
    crashed (puts (st_world s)) log' ->
    NoDup listing ->
    (forall n, In n listing <-> In n (map (name_in root) es) \/ In n (map fst log')) ->
    attempts (st_world s) = K ->
    exists out before,
      get_list_of_blobs None (fun _ => listing) [root] = Ok out /\
      get_list_of_blobs None (fun _ => map (name_in root) es) [root] = Ok before /\
      ((~ marked bdir log' /\ out = before) \/
       (marked bdir log' /\
        ((forall f, good_frame (live root es) None f -> str_leb f frame = true) -> out = map fst (data_of bdir log')) /\
        exists groups, Forall2 (holds E) groups (map snd (data_of bdir log')) /\
          concat groups = taken E (map Append rs ++ map Finalize fs) os)).
  Proof.
    intros Hnd T O Hrun Hcr Hl HI HKs.
    pose proof (left_names rs fs os s log' Hrun Hcr HKs) as LOG.
    destruct (extended es log' listing T O LOG Hl HI) as (es' & El & Nd' & T' & LV & LVn).
    assert (LN: log_names (st_world s)).
    { eapply log_names_run; [|exact Hrun]. exists []. repeat split; constructor. }
    destruct LN as (ns & En & Sn & Fn). destruct (crash_names _ _ Hcr) as (j & Ej).
    assert (NoBy: forall e, live root es' e -> e_by e = None).
    { intros e He. apply LV in He. destruct He as [He|[(file & -> & _) _]]; auto. apply O; auto. }
    assert (NP: forall l, (forall e, live root l e -> e_by e = None) -> no_prefixes (live root l)).
    { intros l H e e' b f f' He _ Hb. rewrite H in Hb by auto. discriminate. }
    destruct (folder_selection root es' Nd' T' (NP _ NoBy)) as (out & Eo & Lo).
    destruct (folder_selection root es Hnd T (NP _ (fun e He => proj1 (O e He)))) as (before & Eb & Lb).
    exists out, before. rewrite El. split; auto. split; auto.
    assert (Mk: marked bdir log' <-> live root es' (mkEntry None (Some frame) $"frame.complete")).
    { rewrite LVn by (exists $"frame.complete"; auto). rewrite new_name. reflexivity. }
    destruct (in_dec str_eq_dec (marker bdir) (map fst log')) as [M|M].
    - right. split; auto.
      assert (Dn: exists ns', map fst (data_of bdir log') = map bname ns' /\ StronglySorted Peano.lt ns' /\ Forall (fun n => (n < K)%nat) ns').
      { rewrite data_names, Ej. rewrite data_names in En. rewrite <- (firstn_skipn j (map fst (puts _))) in En.
        rewrite filter_app in En. remember (filter _ (firstn j _)) as fa. remember (filter _ (skipn j _)) as fb.
        rewrite HKs in Fn. clear -En Sn Fn. symmetry in En. apply map_eq_app in En. destruct En as (n1 & n2 & -> & <- & _).
        exists n1. split; auto. split; [apply (StronglySorted_app_inv _ _ _ Sn)|]. apply Forall_app in Fn. tauto. }
      destruct Dn as (ns' & En' & Sn' & Fn'). destruct (bname_sorted ns' Sn' Fn') as [S1 S2].
      split.
      + intros NW. pose proof (served_marked _ _ LV O NW (proj1 Mk M)) as SV. destruct Lo as (So & No & Io). apply (sorted_perm_unique _ str_leb_antisym); auto; [rewrite En'; auto|].
        apply NoDup_Permutation; [auto|rewrite En'; auto|]. intros b. rewrite Io. split.
        * intros (e & He & ->). apply SV in He. destruct He as (Ne & Le & Nc).
          apply LVn in Le; auto. rewrite data_names. apply filter_In. split; auto.
          apply negb_true_iff, str_eqb_neq. destruct Ne as (file & -> & _). rewrite new_name. unfold marker.
          change $"/frame.complete" with ($"/" ++ $"frame.complete"). intros C. apply app_inv_head in C. apply app_inv_head in C. auto.
        * intros Hb. rewrite data_names in Hb. apply filter_In in Hb. destruct Hb as [Hb Hm].
          apply negb_true_iff, str_eqb_neq in Hm.
          destruct (LOG b Hb) as (file & -> & Hf). exists (mkEntry None (Some frame) file). rewrite new_name. split; auto.
          apply SV. assert (Ne: newent (mkEntry None (Some frame) file)) by (exists file; auto).
          split; auto. split; [apply LVn; auto; rewrite new_name; auto|]. cbn. intros ->. apply Hm. reflexivity.
      + destruct (run_app E _ _ _ _ _ Hrun) as (o1 & o2 & s1 & _ & R1 & R2 & _).
        assert (Sh: shaped s1).
        { exists (puts (st_world s1)), []. rewrite app_nil_r. split; auto. split; [|split; [constructor|congruence]].
          eapply appends_unmarked; [|exact R1]. intros []. }
        destruct (finalizes_shaped _ _ _ _ Sh R2) as (a & b & Ep & Ma & Fb & Hb).
        rewrite Ep in Hcr. destruct (crash_marked a b log' Ma Fb Hcr M) as [Nb Ed].
        pose proof (run_inv E bdir ext W _ _ _ _ _ CF (inv_new E bdir) Hrun) as I.
        destruct I as (groups & p & HG & HC & HB & HF & HS). exists groups.
        rewrite Ep, data_of_app, (data_of_markers b), app_nil_r, data_of_unmarked in HG by auto.
        rewrite Ed. split; auto. rewrite (Hb Nb) in HB. destruct HB as [HB _]. cbn in HB.
        destruct p; [|discriminate]. rewrite app_nil_r in HC. exact HC.
    - left. split; auto. eapply lists_unique; [|exact Lo|exact Lb].
      apply served_unmarked; auto. intros H. apply M. apply Mk. exact H.
  Qed.

  Lemma all_or_nothing es rs fs os s log' listing :
    NoDup es -> tidy root (live root es) -> older_frames (live root es) frame ->
    run E (new_writer nothing) (map Append rs ++ map Finalize fs) = (os, s) ->
    crashed (puts (st_world s)) log' ->
    NoDup listing ->
    (forall n, In n listing <-> In n (map (name_in root) es) \/ In n (map fst log')) ->
    attempts (st_world s) = K ->
    exists out before,
      get_list_of_blobs None (fun _ => listing) [root] = Ok out /\
      get_list_of_blobs None (fun _ => map (name_in root) es) [root] = Ok before /\
      ((~ marked bdir log' /\ out = before) \/
       (marked bdir log' /\ out = map fst (data_of bdir log') /\
        exists groups, Forall2 (holds E) groups (map snd (data_of bdir log')) /\
          concat groups = taken E (map Append rs ++ map Finalize fs) os)).
  Proof.
    intros Hnd T O Hrun Hcr Hl HI HKs.
    destruct (left_and_seen es rs fs os s log' listing Hnd T (older_other _ _ O) Hrun Hcr Hl HI HKs) as (out & before & A & B & C).
    exists out, before. split; auto. split; auto. destruct C as [C|(M & C & G)]; auto.
    right. split; auto. split; auto. apply C. intros f. apply older_newest; auto.
  Qed.
End Batch.
