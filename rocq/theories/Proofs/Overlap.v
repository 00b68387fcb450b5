(** Batches which overlap. *)
From Coq Require Import Sorted Permutation.
From Verif.Base Require Import Py PyFacts Value.
From Verif.Model Require Import Frames Cursor Writers Reader.
From Verif.Spec Require Import Frames Json Writers Reader.
From Verif.Proofs Require Import Frames Writers Batch.
From Verif.Proofs Require RoundTrip.

Section Overlap.
  Context {R : Type} (root : str).
  Notation batch := (batch R).

  (** one more batch *)
  Lemma one_more es (b : batch) : ran root b -> NoDup es -> tidy root (live root es) ->
    other_frames (live root es) (b_frame b) ->
    exists es', NoDup es' /\ tidy root (live root es') /\
      (forall n, In n (map (name_in root) es') <-> In n (map (name_in root) es) \/ In n (map fst (b_left b))) /\
      (forall e, live root es' e -> live root es e \/ e_by e = None /\ e_frame e = Some (b_frame b)) /\
      (forall e, live root es e -> live root es' e) /\
      (live root es' (mkEntry None (Some (b_frame b)) $"frame.complete") <-> completed root b).
  Proof.
    intros (W & CF & PN & PE & FR & NB & Hrun & CL & Hcr) Nd T O.
    pose proof (left_names _ root (b_frame b) (b_ext b) _ W CF _ _ _ _ _ Hrun Hcr eq_refl) as LOG.
    set (listing := nodup str_eq_dec (map (name_in root) es ++ map fst (b_left b))).
    assert (HI: forall n, In n listing <-> In n (map (name_in root) es) \/ In n (map fst (b_left b))).
    { intros n. unfold listing. rewrite nodup_In, in_app_iff. reflexivity. }
    destruct (extended (b_setting b) root (b_frame b) (b_ext b) _ CL PN PE FR NB es (b_left b) listing T O LOG (NoDup_nodup _ _) HI)
      as (es' & El & Nd' & T' & LV & LVn).
    exists es'. rewrite <- El. split; auto. split; auto. split; auto. split; [|split].
    - intros e He. apply LV in He. destruct He as [He|[(file & -> & _) _]]; auto.
    - intros e He. apply LV. auto.
    - rewrite LVn by (exists $"frame.complete"; auto). rewrite new_name. reflexivity.
  Qed.

  (** what a folder and some batches hold *)
  Definition names_of (es : list entry) (bs : list batch) n : Prop :=
    In n (map (name_in root) es) \/ exists b, In b bs /\ In n (map fst (b_left b)).

  Lemma many bs : forall es, Forall (ran root) bs -> NoDup es -> tidy root (live root es) ->
    (forall b, In b bs -> other_frames (live root es) (b_frame b)) ->
    NoDup (map b_frame bs) -> (forall b b', In b bs -> In b' bs -> length (b_frame b) = length (b_frame b')) ->
    exists es', NoDup es' /\ tidy root (live root es') /\
      (forall n, In n (map (name_in root) es') <-> names_of es bs n) /\
      (forall e, live root es' e -> live root es e \/ exists b, In b bs /\ e_by e = None /\ e_frame e = Some (b_frame b)) /\
      (forall e, live root es e -> live root es' e) /\
      (forall b, In b bs -> live root es' (mkEntry None (Some (b_frame b)) $"frame.complete") -> completed root b).
  Proof.
    induction bs as [|b bs IH]; intros es F Nd T O Df Ln.
    - exists es. split; auto. split; auto. split; [|split; [auto|split; [auto|intros b []]]].
      intros n. unfold names_of. split; auto. intros [H|(b & [] & _)]; auto.
    - inversion F as [|? ? Rb F' ]; subst. inversion Df as [|? ? Nin Df']; subst.
      destruct (one_more es b Rb Nd T (O b (or_introl eq_refl))) as (es1 & Nd1 & T1 & N1 & L1 & K1 & C1).
      destruct (IH es1 F' Nd1 T1) as (es2 & Nd2 & T2 & N2 & L2 & K2 & C2); auto.
      { intros b' Hb' e He. destruct (L1 e He) as [He'|[E1 E2]].
        - apply (O b'); auto. right; auto.
        - split; auto. exists (b_frame b). split; auto. split; [apply Ln; [left; auto|right; auto]|].
          intros C. apply Nin. rewrite C. apply in_map. auto. }
      { intros x y Hx Hy. apply Ln; right; auto. }
      exists es2. split; auto. split; auto. split; [|split; [|split]].
      + intros n. rewrite N2. unfold names_of. rewrite N1. split.
        * intros [[H|H]|(b' & H & H')]; [auto|right; exists b; split; [left|]; auto|right; exists b'; split; [right|]; auto].
        * intros [H|(b' & [->|H] & H')]; auto. right; eauto.
      + intros e He. destruct (L2 e He) as [He'|(b' & H & H')]; [|right; exists b'; split; [right|]; auto].
        destruct (L1 e He') as [H|H]; auto. right. exists b. split; [left|]; auto.
      + auto.
      + intros b' [->|H] Hl; auto. apply C1.
        destruct (L2 _ Hl) as [H|(b'' & H & _ & E')]; auto. exfalso. apply Nin. cbn in E'. injection E' as ->. apply in_map; auto.
  Qed.

  (** the order of a listing does not matter *)
  Lemma any_listing es listing : NoDup es -> tidy root (live root es) -> (forall e, live root es e -> e_by e = None) ->
    NoDup listing -> (forall n, In n listing <-> In n (map (name_in root) es)) ->
    get_list_of_blobs None (fun _ => listing) [root] = get_list_of_blobs None (fun _ => map (name_in root) es) [root].
  Proof.
    intros Nd T NB Nl HI.
    destruct (pick_entries root (fun e => In e es) listing Nl) as (es' & El & Nd' & FP).
    { intros n Hn. apply HI, in_map_iff in Hn. destruct Hn as (e & <- & He). eauto. }
    rewrite Forall_forall in FP.
    assert (L: forall e, live root es' e <-> live root es e).
    { intros e. split; [intros [H1 H2]; split; auto|]. intros [H1 H2]. split; auto.
      assert (Hin: In (name_in root e) (map (name_in root) es')) by (rewrite <- El; apply HI, in_map; auto).
      apply in_map_iff in Hin. destruct Hin as (e' & Ee & He').
      assert (e' = e); [|congruence]. apply (name_inj root _ T); auto; split; auto. rewrite Ee. auto. }
    assert (T': tidy root (live root es')) by (eapply tidy_mono; [|exact T]; intros e He; apply L; auto).
    assert (NP: forall l, (forall e, live root l e -> e_by e = None) -> no_prefixes (live root l)).
    { intros l H e e' b f f' He _ Hb. rewrite H in Hb by auto. discriminate. }
    destruct (folder_selection root es' Nd' T') as (out & Eo & Lo).
    { apply NP. intros e He. apply NB, L, He. }
    destruct (folder_selection root es Nd T (NP _ NB)) as (before & Eb & Lb).
    rewrite El, Eo, Eb. f_equal. eapply lists_unique; [|exact Lo|exact Lb].
    assert (LX: forall P Q : entry -> Prop, (forall e, P e <-> Q e) -> forall e, served P e -> served Q e).
    { clear. intros P Q H e (H1 & H2 & H3). split; [apply H; auto|]. split.
      { unfold readable_part in *. destruct (e_by e) as [[b f]|]; intros; [eapply H2; [apply H|]; eauto|apply H2, H; auto]. }
      intros (e0 & f & A & B & C). destruct H3 as (f' & D & [[G1 G2] G3] & I); [exists e0, f; split; [apply H|]; auto|].
      assert (HF: forall k f s, has_file P k f s <-> has_file Q k f s) by (intros k g x; apply H).
      exists f'. split; auto. split; auto. split; [split; [apply HF; auto|rewrite <- HF; auto]|].
      intros g [X Y]. apply G3. split; [apply HF; auto|rewrite HF; auto]. }
    intros e. split; apply LX; [auto|]. intros e0; symmetry; auto.
  Qed.

  Section Batches.
    Context (es : list entry) (Nd : NoDup es) (T : tidy root (live root es)).
    Context (NB : forall e, live root es e -> e_by e = None).

    Lemma none_completed bs : forall listing, Forall (ran root) bs ->
      (forall b, In b bs -> other_frames (live root es) (b_frame b)) ->
      NoDup (map b_frame bs) -> (forall b b', In b bs -> In b' bs -> length (b_frame b) = length (b_frame b')) ->
      NoDup listing -> (forall n, In n listing <-> names_of es bs n) ->
      (forall b, In b bs -> ~ completed root b) ->
      get_list_of_blobs None (fun _ => listing) [root] = get_list_of_blobs None (fun _ => map (name_in root) es) [root].
    Proof.
      induction bs as [|b bs IH]; intros listing F O Df Ln Nl HI NC.
      - apply any_listing; auto. intros n. rewrite HI. unfold names_of. split; auto. intros [H|(b & [] & _)]; auto.
      - inversion F as [|? ? Rb F']; subst. inversion Df as [|? ? Nin Df']; subst.
        destruct (many bs es F' Nd T) as (es1 & Nd1 & T1 & N1 & L1 & K1 & C1); auto.
        { intros b' Hb'. apply O. right; auto. }
        { intros x y Hx Hy. apply Ln; right; auto. }
        destruct Rb as (W & CF & PN & PE & FR & NBk & Hrun & CL & Hcr).
        edestruct (left_and_seen (b_setting b) root (b_frame b) (b_ext b) _ W CF CL PN PE FR NBk es1 (b_records b) (b_finalizes b) (b_outcomes b) (b_state b) (b_left b) listing Nd1 T1)
          as (out & before & Eo & Eb & C); [|exact Hrun|exact Hcr|auto| |reflexivity|].
        { intros e He. destruct (L1 e He) as [He'|(b' & H & E1 & E2)]; [apply (O b); auto; left; auto|].
          split; auto. exists (b_frame b'). split; auto. split; [apply Ln; [right|left]; auto|].
          intros C. apply Nin. rewrite <- C. apply in_map; auto. }
        { intros n. rewrite HI, N1. unfold names_of. split.
          - intros [H|(b' & [->|H] & H')]; auto. left. right. eauto.
          - intros [[H|(b' & H & H')]|H]; [auto|right; exists b'; split; [right|]; auto|right; exists b; split; [left|]; auto]. }
        destruct C as [[_ ->]|[M _]]; [|exfalso; apply (NC b); auto; left; auto].
        rewrite Eo, <- Eb.
        rewrite <- (any_listing es1 (nodup str_eq_dec (map (name_in root) es1))); auto.
        2:{ intros e He. destruct (L1 e He) as [H|(b' & _ & H & _)]; auto. }
        2:{ apply NoDup_nodup. }
        2:{ intros n. apply nodup_In. }
        apply IH; auto.
        + intros b' Hb'. apply O; right; auto.
        + intros x y Hx Hy. apply Ln; right; auto.
        + apply NoDup_nodup.
        + intros n. rewrite nodup_In. apply N1.
        + intros b' Hb'. apply NC; right; auto.
    Qed.

    Lemma newest_completed l1 b l2 listing :
      let bs := l1 ++ b :: l2 in
      Forall (ran root) bs ->
      (forall b, In b bs -> other_frames (live root es) (b_frame b)) ->
      (forall f, good_frame (live root es) None f -> str_leb f (b_frame b) = true) ->
      NoDup (map b_frame bs) -> (forall b b', In b bs -> In b' bs -> length (b_frame b) = length (b_frame b')) ->
      NoDup listing -> (forall n, In n listing <-> names_of es bs n) ->
      completed root b -> (forall b', In b' bs -> completed root b' -> str_leb (b_frame b') (b_frame b) = true) ->
      get_list_of_blobs None (fun _ => listing) [root] = Ok (map fst (data_of (b_dir root b) (b_left b))) /\
      exists groups, Forall2 (holds (b_setting b)) groups (map snd (data_of (b_dir root b) (b_left b))) /\
        concat groups = taken (b_setting b) (b_calls b) (b_outcomes b).
    Proof.
      intros bs F O Og Df Ln Nl HI Cb Best.
      assert (Ib: forall x, In x (l1 ++ l2) -> In x bs) by (intros x; unfold bs; rewrite !in_app_iff; cbn; tauto).
      assert (Bb: In b bs) by (unfold bs; rewrite in_app_iff; cbn; auto).
      unfold bs in Df. rewrite map_app in Df. cbn [map] in Df. pose proof (NoDup_remove_1 _ _ _ Df) as Df'.
      pose proof (NoDup_remove_2 _ _ _ Df) as Nin. rewrite <- map_app in Df', Nin.
      rewrite Forall_forall in F.
      destruct (many (l1 ++ l2) es) as (es1 & Nd1 & T1 & N1 & L1 & K1 & C1); auto.
      { apply Forall_forall. auto. }
      destruct (F b Bb) as (W & CF & PN & PE & FR & NBk & Hrun & CL & Hcr).
      edestruct (left_and_seen (b_setting b) root (b_frame b) (b_ext b) _ W CF CL PN PE FR NBk es1 (b_records b) (b_finalizes b) (b_outcomes b) (b_state b) (b_left b) listing Nd1 T1)
        as (out & before & Eo & Eb & C); [|exact Hrun|exact Hcr|auto| |reflexivity|].
      { intros e He. destruct (L1 e He) as [He'|(b' & H & E1 & E2)]; [apply (O b); auto|].
        split; auto. exists (b_frame b'). split; auto. split; [apply Ln; auto|].
        intros C. apply Nin. rewrite <- C. apply in_map; auto. }
      { intros n. rewrite HI, N1. unfold names_of, bs. split.
        - intros [H|(b' & H & H')]; auto. rewrite in_app_iff in H. cbn in H.
          destruct H as [H|[->|H]]; auto; left; right; exists b'; rewrite in_app_iff; auto.
        - intros [[H|(b' & H & H')]|H]; [auto|right; exists b'; split; [apply Ib|]; auto|right; exists b; split; auto]. }
      destruct C as [[M _]|[_ [C G]]]; [exfalso; apply M; auto|]. split; auto. rewrite Eo, C; auto.
      intros f [G1 G2]. destruct (L1 _ G1) as [H|(b' & H & _ & E')].
      - apply Og. split; auto. intros X. apply G2. apply K1. exact X.
      - cbn in E'. injection E' as ->. apply Best; auto.
    Qed.
  End Batches.

  Lemma completed_dec (b : batch) : {completed root b} + {~ completed root b}.
  Proof. apply in_dec, str_eq_dec. Qed.

  Lemma newest_exists (bs : list batch) :
    (forall b, In b bs -> ~ completed root b) \/
    exists b, In b bs /\ completed root b /\ forall b', In b' bs -> completed root b' -> str_leb (b_frame b') (b_frame b) = true.
  Proof.
    induction bs as [|b bs IH]; [left; intros b []|].
    destruct (completed_dec b) as [C|C].
    - right. destruct IH as [N|(w & Iw & Cw & Bw)].
      + exists b. split; [left; auto|]. split; auto. intros b' [->|H] C'; [apply str_leb_refl|exfalso; eapply N; eauto].
      + destruct (str_leb (b_frame b) (b_frame w)) eqn:E.
        * exists w. split; [right; auto|]. split; auto. intros b' [->|H] C'; auto.
        * assert (L: str_leb (b_frame w) (b_frame b) = true) by (destruct (str_leb_total (b_frame w) (b_frame b)); congruence).
          exists b. split; [left; auto|]. split; auto. intros b' [->|H] C'; [apply str_leb_refl|].
          eapply str_leb_trans; [apply Bw; auto|auto].
    - destruct IH as [N|(w & Iw & Cw & Bw)].
      + left. intros b' [->|H]; auto.
      + right. exists w. split; [right; auto|]. split; auto. intros b' [->|H] C'; [exfalso; auto|auto].
  Qed.

  Lemma overlapping es bs listing :
    NoDup es -> tidy root (live root es) -> bs <> [] -> Forall (ran root) bs ->
    (forall b, In b bs -> older_frames (live root es) (b_frame b)) -> frames_apart bs ->
    NoDup listing -> (forall n, In n listing <-> names_of es bs n) ->
    ((forall b, In b bs -> ~ completed root b) /\
     get_list_of_blobs None (fun _ => listing) [root] = get_list_of_blobs None (fun _ => map (name_in root) es) [root]) \/
    (exists b, newest_complete root bs b /\
     get_list_of_blobs None (fun _ => listing) [root] = Ok (map fst (data_of (b_dir root b) (b_left b))) /\
     exists groups, Forall2 (holds (b_setting b)) groups (map snd (data_of (b_dir root b) (b_left b))) /\
       concat groups = taken (b_setting b) (b_calls b) (b_outcomes b)).
  Proof.
    intros Nd T Hne F O [Df Ln] Nl HI.
    assert (NB: forall e, live root es e -> e_by e = None).
    { intros e He. destruct bs as [|b bs]; [congruence|]. apply (O b (or_introl eq_refl) e He). }
    assert (O': forall b, In b bs -> other_frames (live root es) (b_frame b)) by (intros b Hb; apply older_other; auto).
    destruct (newest_exists bs) as [N|(b & Ib & Cb & Bb)].
    - left. split; auto. eapply none_completed; eauto.
    - right. exists b. destruct (in_split _ _ Ib) as (l1 & l2 & ->).
      split.
      + split; auto. split; auto. intros b' H' C' Nf. pose proof (Bb b' H' C') as L. unfold str_leb in L. unfold str_ltb.
        destruct (str_compare (b_frame b') (b_frame b)) eqn:Ec; auto.
        exfalso. apply Nf, str_compare_eq. auto.
      + apply (newest_completed es Nd T l1 b l2 listing); auto. intros f. apply older_newest. auto.
  Qed.
End Overlap.

(** ... and a read *)
Lemma overlapping_read parse unzstd other read_blob (fits : batch value -> value -> Prop) (image : batch value -> value -> value) (columns : value -> result value) (filters : value -> result bool) cf pf root es (bs : list (batch value)) listing hash loads n :
  NoDup es -> tidy root (live root es) -> bs <> [] -> Forall (ran root) bs ->
  (forall b, In b bs -> older_frames (live root es) (b_frame b)) -> frames_apart bs ->
  NoDup listing ->
  (forall n, In n listing <-> In n (map (name_in root) es) \/ exists b, In b bs /\ In n (map fst (b_left b))) ->
  (forall b, In b bs -> read_as parse unzstd other (b_setting b) (b_ext b) (fits b) (image b) /\ relative_folder (b_dir root b) /\
     reads_log read_blob (b_left b) /\
     (forall r, In r (taken (b_setting b) (b_calls b) (b_outcomes b)) -> fits b r /\ applies columns filters cf pf (image b r)) /\
     taken (b_setting b) (b_calls b) (b_outcomes b) <> []) ->
  let read store := read_records hash loads (fun _ => get_list_of_blobs None (fun _ => store) [root]) 0
                      (blob_records parse unzstd other read_blob columns filters None) NoCursor n in
  ((forall b, In b bs -> ~ completed root b) /\ read listing = read (map (name_in root) es)) \/
  (exists b c, newest_complete root bs b /\ read listing = Ok (firstn n (filter pf (map cf (map (image b) (taken (b_setting b) (b_calls b) (b_outcomes b))))), c)).
Proof.
  intros Nd T Hne F O A Nl HI HB read.
  destruct (overlapping root es bs listing Nd T Hne F O A Nl HI) as [[N Eq]|(b & Nb & Eb & groups & HG & Hg)].
  - left. split; auto. unfold read, read_records, find_blobs. rewrite Eq. reflexivity.
  - right. exists b. assert (Ib: In b bs) by apply Nb. rewrite Forall_forall in F.
    destruct (F b Ib) as (W & CF & PN & PE & FR & NBk & Hrun & CL & Hcr).
    destruct (HB b Ib) as ((e_ & x_ & HX & HDc) & RF & RL & RR & RN).
    destruct (RoundTrip.read_left parse unzstd other read_blob (b_setting b) root (b_frame b) (b_ext b) e_ x_ (fits b) (image b) W HX HDc RF columns filters cf pf
                _ _ _ (b_left b) groups hash loads n CF Hrun CL Hcr RL RR RN HG Hg) as (c & Ec).
    exists c. split; auto. unfold read, read_records, find_blobs in *. rewrite Eb. exact Ec.
Qed.
