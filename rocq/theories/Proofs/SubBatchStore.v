(** Proofs: a batch for a part of a day, possibly killed, stored by an adapter and read back. *)
From Coq Require Import Sorted.
From Verif.Base Require Import Py PyFacts Value ValueFacts.
From Verif.Model Require Import Paths Dates Frames ReadRange Cursor Storage Writers Adapters Reader.
From Verif.Spec Require Import Paths Dates Frames Cursor Json Writers Reader StreamField StreamRead.
From Verif.Spec Require Adapters.
From Verif.Spec Require Import System StreamStore SubBatch.
From Verif.Proofs Require Import Paths Dates Writers Adapters AdaptersUse System.
From Verif.Proofs Require Batch BatchFolder RoundTrip ReadRange Frames StreamRange Repeats SystemBatch BatchRange SubBatch.

(** ** Names *)
Lemma fill_same_day p at_ at' : (forall g, In g [Hour; Minute; Second] -> ~ In g p) -> same_day at_ at' -> fill p at_ = fill p at'.
Proof.
  intros H (Ey & Em & Ed). unfold fill. f_equal. apply map_ext_in. intros g Hg.
  destruct g; cbn [seg_value]; try congruence; exfalso; eapply H; try exact Hg; cbn; tauto.
Qed.
Lemma as_at_no_b w : ~ In "b"%char (as_at_text w).
Proof. intros H. apply BatchFolder.as_at_plain in H as [H|H]; [discriminate|]. cbn in H. repeat (destruct H as [H|H]; [discriminate|]). destruct H. Qed.

Section Whole.
  Context (parse : str -> result value) (unzstd : str -> result str)
          (other : str -> str -> generator value) (hash : str -> Z) (loads : str -> result cdict).
  Context (k : kind) (E : setting value) (ext : str) (names : list str) (folders : list (list seg)) (field : str) (sub : list seg)
          (texts : list str) (y m d : Z) (at_ w : moment) (rnd ds : str) (i : inner).
  Hypothesis HN : folder_names names.
  Hypothesis HP : daily_partitions folders.
  Hypothesis HF : field_name field.
  Hypothesis HS : date_fields sub.
  Let parts := folders ++ names_part field sub.
  Hypothesis HT : written_as parts texts.
  Hypothesis SD : same_day at_ (a_day y m d).
  Hypothesis HJ : data_file_extension (extension (s_format E) ext).
  Hypothesis PE : plain ext.
  Hypothesis PN : plain (s_node E).
  Hypothesis CF : clean_failures E.
  Hypothesis Hds : new_frame_id rnd (join $"/" names) texts w at_ = Ok ds.
  Hypothesis Hfile : inner_filename (s_format E) ext ds = Ok (s_filename E).
  Hypothesis Hinner : new_inner k (s_format E) ext ds = Ok i.
  Let dataset := join $"/" names.
  Let t := dataset_template dataset folders.
  Let root := day_folder t (y, m, d).
  Let frame := as_at_text w.
  Let one := fill sub at_.
  Let dn := day_names names folders (a_day y m d).
  Let pn := dn ++ [$"by_" ++ field; field ++ $"=" ++ one].
  Let x := extension (s_format E) ext.
  Notation proot := (SubBatch.proot root field one).
  Notation pdir := (SubBatch.pdir root field one frame).
  Hypothesis NB : contains $"BACKOUT" pdir = false.
  Hypothesis NR : forall c, In c (split "/"%char root) -> endswith ($"by_" ++ field) c = false.

  Lemma one_kept : kept_whole one.
  Proof.
    intros c H. unfold one, fill in H. apply in_concat in H as (v & Hv & H). apply in_map_iff in Hv as (g & <- & Hg).
    apply digit_value in H as [[s ->]|H]; [exfalso; eapply HS; eauto|]. rewrite H. now rewrite orb_true_r.
  Qed.
  Lemma parts_ok : parts <> [] /\ forall p, In p parts -> partition_folder p.
  Proof.
    clear NB NR. destruct (daily_folders folders HP) as [N G]. split; [unfold parts; destruct folders; [congruence|discriminate]|].
    assert (K : forall c, In c field -> c <> "{"%char /\ c <> "}"%char /\ c <> "/"%char /\ c <> "."%char).
    { intros c Hc. apply (SubBatch.field_kept field HF) in Hc. apply SubBatch.kept_char in Hc. tauto. }
    intros p. unfold parts, names_part. rewrite in_app_iff. intros [H|[<-|[<-|[]]]]; [auto|split|split].
    - intros s [Q|[]]. assert (Qs : s = $"by_" ++ field) by congruence. clear Q. subst s. unfold no_braces. rewrite !in_app_iff. cbn [In list_ascii_of_string].
      split; [split|split]; (intros [H|H]; [intuition discriminate|apply K in H; tauto]).
    - exists (Lit ($"by_" ++ field)). split; [now left|discriminate].
    - intros s [Q|H]; [|exfalso; eapply HS; eauto]. assert (Qs : s = field ++ $"=") by congruence. clear Q. subst s. unfold no_braces. rewrite !in_app_iff. cbn [In list_ascii_of_string].
      split; [split|split]; (intros [H|H]; [apply K in H; tauto|intuition discriminate]).
    - exists (Lit (field ++ $"=")). split; [now left|]. destruct field; discriminate.
  Qed.
  Lemma part_names : day_names names parts at_ = pn.
  Proof.
    unfold day_names, parts, pn, dn, day_names, names_part. rewrite map_app, <- app_assoc. f_equal. f_equal.
    - apply map_ext_in. intros p Hp. apply fill_same_day; auto. intros g Hg I. destruct HP as (_ & _ & N).
      apply (N g Hg). apply in_concat. eauto.
    - cbn [map]. unfold fill. cbn [map concat seg_value]. rewrite app_nil_r. unfold one, fill. rewrite <- app_assoc. reflexivity.
  Qed.
  Lemma pn_ne : pn <> [].
  Proof. unfold pn. destruct dn; discriminate. Qed.
  Lemma dn_ne : dn <> [].
  Proof. apply day_names_ne. exact HP. Qed.
  Lemma root_join : root = join $"/" dn.
  Proof. apply day_root; auto. Qed.
  Lemma proot_join : proot = join $"/" pn.
  Proof.
    unfold SubBatch.proot, pn. rewrite join_app by (apply dn_ne || discriminate). rewrite root_join. unfold part_path.
    cbn [app join list_ascii_of_string]. repeat (rewrite <- app_assoc; cbn [app]). reflexivity.
  Qed.
  Lemma dir_join : pdir = join $"/" (pn ++ [frame]).
  Proof. unfold SubBatch.pdir. rewrite join_app by (apply pn_ne || discriminate). rewrite proot_join. reflexivity. Qed.

  Lemma writer_facts : exists b fs, pn ++ [frame] = b :: fs /\ folder (b :: fs) /\
    s_filename E = join $"/" (b :: fs) ++ $"/" ++ $"{stem}" ++ x /\ writer_at b fs k x i.
  Proof.
    clear NB NR.
    pose proof (any_frame_folder_ok names HN parts parts_ok at_ w) as F. rewrite part_names in F. fold frame in F.
    destruct (pn ++ [frame]) as [|b fs] eqn:Ed; [destruct pn; discriminate|]. exists b, fs. split; auto. split; auto.
    pose proof Hds as Hds'. rewrite (any_frame_id names HN parts parts_ok texts rnd w _ HT) in Hds'. rewrite part_names in Hds'. fold frame in Hds'. rewrite Ed in Hds'.
    assert (Eds : ds = join $"/" (b :: fs) ++ $"/") by congruence. clear Hds'.
    assert (Rl : relative (join $"/" (b :: fs) ++ $"/")).
    { intros r Er. pose proof (base_relative b fs F) as Rl.
      destruct (join $"/" (b :: fs)) as [|c j] eqn:Ej.
      - apply (join_nonempty (b :: fs)); auto; [discriminate|]. apply F.
      - cbn [app] in Er. injection Er as -> _. apply (Rl j). reflexivity. }
    assert (Cm : components_of (join $"/" (b :: fs) ++ $"/") = b :: fs).
    { rewrite BatchFolder.components_drop_slash. apply (base_components b fs F). }
    destruct (new_writer_at b fs F k (s_format E) ext _ Rl Cm) as (i1 & E1 & W1 & _).
    rewrite <- Eds in E1. assert (i1 = i) by congruence. subst i1.
    destruct (new_writer_at b fs F Disk (s_format E) ext _ Rl Cm) as (i2 & E2 & (_ & _ & W2) & _).
    split; [|exact W1]. rewrite <- Eds in E2.
    destruct W2 as [[_ N]|[W2 _]]; [congruence|]. unfold x. rewrite <- W2.
    unfold inner_filename in Hfile. unfold new_inner in E2.
    destruct (get_parts ds) as [[[[bk p] st] su]|]; [|discriminate]. cbn [bind] in *.
    apply (f_equal (fun r => match r with Ok j => i_filename j | Raise _ => [] end)) in E2. cbn [i_filename] in E2. congruence.
  Qed.
  Lemma fit : fit_names (s_format E) ext (s_node E).
  Proof. apply SystemBatch.fit; auto. Qed.
  Lemma x_plain : plain x.
  Proof. exact (SystemBatch.x_plain parse unzstd other hash loads k E ext ds i HJ PE Hfile Hinner). Qed.

  Lemma writes : writes_in E pdir x.
  Proof.
    destruct writer_facts as (b & fs & Ed & F & Hf & _). rewrite dir_join, Ed.
    pose proof x_plain as Px. split; [auto|].
    split; [apply (base_no_brace b fs F)|]. split; [apply SystemBatch.plain_no; auto|]. split; [apply SystemBatch.plain_no; auto|].
    split; [|split; apply SystemBatch.plain_no; auto].
    rewrite <- Ed. rewrite join_app by (apply pn_ne || discriminate).
    destruct (exists_last (l := frame)) as (p & c & Ep); [unfold frame; discriminate|].
    exists (join $"/" pn ++ $"/" ++ p), c. cbn [join]. rewrite Ep, <- !app_assoc. split; auto.
    intros ->. destruct (BatchFolder.as_at_component w) as ((_ & _ & C) & _). apply C. fold frame. rewrite Ep. apply in_app_iff. right. left. auto.
  Qed.
  Lemma relative_dir : relative_folder pdir.
  Proof.
    destruct writer_facts as (b & fs & Ed & F & _). split.
    - rewrite dir_join, Ed. apply (base_relative b fs F).
    - exists "a"%char. split; [|split; discriminate]. unfold SubBatch.pdir. rewrite !in_app_iff. right. right. left. reflexivity.
  Qed.
  Lemma frame_ok : ~ In "/"%char frame /\ startswith $"as_at_" frame = true.
  Proof. split; [apply (BatchFolder.as_at_component w)|]. unfold frame, as_at_text. reflexivity. Qed.
  Lemma frame_by : endswith ($"by_" ++ field) frame = false.
  Proof.
    destruct (endswith _ frame) eqn:Q; [|reflexivity]. apply endswith_iff in Q as [z Hz]. exfalso.
    apply (as_at_no_b w). fold frame. rewrite Hz. apply in_app_iff. right. now left.
  Qed.

  Section Read.
    Context (now : datetime) (hh mm ss hh' mm' ss' : Z) (rnd' : str) (n : nat).
    Context (columns : value -> result value) (filters : value -> result bool) (cf : value -> value) (pf : value -> bool).
    Hypothesis V : valid_date y m d.
    Hypothesis T1 : valid_time hh mm ss.
    Hypothesis T2 : valid_time hh' mm' ss'.
    Let start := of_fields y m d hh mm ss.
    Let stop := of_fields y m d hh' mm' ss'.
    Hypothesis LE : (start <= stop)%Z.
    Let hours := range_hours now start stop.

    Lemma listing_day s b : proper k s -> In b (listing k rnd' hours root s) <->
        startswith (root ++ $"/") b = true /\ endswith $"/" b = false /\ exists data, holds_at k s b data.
    Proof.
      intros P. pose proof (day_folder_ok names HN folders HP (a_day y m d)) as F. fold dn in F.
      destruct (listed_folder k rnd' hours dn s F P) as (out & Eo & I & _); [intros _; apply some_hours; auto|].
      rewrite <- root_join in *. unfold listing. rewrite Eo. apply I.
    Qed.
    Lemma daily : daily_template t.
    Proof. apply template_daily; auto. Qed.

    Notation content s := (blob_records parse unzstd other (fun name => get_blob_bytes k name s) columns filters None).
    Lemma read_day asked s : read_asked parse unzstd other columns filters hash loads k now rnd' t asked start stop n s =
      read_records hash loads (fun _ => get_list_of_blobs asked (fun _ => listing k rnd' hours root s) [root]) 0 (content s) NoCursor n.
    Proof.
      unfold read_asked. fold hours. unfold read_records, find_blobs, start, stop.
      rewrite (list_day_asked asked t _ now rnd' y m d hh mm ss hh' mm' ss' daily V T1 T2 LE). reflexivity.
    Qed.

    Context (es : list entry) (rs : list value) (fs : list bool) (os : list outcome) (st : state (R:=value))
            (log' : list (str * str)) (ops : list operation) (s0 : stored).
    Hypothesis P0 : proper k s0.
    Hypothesis ND : NoDup es.
    Hypothesis L0 : forall q, In q (listing k rnd' hours root s0) <-> In q (map (name_in root) es).
    Hypothesis TD : tidy root (live root es).
    Hypothesis PB : parts_before (live root es) field one frame.
    Hypothesis HR : run E (new_writer nothing) (map Append rs ++ map Finalize fs) = (os, st).
    Hypothesis GC : good_clock E (attempts (st_world st)).
    Hypothesis CR : crashed (puts (st_world st)) log'.
    Hypothesis HO : operations_of E log' ops.
    Let taken_ := taken E (map Append rs ++ map Finalize fs) os.
    Hypothesis TK : k = Gcs -> taken_ <> [].

    Lemma root_ok c : In c (split "/"%char root) ->
      startswith $"by_" c = false /\ contains $"as_at_" c = false /\ startswith $"frame.complete" c = false.
    Proof. intros H. destruct (t_root _ _ TD c H) as ((A & _) & B & C). auto. Qed.

    Lemma blob_first : k = Gcs -> starts_with_blob ops.
    Proof.
      clear NB NR. intros G. pose proof (TK G) as TK_. clear G.
      destruct ops as [|[tm data|tm] ops'] eqn:Eo; cbn [starts_with_blob]; auto.
      inversion HO as [|e ? l1 ? He HO1]; subst.
      assert (Hj : exists j, map fst ((completion_path (s_filename E), []) :: l1) = firstn j (map fst (puts (st_world st)))) by (eapply Batch.crash_names; eauto). destruct Hj as [j Hj]. cbn [map fst] in Hj.
      destruct (puts (st_world st)) as [|[n1 d1] log] eqn:Ep; [destruct j; discriminate|].
      destruct j as [|j]; [discriminate|]. cbn [map fst firstn] in Hj. injection Hj as Hn _.
      destruct writer_facts as (b & fs' & Ed & F & Hf & _).
      assert (Mk : n1 = marker pdir).
      { rewrite <- Hn. rewrite (marker_named E ext b fs' F fit Hf). unfold marker. rewrite dir_join, Ed. reflexivity. }
      destruct (SubBatch.data_groups E root field one frame x writes CF rs fs os st [(n1, d1)]) as (groups & HG & Ht); auto.
      - exists 1%nat. left. rewrite Ep. reflexivity.
      - unfold marked. cbn [map fst In]. left. auto.
      - exfalso. unfold data_of in HG. cbn [filter fst] in HG. rewrite Mk, str_eqb_refl in HG. cbn [negb map] in HG.
        inversion HG; subst groups. cbn [concat] in Ht. apply TK_. auto.
    Qed.

    Lemma operated : exists i' s1, operate k i (s_node E) ops s0 = Ok (i', s1).
    Proof.
      destruct writer_facts as (b & fs' & Ed & F & Hf & WA).
      destruct (operate_seq k E ext b fs' F fit Hf ops log' i s0 HO WA (fun G => or_intror (blob_first G)) P0)
        as (i1 & s1 & E1 & _). eauto.
    Qed.

    (** the blobs of the parts are not those of the batch *)
    Lemma untouched e v q : live root es e -> e_by e = Some (part field v) -> In q (map fst log') ->
      components_of (name_in root e) <> components_of q.
    Proof.
      intros Hp Eb' Hq. destruct writer_facts as (b & fs' & Ed & F & Hf & _).
      assert (LN : exists file, component file /\ q = join $"/" (b :: fs') ++ $"/" ++ file).
      { pose proof fit as Fit. clear - HO F Hf Fit Hq. induction HO as [|e o l1 l2 He HO1 IH]; [destruct Hq|].
        apply (op_named E ext b fs' F Fit Hf) in He as [He _]. destruct Hq as [<-|Hq]; [|auto].
        exists (file_of_op E ext o). split; [|auto]. apply (file_of_op_ok E ext Fit). }
      destruct LN as (file & Cf & ->).
      destruct (PB e Hp) as (v' & f & Eb & Kv & Lv & Ef & Lf & Hlt).
      assert (Ep : part field v' = part field v) by congruence. apply SubBatch.part_inj in Ep. subst v'. clear Eb'.
      destruct (t_frame _ _ TD e f Hp Ef) as (Pf & Sf & _).
      assert (Cfr : component f).
      { split; [intros ->; discriminate|]. split; [intros ->; discriminate|exact Pf]. }
      pose proof (day_folder_ok names HN folders HP (a_day y m d)) as FD. fold dn in FD.
      assert (CD : components_of (join $"/" dn) = dn) by (apply components_join; intros c Hc; apply FD; auto).
      assert (NS : forall u, kept_whole u -> ~ In "/"%char u).
      { intros u Hu H. apply Hu in H. discriminate. }
      assert (C1 : component ($"by_" ++ field)).
      { split; [discriminate|]. split; [discriminate|]. rewrite in_app_iff. intros [H|H]; [cbn in H; intuition discriminate|].
        exact (NS field (SubBatch.field_kept field HF) H). }
      assert (C2 : forall u, kept_whole u -> component (field ++ $"=" ++ u)).
      { intros u Hu. split; [destruct field; discriminate|]. split.
        - intros Q. assert (I : In "="%char $".") by (rewrite <- Q; rewrite !in_app_iff; right; left; now left). destruct I as [I|[]]. discriminate.
        - rewrite !in_app_iff. intros [H|[H|H]]; [exact (NS field (SubBatch.field_kept field HF) H)|cbn in H; intuition discriminate|exact (NS u Hu H)]. }
      assert (Q1 : components_of (name_in root e) = dn ++ ($"by_" ++ field) :: (field ++ $"=" ++ v) :: f :: components_of (e_file e)).
      { unfold name_in, local_parts. rewrite Eb, Ef. unfold part. cbn [app join].
        rewrite root_join. rewrite !components_app_slash, CD.
        change ("b"%char :: "y"%char :: "_"%char :: field) with ($"by_" ++ field).
        rewrite (components_single ($"by_" ++ field)) by auto.
        rewrite (components_single f) by auto. 
        pose proof (components_single _ (C2 v Kv)) as C3. rewrite C3. reflexivity. }
      assert (Q2 : components_of (join $"/" (b :: fs') ++ $"/" ++ file) = dn ++ ($"by_" ++ field) :: (field ++ $"=" ++ one) :: frame :: components_of file).
      { rewrite <- Ed, components_app_slash, components_join.
        - unfold pn. rewrite <- !app_assoc. reflexivity.
        - rewrite Ed. intros c Hc. apply F. exact Hc. }
      rewrite Q1, Q2. intros Q. apply app_inv_head in Q.
      injection Q as Q3 Q4 _. apply app_inv_head in Q3. injection Q3 as Q3. subst v.
      specialize (Hlt eq_refl). rewrite Q4 in Hlt. unfold frame, str_ltb in Hlt. rewrite str_compare_refl in Hlt. discriminate.
    Qed.

    Lemma stored_after i' s1 : operate k i (s_node E) ops s0 = Ok (i', s1) ->
      proper k s1 /\
      (forall q, (exists data, holds_at k s1 q data) <-> (exists data, holds_at k s0 q data) \/ In q (map fst log')) /\
      (forall q, (forall p, In p (map fst log') -> components_of q <> components_of p) -> get_blob_bytes k q s1 = get_blob_bytes k q s0) /\
      folder (pn ++ [frame]) /\
      (forall q, In q (map fst log') -> exists file, component file /\ Spec.Adapters.with_extension file /\ q = join $"/" (pn ++ [frame]) ++ $"/" ++ file).
    Proof.
      clear NB NR. intros Hop. destruct writer_facts as (b & fs' & Ed & F & Hf & WA).
      destruct (operate_seq k E ext b fs' F fit Hf ops log' i s0 HO WA (fun G => or_intror (blob_first G)) P0)
        as (i1 & s1' & E1 & P1 & H1 & _ & O1).
      rewrite Hop in E1. assert (s1' = s1) by congruence. subst s1'. split; [exact P1|]. split; [exact H1|]. split; [exact O1|].
      rewrite Ed. split; [exact F|].
      pose proof fit as Fit. clear - HO F Hf Fit. intros q. induction HO as [|e o l1 l2 He HO1 IH]; [intros []|].
      apply (op_named E ext b fs' F Fit Hf) in He as [He _]. intros [<-|Hq]; [|auto].
      exists (file_of_op E ext o). destruct (file_of_op_ok E ext Fit o). auto.
    Qed.

    Lemma whole fits image i' s1 : read_as parse unzstd other E x fits image -> operate k i (s_node E) ops s0 = Ok (i', s1) ->
      (forall r, In r taken_ -> fits r /\ applies columns filters cf pf (image r)) ->
      let asked s a := records_read (read_asked parse unzstd other columns filters hash loads k now rnd' t a start stop n s) in
      let part_of s v := asked s (Some (field, $"=", v)) in
      (forall v, kept_whole v -> v <> one \/ ~ marked pdir log' -> part_of s1 v = part_of s0 v) /\
      (marked pdir log' -> part_of s1 one = found taken_ n (filter pf (map cf (map image taken_)))) /\
      forall s values parts_, s = s0 \/ s = s1 -> StronglySorted (fun a b => str_ltb a b = true) values ->
        (forall v, In v values -> kept_whole v /\ length v = length one) -> In one values ->
        (forall e v, live root es e -> e_by e = Some (part field v) -> In v values) ->
        Forall2 (fun v p => part_of s v = Ok p \/ (part_of s v = Raise DataNotFoundError /\ p = [])) values parts_ ->
        let day := asked s None in
        (Forall (fun v => part_of s v = Raise DataNotFoundError) values -> day = Raise DataNotFoundError) /\
        (~ Forall (fun v => part_of s v = Raise DataNotFoundError) values -> day = Ok (firstn n (concat parts_))).
    Proof.
      intros (e_ & x_ & HX & HD) Hop HRec asked part_of. destruct writer_facts as (b & fs' & Ed & F & Hf & WA).
      destruct (operate_seq k E ext b fs' F fit Hf ops log' i s0 HO WA (fun G => or_intror (blob_first G)) P0)
        as (i1 & s1' & E1 & P1 & H1 & R1 & O1).
      rewrite Hop in E1. assert (s1' = s1) by congruence. subst s1'. clear E1.
      assert (LN : forall q, In q (map fst log') -> exists file, component file /\ q = join $"/" (b :: fs') ++ $"/" ++ file).
      { pose proof fit as Fit. clear - HO F Hf Fit. intros q. induction HO as [|e o l1 l2 He HO1 IH]; [intros []|].
        apply (op_named E ext b fs' F Fit Hf) in He as [He _]. intros [<-|Hq]; [|auto].
        exists (file_of_op E ext o). split; [|auto]. apply (file_of_op_ok E ext Fit). }
      set (L1 := dedup str_eqb (listing k rnd' hours root s1)).
      assert (HI : forall q, In q L1 <-> In q (map (name_in root) es) \/ In q (map fst log')).
      { intros q. unfold L1. rewrite (dedup_In str_eqb str_eqb_eq), <- L0.
        rewrite (listing_day s1 q P1), (listing_day s0 q P0), H1. split.
        - intros (A & B & [C|C]); auto.
        - intros [(A & B & C)|C]; auto. destruct (LN q C) as (file & Cf & Eq).
          destruct (named_listed b fs' file Cf) as [A B]. rewrite <- Eq in *. split; [|auto].
          rewrite Eq, <- Ed, <- dir_join. unfold SubBatch.pdir, SubBatch.proot. rewrite <- !app_assoc. rewrite app_assoc. apply startswith_app. }
      destruct (SubBatch.seen E root field one frame x (attempts (st_world st)) HF one_kept writes CF GC PN x_plain frame_ok NB NR root_ok frame_by
                  es rs fs os st log' L1 ND TD PB HR CR (dedup_NoDup _ str_eqb_eq _) HI eq_refl) as (SO & SM & es' & El & ND' & TD' & PT' & New).
      cbv zeta in SO, SM.
      set (rd a l s := records_read (read_records hash loads (fun _ => get_list_of_blobs a (fun _ => l) [root]) 0 (content s) NoCursor n)).
      assert (D1 : forall a, asked s1 a = rd a L1 s1).
      { intros a. unfold asked, rd. rewrite read_day. apply Repeats.read_set, Repeats.get_list_same. intros _ _ q. unfold L1. now rewrite (dedup_In str_eqb str_eqb_eq). }
      assert (D0 : forall a, asked s0 a = rd a (map (name_in root) es) s0).
      { intros a. unfold asked, rd. rewrite read_day. apply Repeats.read_set, Repeats.get_list_same. intros _ _ q. apply L0. }
      split; [|split].
      - intros v Kv Hv. unfold part_of. rewrite D1, D0. unfold rd. rewrite (SO v Kv Hv).
        destruct (SubBatch.asked_list root field one frame HF es v ND TD (SubBatch.before_parted field one frame _ PB) Kv) as (out & Eo & _ & _ & Io).
        unfold read_records, find_blobs. rewrite Eo. cbn [bind].
        change (1 <? 0)%Z with false. cbn iota. cbn [bind].
        destruct (filter is_readable out) as [|x0 l0] eqn:Ef; [reflexivity|]. rewrite <- Ef. clear x0 l0 Ef.
        f_equal. apply session_same. intros q Hq. apply filter_In in Hq as [Hq _]. apply Io in Hq as (e & Hs & ->).
        unfold blob_records. rewrite O1; [reflexivity|].
        intros q Hq. destruct Hs as ((Hp & Eb) & _ & _). exact (untouched e v q Hp Eb Hq).
      - intros M. unfold part_of. rewrite D1. unfold rd. rewrite (SM M).
        destruct (SubBatch.data_groups E root field one frame x writes CF rs fs os st log' HR CR M) as (groups & HG & Hg).
        change (taken E (map Append rs ++ map Finalize fs) os) with taken_ in Hg.
        pose proof (RoundTrip.read_left parse unzstd other (fun name => get_blob_bytes k name s1) E proot frame x e_ x_ fits image
          writes HX HD relative_dir columns filters cf pf (map Append rs ++ map Finalize fs) os st log' groups hash loads n CF HR GC CR R1 HRec) as RL.
        change (taken E (map Append rs ++ map Finalize fs) os) with taken_ in RL.
        pose proof (RoundTrip.nothing_left E proot frame x x_ writes (map Append rs ++ map Finalize fs) os st log' CF HR CR) as NL.
        change (taken E (map Append rs ++ map Finalize fs) os) with taken_ in NL.
        destruct taken_ as [|r_ tk_] eqn:Et; cbn [found].
        + unfold SubBatch.pdir. rewrite (NL eq_refl). reflexivity.
        + destruct (RL ltac:(discriminate) HG Hg) as (c & Q). unfold SubBatch.pdir. rewrite Q. reflexivity.
      - intros s values parts_ Hs SV KV IV CV FV day.
        destruct Hs as [->| ->].
        + unfold part_of, day in *. rewrite D0.
          pose proof (SubBatch.day_of_parts root field one frame es HF ND TD (SubBatch.before_parted field one frame _ PB) hash loads (content s0) n values parts_ SV KV CV) as DP.
          assert (FV' : Forall2 (fun v p => rd (Some (field, $"=", v)) (map (name_in root) es) s0 = Ok p \/
                                  (rd (Some (field, $"=", v)) (map (name_in root) es) s0 = Raise DataNotFoundError /\ p = [])) values parts_).
          { clear - FV D0. induction FV as [|v p l1 l2 H _ IH]; constructor; auto. rewrite <- D0. exact H. }
          specialize (DP FV'). cbv zeta in DP. destruct DP as [DP1 DP2]. split.
          * intros H. apply DP1. eapply Forall_impl; [|exact H]. intros v Q. cbv beta in Q. rewrite D0 in Q. exact Q.
          * intros H. apply DP2. intros H'. apply H. eapply Forall_impl; [|exact H']. intros v Q. cbv beta in *. rewrite D0. exact Q.
        + unfold part_of, day in *. rewrite D1.
          assert (CV' : forall e v, live root es' e -> e_by e = Some (part field v) -> In v values).
          { intros e v He Eb. destruct (New e He) as [Ho|(file & -> & _)]; [eapply CV; eauto|].
            cbn [e_by] in Eb. assert (Q : part field one = part field v) by congruence. apply SubBatch.part_inj in Q. now subst v. }
          pose proof (SubBatch.day_of_parts root field one frame es' HF ND' TD' PT' hash loads (content s1) n values parts_ SV KV CV') as DP.
          rewrite <- El in DP.
          assert (FV' : Forall2 (fun v p => rd (Some (field, $"=", v)) L1 s1 = Ok p \/
                                  (rd (Some (field, $"=", v)) L1 s1 = Raise DataNotFoundError /\ p = [])) values parts_).
          { clear - FV D1. induction FV as [|v p l1 l2 H _ IH]; constructor; auto. rewrite <- D1. exact H. }
          specialize (DP FV'). cbv zeta in DP. destruct DP as [DP1 DP2]. split.
          * intros H. apply DP1. eapply Forall_impl; [|exact H]. intros v Q. cbv beta in Q. rewrite D1 in Q. exact Q.
          * intros H. apply DP2. intros H'. apply H. eapply Forall_impl; [|exact H']. intros v Q. cbv beta in *. rewrite D1. exact Q.
    Qed.
  End Read.
End Whole.

Lemma part_batch :
  forall parse unzstd other fits image (columns : value -> result value) (filters : value -> result bool) (cf : value -> value) (pf : value -> bool) hash loads k (E : setting value) ext names folders field sub texts y m d at_ w rnd ds i,
    folder_names names -> daily_partitions folders -> field_name field -> date_fields sub ->
    written_as (folders ++ names_part field sub) texts -> same_day at_ (a_day y m d) ->
    let dataset := join $"/" names in
    let t := dataset_template dataset folders in
    let root := day_folder t (y, m, d) in
    let one := fill sub at_ in
    let frame := as_at_text w in
    let dir := root ++ $"/" ++ part_path field one ++ $"/" ++ frame in
    new_frame_id rnd dataset texts w at_ = Ok ds ->
    inner_filename (s_format E) ext ds = Ok (s_filename E) -> new_inner k (s_format E) ext ds = Ok i ->
    read_as parse unzstd other E (extension (s_format E) ext) fits image ->
    plain ext -> plain (s_node E) -> clean_failures E -> contains $"BACKOUT" dir = false ->
    (forall c, In c (split "/"%char root) -> endswith ($"by_" ++ field) c = false) ->
    forall now hh mm ss hh' mm' ss' rnd' n es rs fs os (st : state (R:=value)) log' s0,
    let start := of_fields y m d hh mm ss in
    let stop := of_fields y m d hh' mm' ss' in
    valid_date y m d -> valid_time hh mm ss -> valid_time hh' mm' ss' -> (start <= stop)%Z ->
    proper k s0 -> NoDup es ->
    (forall name, In name (listing k rnd' (range_hours now start stop) root s0) <-> In name (map (name_in root) es)) ->
    tidy root (live root es) -> parts_before (live root es) field one frame ->
    run E (new_writer nothing) (map Append rs ++ map Finalize fs) = (os, st) ->
    good_clock E (attempts (st_world st)) -> crashed (puts (st_world st)) log' ->
    let records := taken E (map Append rs ++ map Finalize fs) os in
    (k = Gcs -> records <> []) -> (forall r, In r records -> fits r /\ applies columns filters cf pf (image r)) ->
    (exists ops, operations_of E log' ops) /\
    forall ops, operations_of E log' ops ->
    exists i' s1, operate k i (s_node E) ops s0 = Ok (i', s1) /\
      let read a s := records_read (read_asked parse unzstd other columns filters hash loads k now rnd' t a start stop n s) in
      let part_of v s := read (Some (field, $"=", v)) s in
      let none s v := part_of v s = Raise DataNotFoundError in
      (forall v, kept_whole v -> v <> one -> part_of v s1 = part_of v s0) /\
      (~ marked dir log' -> part_of one s1 = part_of one s0) /\
      (marked dir log' -> part_of one s1 = found records n (filter pf (map cf (map image records)))) /\
      forall s values parts, s = s0 \/ s = s1 -> StronglySorted (fun a b => str_ltb a b = true) values ->
        (forall v, In v values -> kept_whole v /\ length v = length one) -> In one values ->
        (forall e v, live root es e -> e_by e = Some (part field v) -> In v values) ->
        Forall2 (fun v p => part_of v s = Ok p \/ (none s v /\ p = [])) values parts ->
        (Forall (none s) values -> read None s = Raise DataNotFoundError) /\
        (~ Forall (none s) values -> read None s = Ok (firstn n (concat parts))).
Proof.
  intros parse unzstd other fits image columns filters cf pf hash loads k E ext names folders field sub texts y m d at_ w rnd ds i HN HP HF HS HT SD dataset t root one frame dir Hds Hfile Hinner HB PE PN CF NB NR
    now hh mm ss hh' mm' ss' rnd' n es rs fs os st log' s0 start stop V T1 T2 LE P0 ND L0 TD PB HR GC CR records TK HRec.
  assert (Ed : dir = SubBatch.pdir root field one frame).
  { unfold dir, SubBatch.pdir, SubBatch.proot. rewrite <- !app_assoc. reflexivity. }
  clearbody dir. subst dir.
  split; [eapply SystemBatch.run_operations; eauto|]. intros ops HO. pose proof (RoundTrip.read_as_extension _ _ _ _ _ _ _ HB) as HJ.
  assert (Op : exists i' s1, operate k i (s_node E) ops s0 = Ok (i', s1)) by (eapply operated; eauto).
  destruct Op as (i' & s1 & Hop). exists i', s1. split; [exact Hop|].
  assert (Wh : let asked s a := records_read (read_asked parse unzstd other columns filters hash loads k now rnd' t a start stop n s) in
      let part_of s v := asked s (Some (field, $"=", v)) in
      (forall v, kept_whole v -> v <> one \/ ~ marked (SubBatch.pdir root field one frame) log' -> part_of s1 v = part_of s0 v) /\
      (marked (SubBatch.pdir root field one frame) log' -> part_of s1 one = found records n (filter pf (map cf (map image records)))) /\
      forall s values parts_, s = s0 \/ s = s1 -> StronglySorted (fun a b => str_ltb a b = true) values ->
        (forall v, In v values -> kept_whole v /\ length v = length one) -> In one values ->
        (forall e v, live root es e -> e_by e = Some (part field v) -> In v values) ->
        Forall2 (fun v p => part_of s v = Ok p \/ (part_of s v = Raise DataNotFoundError /\ p = [])) values parts_ ->
        let day := asked s None in
        (Forall (fun v => part_of s v = Raise DataNotFoundError) values -> day = Raise DataNotFoundError) /\
        (~ Forall (fun v => part_of s v = Raise DataNotFoundError) values -> day = Ok (firstn n (concat parts_)))) by (eapply whole; eauto).
  cbv zeta in *. destruct Wh as (W1 & W2 & W3). split; [|split; [|split]]; auto.
  - intros M. apply W1; auto. exact (one_kept sub at_ HS).
Qed.

(** ** Other days and datasets *)
Lemma elsewhere (base dn2 rest : list str) file :
  folder base -> Spec.Adapters.with_extension file -> (forall l p, dn2 = l ++ [p] -> ~ In "."%char p) -> dn2 <> [] ->
  startswith (join $"/" dn2 ++ $"/") (join $"/" base ++ $"/") = false -> dn2 ++ rest <> base ++ [file].
Proof.
  intros FB X LD NE Oth Q.
  assert (Up : forall l, dn2 ++ l <> base).
  { intros l El. rewrite <- El in Oth. destruct l as [|x l]; [rewrite app_nil_r, startswith_refl in Oth; discriminate|].
    rewrite (join_app _ dn2) in Oth by (auto; discriminate). rewrite <- !app_assoc, (app_assoc (join _ dn2)), startswith_app in Oth. discriminate. }
  destruct rest as [|x rest] using rev_ind.
  - rewrite app_nil_r in Q. destruct X as (a & e & E1 & _). apply (LD base file Q). rewrite E1, !in_app_iff. right. left. left. reflexivity.
  - clear IHrest. rewrite !app_assoc in Q. apply app_inj_tail in Q as [Q _]. now apply Up in Q.
Qed.

Lemma part_and_others :
  forall k (E : setting value) ext names folders field sub texts y m d at_ w rnd ds i,
    folder_names names -> daily_partitions folders -> field_name field -> date_fields sub ->
    written_as (folders ++ names_part field sub) texts -> same_day at_ (a_day y m d) ->
    let root := day_folder (dataset_template (join $"/" names) folders) (y, m, d) in
    let dir := root ++ $"/" ++ part_path field (fill sub at_) ++ $"/" ++ as_at_text w in
    new_frame_id rnd (join $"/" names) texts w at_ = Ok ds ->
    inner_filename (s_format E) ext ds = Ok (s_filename E) -> new_inner k (s_format E) ext ds = Ok i ->
    data_file_extension (extension (s_format E) ext) ->
    plain ext -> plain (s_node E) -> clean_failures E ->
    forall rs fs os (st : state (R:=value)) log' s0,
    proper k s0 ->
    run E (new_writer nothing) (map Append rs ++ map Finalize fs) = (os, st) ->
    good_clock E (attempts (st_world st)) -> crashed (puts (st_world st)) log' ->
    (k = Gcs -> taken E (map Append rs ++ map Finalize fs) os <> []) ->
    forall ops i' s1, operations_of E log' ops -> operate k i (s_node E) ops s0 = Ok (i', s1) ->
    forall parse unzstd other columns filters hash loads now rnd' n names2 folders2 y1 m1 d1 hh1 mm1 ss1 y2 m2 d2 hh2 mm2 ss2,
    folder_names names2 -> daily_partitions folders2 -> valid_date y1 m1 d1 -> valid_time hh1 mm1 ss1 -> valid_date y2 m2 d2 -> valid_time hh2 mm2 ss2 ->
    let start := of_fields y1 m1 d1 hh1 mm1 ss1 in
    let stop := of_fields y2 m2 d2 hh2 mm2 ss2 in
    (start <= stop)%Z ->
    let t2 := dataset_template (join $"/" names2) folders2 in
    (forall date, within (y1, m1, d1) (y2, m2, d2) date -> startswith (day_folder t2 date ++ $"/") (dir ++ $"/") = false) ->
    let read s := records_read (read_selected parse unzstd other columns filters hash loads k now rnd' t2 start stop n s) in
    read s1 = read s0.
Proof.
  intros k E ext names folders field sub texts y m d at_ w rnd ds i HN HP HF HS HT SD root dir Hds Hfile Hinner HJ PE PN CF rs fs os st log' s0 P0 HR GC CR TK
    ops i' s1 HO Hop parse unzstd other columns filters hash loads now rnd' n names2 folders2 y1 m1 d1 hh1 mm1 ss1 y2 m2 d2 hh2 mm2 ss2 HN2 HF2 V1 T1 V2 T2 start stop L t2 Oth.
  set (base := (day_names names folders (a_day y m d) ++ [$"by_" ++ field; field ++ $"=" ++ fill sub at_]) ++ [as_at_text w]).
  assert (SA : proper k s1 /\
      (forall q, (exists data, holds_at k s1 q data) <-> (exists data, holds_at k s0 q data) \/ In q (map fst log')) /\
      (forall q, (forall p, In p (map fst log') -> components_of q <> components_of p) -> get_blob_bytes k q s1 = get_blob_bytes k q s0) /\
      folder base /\
      (forall q, In q (map fst log') -> exists file, component file /\ Spec.Adapters.with_extension file /\ q = join $"/" base ++ $"/" ++ file)) by (eapply (stored_after parse unzstd other hash loads); eauto; exact rnd').
  destruct SA as (P1 & H1 & O1 & FB & LN).
  assert (Ej : dir = join $"/" base).
  { unfold base. rewrite <- (dir_join names folders field sub y m d at_ w HN HP).
    unfold dir, SubBatch.pdir, SubBatch.proot. rewrite <- !app_assoc. reflexivity. }
  apply BatchRange.range_depends; auto. intros [[u v] z] q Wt S.
  specialize (Oth _ Wt). unfold t2 in Oth. rewrite (day_root names2 HN2 folders2 HF2 u v z), Ej in Oth.
  assert (N : forall p, In p (map fst log') -> components_of q <> components_of p).
  { intros p Hp. destruct (LN p Hp) as (file & C & X & ->). apply startswith_iff in S as [rest Er]. rewrite <- app_assoc in Er.
    rewrite Er, (day_root names2 HN2 folders2 HF2), !components_app_slash.
    pose proof (day_folder_ok names2 HN2 folders2 HF2 (a_day u v z)) as FD2.
    rewrite (components_join (day_names names2 folders2 (a_day u v z))) by (intros c Hc; apply FD2; exact Hc).
    rewrite (components_join base) by (intros c Hc; apply FB; exact Hc). rewrite (components_single file C).
    apply (elsewhere base (day_names names2 folders2 (a_day u v z))); auto.
    - intros l p El. destruct (day_names_last names2 folders2 HF2 (a_day u v z)) as (l2 & p2 & Hp2 & LD).
      rewrite LD in El. apply app_inj_tail in El as [_ <-]. exact (proj2 (proj2 (fill_partition p2 (a_day u v z) (proj1 HF2 p2 Hp2)))).
    - apply day_names_ne. exact HF2. }
  split; [|now apply O1]. rewrite H1. split; [intros [H|H]; auto|auto]. now apply N in H.
Qed.

Lemma part_other_day names folders field sub y m d at_ y2 m2 d2 w : folder_names names -> daily_partitions folders ->
  valid_date y m d -> valid_date y2 m2 d2 -> (y2, m2, d2) <> (y, m, d) ->
  let folder date := day_folder (dataset_template (join $"/" names) folders) date in
  startswith (folder (y2, m2, d2) ++ $"/") ((folder (y, m, d) ++ $"/" ++ part_path field (fill sub at_) ++ $"/" ++ as_at_text w) ++ $"/") = false.
Proof.
  intros HN HF V V2 NE. cbv zeta. destruct (startswith _ _) eqn:S; [|reflexivity]. exfalso. apply NE.
  apply startswith_iff in S as [rest E]. rewrite <- !app_assoc in E.
  pose proof (day_folder_ok names HN folders HF (a_day y m d)) as FD. pose proof (day_folder_ok names HN folders HF (a_day y2 m2 d2)) as FD2.
  apply (f_equal components_of) in E. rewrite (components_app_slash (day_folder _ (y, m, d))), (components_app_slash (day_folder _ (y2, m2, d2))), !day_root in E by assumption.
  rewrite (components_join (day_names names folders (a_day y m d))) in E by (intros c Hc; apply FD; exact Hc).
  rewrite (components_join (day_names names folders (a_day y2 m2 d2))) in E by (intros c Hc; apply FD2; exact Hc).
  assert (Q : day_names names folders (a_day y2 m2 d2) = day_names names folders (a_day y m d)).
  { assert (Len : length (day_names names folders (a_day y2 m2 d2)) = length (day_names names folders (a_day y m d))).
    { unfold day_names. now rewrite !app_length, !map_length. }
    apply (f_equal (firstn (length (day_names names folders (a_day y m d))))) in E.
    rewrite firstn_app, firstn_all, Nat.sub_diag in E. cbn [firstn] in E. rewrite app_nil_r in E. rewrite <- Len in E at 1.
    rewrite firstn_app, firstn_all, Nat.sub_diag in E. cbn [firstn] in E. now rewrite app_nil_r in E. }
  apply (ReadRange.day_folder_inj (dataset_template (join $"/" names) folders)).
  - now apply template_daily.
  - now apply valid_date_spec.
  - now apply valid_date_spec.
  - rewrite !day_root by assumption. now rewrite Q.
Qed.
