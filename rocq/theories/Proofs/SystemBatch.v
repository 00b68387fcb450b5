(** Proofs: a batch, possibly killed, stored by an adapter and read back. *)
From Coq Require Import Sorted.
From Verif.Base Require Import Py PyFacts Value ValueFacts.
From Verif.Model Require Import Paths Dates Frames ReadRange Cursor Storage Writers Adapters Reader.
From Verif.Spec Require Import Paths Dates Frames Cursor Json Writers Reader.
From Verif.Spec Require Adapters.
From Verif.Spec Require Import System.
From Verif.Proofs Require Import Paths Dates Writers Adapters AdaptersUse System.
From Verif.Proofs Require Batch BatchFolder RoundTrip ReadRange Frames StreamRange Repeats.

Lemma plain_no c s : plain s -> plain_char c = false -> ~ In c s.
Proof. intros P H I. apply P in I. congruence. Qed.

Section Whole.
  Context (parse : str -> result value) (unzstd : str -> result str)
          (other : str -> str -> generator value) (hash : str -> Z) (loads : str -> result cdict).
  Context (k : kind) (E : setting value) (ext : str) (names : list str) (parts : list (list seg)) (texts : list str) (y m d : Z) (w : moment) (rnd ds : str) (i : inner).
  Hypothesis HN : folder_names names.
  Hypothesis HP : daily_partitions parts.
  Hypothesis HT : written_as parts texts.
  Hypothesis HJ : data_file_extension (extension (s_format E) ext).
  Hypothesis PE : plain ext.
  Hypothesis PN : plain (s_node E).
  Hypothesis CF : clean_failures E.
  Hypothesis Hds : new_frame_id rnd (join $"/" names) texts w (a_day y m d) = Ok ds.
  Hypothesis Hfile : inner_filename (s_format E) ext ds = Ok (s_filename E).
  Hypothesis Hinner : new_inner k (s_format E) ext ds = Ok i.
  Let dataset := join $"/" names.
  Let t := dataset_template dataset parts.
  Let root := day_folder t (y, m, d).
  Let frame := as_at_text w.
  Let dn := day_names names parts (a_day y m d).
  Let x := extension (s_format E) ext.
  Hypothesis NB : contains $"BACKOUT" (root ++ $"/" ++ frame) = false.

  Lemma fit : fit_names (s_format E) ext (s_node E).
  Proof.
    split; [apply plain_no; auto|]. split; [apply plain_no; auto|]. split; [split; apply plain_no; auto|].
    destruct HJ as (e & z & Q & Dz). destruct (RoundTrip.data_extension_facts z Dz) as (_ & v & Hv & N1 & N2 & _).
    exists e, v. rewrite Q, Hv. split; [reflexivity|]. split; [exact N1|exact N2].
  Qed.
  Lemma x_plain : plain x.
  Proof.
    assert (L : forall u v, plain u -> plain v -> plain (u ++ v)).
    { intros u v Hu Hv c H. apply in_app_iff in H as [H|H]; auto. }
    unfold x. destruct (s_format E); cbn [extension]; repeat apply L; auto;
      intros c H; cbn in H; intuition (subst; reflexivity).
  Qed.
  Lemma root_join : root = join $"/" dn.
  Proof. apply day_root; auto. Qed.
  Lemma dn_ne : dn <> [].
  Proof. apply day_names_ne. exact HP. Qed.
  Lemma dir_join : root ++ $"/" ++ frame = join $"/" (dn ++ [frame]).
  Proof. rewrite join_app by (apply dn_ne || discriminate). rewrite root_join. reflexivity. Qed.

  Lemma writer_facts : exists b fs, dn ++ [frame] = b :: fs /\ folder (b :: fs) /\
    s_filename E = join $"/" (b :: fs) ++ $"/" ++ $"{stem}" ++ x /\ writer_at b fs k x i.
  Proof.
    pose proof (frame_folder_ok names HN parts HP (a_day y m d) w) as F. fold dn frame in F.
    destruct (dn ++ [frame]) as [|b fs] eqn:Ed; [destruct dn; discriminate|]. exists b, fs. split; auto. split; auto.
    pose proof Hds as Hds'. rewrite (frame_id names HN parts HP texts rnd w _ HT) in Hds'. fold dn frame in Hds'. rewrite Ed in Hds'.
    assert (Eds : ds = join $"/" (b :: fs) ++ $"/") by congruence. clear Hds'.
    assert (Rl : relative (join $"/" (b :: fs) ++ $"/")).
    { intros r Er. pose proof (base_relative b fs F) as Rl.
      destruct (join $"/" (b :: fs)) as [|c j] eqn:Ej.
      - apply (join_nonempty (b :: fs)); auto; [discriminate|]. apply F.
      - cbn [app] in Er. injection Er as -> _. apply (Rl j). reflexivity. }
    assert (Cm : components_of (join $"/" (b :: fs) ++ $"/") = b :: fs).
    { rewrite BatchFolder.components_drop_slash. apply (base_components b fs F). }
    destruct (new_writer_at b fs F k (s_format E) ext _ Rl Cm) as (i1 & E1 & W1 & _).
    rewrite <- Eds in E1. assert (i1 = i) by congruence. subst i1.
    destruct (new_writer_at b fs F Disk (s_format E) ext _ Rl Cm) as (i2 & E2 & (_ & _ & W2) & _).
    split; [|exact W1]. rewrite <- Eds in E2.
    destruct W2 as [[_ N]|[W2 _]]; [congruence|]. unfold x. rewrite <- W2.
    unfold inner_filename in Hfile. unfold new_inner in E2.
    destruct (get_parts ds) as [[[[bk p] st] su]|]; [|discriminate]. cbn [bind] in *.
    apply (f_equal (fun r => match r with Ok j => i_filename j | Raise _ => [] end)) in E2. cbn [i_filename] in E2. congruence.
  Qed.

  Lemma writes : writes_in E (root ++ $"/" ++ frame) x.
  Proof.
    destruct writer_facts as (b & fs & Ed & F & Hf & _). rewrite dir_join, Ed.
    pose proof x_plain as Px. split; [auto|].
    split; [apply (base_no_brace b fs F)|]. split; [apply plain_no; auto|]. split; [apply plain_no; auto|].
    split; [|split; apply plain_no; auto].
    rewrite <- Ed. rewrite join_app by (apply dn_ne || discriminate).
    destruct (exists_last (l := frame)) as (p & c & Ep); [unfold frame; discriminate|].
    exists (join $"/" dn ++ $"/" ++ p), c. cbn [join]. rewrite Ep, <- !app_assoc. split; auto.
    intros ->. destruct (BatchFolder.as_at_component w) as ((_ & _ & C) & _). apply C. fold frame. rewrite Ep. apply in_app_iff. right. left. auto.
  Qed.
  Lemma relative_dir : relative_folder (root ++ $"/" ++ frame).
  Proof.
    destruct writer_facts as (b & fs & Ed & F & _). split.
    - rewrite dir_join, Ed. apply (base_relative b fs F).
    - exists "a"%char. split; [|split; discriminate]. rewrite !in_app_iff. right. right. left. reflexivity.
  Qed.
  Lemma frame_ok : ~ In "/"%char frame /\ startswith $"as_at_" frame = true.
  Proof. split; [apply (BatchFolder.as_at_component w)|]. unfold frame, as_at_text. reflexivity. Qed.

  Section Read.
    Context (now : datetime) (hh mm ss hh' mm' ss' : Z) (rnd' : str) (n : nat).
    Context (columns : value -> result value) (filters : value -> result bool) (cf : value -> value) (pf : value -> bool).
    Hypothesis V : valid_date y m d.
    Hypothesis T1 : valid_time hh mm ss.
    Hypothesis T2 : valid_time hh' mm' ss'.
    Let start := of_fields y m d hh mm ss.
    Let stop := of_fields y m d hh' mm' ss'.
    Hypothesis LE : (start <= stop)%Z.
    Let hours := range_hours now start stop.

    Lemma listing_day s b : proper k s -> In b (listing k rnd' hours root s) <->
        startswith (root ++ $"/") b = true /\ endswith $"/" b = false /\ exists data, holds_at k s b data.
    Proof.
      intros P. pose proof (day_folder_ok names HN parts HP (a_day y m d)) as F. fold dn in F.
      destruct (listed_folder k rnd' hours dn s F P) as (out & Eo & I & _); [intros _; apply some_hours; auto|].
      rewrite <- root_join in *. unfold listing. rewrite Eo. apply I.
    Qed.

    Lemma daily : daily_template t.
    Proof. apply template_daily; auto. Qed.

    Lemma read_day s : read_selected parse unzstd other columns filters hash loads k now rnd' t start stop n s =
      read_records hash loads (fun _ => get_list_of_blobs None (fun _ => listing k rnd' hours root s) [root]) 0
        (blob_records parse unzstd other (fun name => get_blob_bytes k name s) columns filters None) NoCursor n.
    Proof.
      unfold read_selected. fold hours. unfold read_records, find_blobs, start, stop.
      rewrite (list_one_day t _ now rnd' y m d hh mm ss hh' mm' ss' daily V T1 T2 LE). reflexivity.
    Qed.

    Context (es : list entry) (rs : list value) (fs : list bool) (os : list outcome) (st : state (R:=value))
            (log' : list (str * str)) (ops : list operation) (s0 : stored).
    Hypothesis P0 : proper k s0.
    Hypothesis ND : NoDup es.
    Hypothesis L0 : forall q, In q (listing k rnd' hours root s0) <-> In q (map (name_in root) es).
    Hypothesis TD : tidy root (live root es).
    Hypothesis OF : older_frames (live root es) frame.
    Hypothesis HR : run E (new_writer nothing) (map Append rs ++ map Finalize fs) = (os, st).
    Hypothesis GC : good_clock E (attempts (st_world st)).
    Hypothesis CR : crashed (puts (st_world st)) log'.
    Hypothesis HO : operations_of E log' ops.
    Let taken_ := taken E (map Append rs ++ map Finalize fs) os.
    Hypothesis TK : k = Gcs -> taken_ <> [].

    Lemma blob_first : k = Gcs -> starts_with_blob ops.
    Proof.
      intros G. pose proof (TK G) as TK_. clear G.
      destruct ops as [|[tm data|tm] ops'] eqn:Eo; cbn [starts_with_blob]; auto.
      inversion HO as [|e ? l1 ? He HO1]; subst.
      assert (Hj : exists j, map fst ((completion_path (s_filename E), []) :: l1) = firstn j (map fst (puts (st_world st)))) by (eapply Batch.crash_names; eauto). destruct Hj as [j Hj]. cbn [map fst] in Hj.
      destruct (puts (st_world st)) as [|[n1 d1] log] eqn:Ep; [destruct j; discriminate|].
      destruct j as [|j]; [discriminate|]. cbn [map fst firstn] in Hj. injection Hj as Hn _.
      destruct writer_facts as (b & fs' & Ed & F & Hf & _).
      assert (Mk : n1 = marker (root ++ $"/" ++ frame)).
      { rewrite <- Hn. rewrite (marker_named E ext b fs' F fit Hf). unfold marker. rewrite dir_join, Ed. reflexivity. }
      destruct (Batch.all_or_nothing E root frame x _ writes CF GC PN x_plain frame_ok NB [] rs fs os st [(n1, d1)] [n1])
        as (out & before & _ & _ & D); auto.
      - constructor.
      - eapply Frames.tidy_mono; [|exact TD]. intros e [[] _].
      - intros e [[] _].
      - exists 1%nat. left. rewrite Ep. reflexivity.
      - constructor; [intros []|constructor].
      - intros q. cbn. tauto.
      - destruct D as [(D & _)|(_ & _ & groups & HG & Ht)].
        + apply D. unfold marked. cbn [map fst In]. left. auto.
        + unfold data_of in HG. cbn [filter fst] in HG. unfold Batch.bdir in HG. rewrite Mk, str_eqb_refl in HG. cbn [negb map] in HG.
          inversion HG; subst groups. cbn [concat] in Ht. apply TK_. auto.
    Qed.

    Lemma operated : exists i' s1, operate k i (s_node E) ops s0 = Ok (i', s1).
    Proof.
      destruct writer_facts as (b & fs' & Ed & F & Hf & WA).
      destruct (operate_seq k E ext b fs' F fit Hf ops log' i s0 HO WA (fun G => or_intror (blob_first G)) P0)
        as (i1 & s1 & E1 & _). eauto.
    Qed.

    Lemma whole fits image i' s1 : read_as parse unzstd other E x fits image -> operate k i (s_node E) ops s0 = Ok (i', s1) ->
      (forall r, In r taken_ -> fits r /\ applies columns filters cf pf (image r)) ->
      let read s := records_read (read_selected parse unzstd other columns filters hash loads k now rnd' t start stop n s) in
      (~ marked (root ++ $"/" ++ frame) log' /\ read s1 = read s0) \/
      (marked (root ++ $"/" ++ frame) log' /\ read s1 = found taken_ n (filter pf (map cf (map image taken_)))).
    Proof.
      intros (e_ & x_ & HX & HD) Hop HRec read. destruct writer_facts as (b & fs' & Ed & F & Hf & WA).
      destruct (operate_seq k E ext b fs' F fit Hf ops log' i s0 HO WA (fun G => or_intror (blob_first G)) P0)
        as (i1 & s1' & E1 & P1 & H1 & R1 & O1).
      rewrite Hop in E1. assert (s1' = s1) by congruence. subst s1'. clear E1.
      assert (LN : forall q, In q (map fst log') -> exists file, component file /\ q = join $"/" (b :: fs') ++ $"/" ++ file).
      { pose proof fit as Fit. clear - HO F Hf Fit. intros q. induction HO as [|e o l1 l2 He HO1 IH]; [intros []|].
        apply (op_named E ext b fs' F Fit Hf) in He as [He _]. intros [<-|Hq]; [|auto].
        exists (file_of_op E ext o). split; [|auto]. apply (file_of_op_ok E ext Fit). }
      set (L1 := dedup str_eqb (listing k rnd' hours root s1)).
      assert (HI : forall q, In q L1 <-> In q (map (name_in root) es) \/ In q (map fst log')).
      { intros q. unfold L1. rewrite (dedup_In str_eqb str_eqb_eq), <- L0.
        rewrite (listing_day s1 q P1), (listing_day s0 q P0), H1. split.
        - intros (A & B & [C|C]); auto.
        - intros [(A & B & C)|C]; auto. destruct (LN q C) as (file & Cf & Eq).
          destruct (named_listed b fs' file Cf) as [A B]. rewrite <- Eq in *. split; [|auto].
          rewrite Eq, <- Ed, <- dir_join, <- !app_assoc. rewrite app_assoc. apply startswith_app. }
      pose proof (RoundTrip.batch parse unzstd other (fun name => get_blob_bytes k name s1) E root frame x e_ x_ fits image
        writes HX HD relative_dir columns filters cf pf es rs fs os st log' L1 hash loads n CF PN x_plain frame_ok NB
        ND TD OF HR GC CR (dedup_NoDup _ str_eqb_eq _) HI R1 HRec) as RT. cbv zeta in RT.
      unfold read. rewrite !read_day.
      assert (D1 : forall c, records_read (read_records hash loads (fun _ => get_list_of_blobs None (fun _ => listing k rnd' hours root s1) [root]) 0 c NoCursor n)
                 = records_read (read_records hash loads (fun _ => get_list_of_blobs None (fun _ => L1) [root]) 0 c NoCursor n)).
      { intros c. apply Repeats.read_set, Repeats.get_list_same. intros _ _ q. unfold L1. now rewrite (dedup_In str_eqb str_eqb_eq). }
      assert (D0 : forall c, records_read (read_records hash loads (fun _ => get_list_of_blobs None (fun _ => listing k rnd' hours root s0) [root]) 0 c NoCursor n)
                 = records_read (read_records hash loads (fun _ => get_list_of_blobs None (fun _ => map (name_in root) es) [root]) 0 c NoCursor n)).
      { intros c. apply Repeats.read_set, Repeats.get_list_same. intros _ _ q. apply L0. }
      rewrite D1, D0.
      destruct RT as [(M & RT)|(M & RT1 & RT2)]; [left|right; split; [exact M|]]; [split; [exact M|]|].
      2: { change (taken E (map Append rs ++ map Finalize fs) os) with taken_ in RT1, RT2.
           destruct taken_ as [|r_ tk_]; cbn [found]; [rewrite RT2; reflexivity|destruct RT1 as (c & RT1); [discriminate|rewrite RT1; reflexivity]]. }
      rewrite RT. clear RT D0 D1. f_equal.
      assert (NP : no_prefixes (live root es)).
      { intros e1 e2 b1 f1 f2 Hp _ Q1. destruct (OF e1 Hp) as [Q _]. congruence. }
      destruct (Frames.folder_selection root es ND TD NP) as (out & Eo & _ & _ & Io).
      unfold read_records, find_blobs. rewrite Eo. cbn [bind].
      change (1 <? 0)%Z with false. cbn iota. cbn [bind].
      destruct (filter is_readable out) as [|x0 l0] eqn:El; [reflexivity|]. rewrite <- El. clear x0 l0 El.
      apply session_same. intros q Hq. apply filter_In in Hq as [Hq _]. apply Io in Hq as (e & Hs & ->).
      unfold blob_records. rewrite O1; [reflexivity|].
      intros q Hq. destruct (LN q Hq) as (file & Cf & ->). destruct Hs as (Hp & _ & _).
      destruct (OF e Hp) as (Eb & f & Ef & Lf & Hlt). destruct (t_frame _ _ TD e f Hp Ef) as (Pf & Sf & _).
      assert (Cfr : component f).
      { split; [intros ->; discriminate|]. split; [intros ->; discriminate|exact Pf]. }
      pose proof (day_folder_ok names HN parts HP (a_day y m d)) as FD. fold dn in FD.
      assert (CD : components_of (join $"/" dn) = dn) by (apply components_join; intros c Hc; apply FD; auto).
      assert (Q1 : components_of (name_in root e) = dn ++ f :: components_of (e_file e)).
      { unfold name_in, local_parts. rewrite Eb, Ef. cbn [app join].
        rewrite root_join, !components_app_slash, CD, (components_single f) by auto. reflexivity. }
      assert (Q2 : components_of (join $"/" (b :: fs') ++ $"/" ++ file) = dn ++ frame :: components_of file).
      { rewrite <- Ed, <- dir_join, root_join, <- !app_assoc, !components_app_slash, CD.
        rewrite (components_single frame) by apply (BatchFolder.as_at_component w). reflexivity. }
      rewrite Q1, Q2. intros Q. apply app_inv_head in Q.
      injection Q as -> _. unfold frame, str_ltb in Hlt. rewrite str_compare_refl in Hlt. discriminate.
    Qed.
  End Read.
End Whole.

(** ** Every log is one of operations an adapter can do *)
Section Logs.
  Context {R : Type} (E : setting R).
  Definition doable (e : str * str) : Prop :=
    (exists t d, e = (blob_name (s_filename E) (s_node E) t, d)) \/ e = (completion_path (s_filename E), []).
  Lemma commit_doable b w o b' w' : Forall doable (puts w) -> Writers.commit E b w = (o, (b', w')) -> Forall doable (puts w').
  Proof.
    intros F. unfold Writers.commit. destruct (0 <? _)%nat; [|intros [= <- <- <-]; auto].
    destruct (write_buffer E b) as [d|e]; [|intros [= <- <- <-]; auto].
    unfold inner_commit. destruct (s_fails E (attempts w)) as [[k|]|]; intros [= <- <- <-]; cbn [puts]; auto;
      apply Forall_app; split; auto; repeat constructor; eauto.
  Qed.
  Lemma step_doable s c o s' : Forall doable (puts (st_world s)) -> step E s c = (o, s') -> Forall doable (puts (st_world s')).
  Proof.
    intros L. destruct c as [r|f]; unfold step.
    - unfold append. destruct (s_check E r); [|intros [= <- <-]; auto].
      unfold blob_append, arrow_append, text_append. cbv zeta. destruct (is_parquet (s_format E)).
      + match goal with |- context [if ?c then _ else _] => destruct c end; [|intros [= <- <-]; auto].
        match goal with |- context [Writers.commit E ?b ?w] => destruct (Writers.commit E b w) as [[x|e] [b2 w2]] eqn:Ec end;
        apply commit_doable in Ec; auto; intros [= <- <-]; auto.
      + destruct (s_ser E r); [|intros [= <- <-]; auto].
        match goal with |- context [if ?c then _ else _] => destruct c end; [|intros [= <- <-]; auto].
        match goal with |- context [Writers.commit E ?b ?w] => destruct (Writers.commit E b w) as [[x|e] [b2 w2]] eqn:Ec end;
        apply commit_doable in Ec; auto; intros [= <- <-]; auto.
    - unfold finalize. destruct (Writers.commit E (st_blob s) (st_world s)) as [[x|e] [b2 w2]] eqn:Ec;
      apply commit_doable in Ec; auto; [|intros [= <- <-]; auto].
      destruct f; [intros [= <- <-]; auto|]. destruct (st_seen s); [intros [= <- <-]; auto|].
      destruct (_ && _); [intros [= <- <-]; auto|]. unfold inner_commit.
      destruct (s_fails E (attempts w2)) as [[k|]|]; intros [= <- <-]; cbn [puts st_world]; auto;
        apply Forall_app; split; auto; constructor; auto; right; now rewrite ?firstn_nil.
  Qed.
  Lemma run_doable cs : forall s os s', Forall doable (puts (st_world s)) -> run E s cs = (os, s') -> Forall doable (puts (st_world s')).
  Proof.
    induction cs as [|c cs IH]; intros s os s' L; cbn [run]; [intros [= <- <-]; auto|].
    destruct (step E s c) as [o s1] eqn:Es. destruct (run E s1 cs) as [os1 s2] eqn:Er. intros [= <- <-].
    eapply (IH s1); [eapply step_doable; eauto|exact Er].
  Qed.
  Lemma crashed_doable log log' : Forall doable log -> crashed log log' -> Forall doable log'.
  Proof.
    intros F (k & [->|(name & data & cut & En & ->)]).
    - rewrite <- (firstn_skipn k log) in F. apply Forall_app in F. tauto.
    - assert (D : doable (name, data)) by (rewrite Forall_forall in F; apply F; eapply nth_error_In; eauto).
      apply Forall_app. split.
      + rewrite <- (firstn_skipn k log) in F. apply Forall_app in F. tauto.
      + constructor; auto. destruct D as [(t & d & [= -> ->])|[= -> ->]]; [left; eauto|right; now rewrite firstn_nil].
  Qed.
  Lemma doable_operations log : Forall doable log -> exists ops, operations_of E log ops.
  Proof.
    induction 1 as [|e log D _ (ops & IH)]; [exists []; constructor|].
    destruct D as [(t & d & ->)| ->]; [exists (StoreBlob t d :: ops)|exists (StoreMarker 0 :: ops)]; constructor; auto.
  Qed.
  Lemma run_operations cs os s log' : run E (new_writer nothing) cs = (os, s) -> crashed (puts (st_world s)) log' ->
    exists ops, operations_of E log' ops.
  Proof.
    intros H C. apply doable_operations. eapply crashed_doable; [|exact C]. eapply run_doable; [|exact H]. constructor.
  Qed.
End Logs.

Lemma selected_batch :
  forall parse unzstd other fits image (columns : value -> result value) (filters : value -> result bool) (cf : value -> value) (pf : value -> bool) hash loads k (E : setting value) ext names folders texts y m d w rnd ds i,
    folder_names names -> daily_partitions folders -> written_as folders texts ->
    let dataset := join $"/" names in
    let t := dataset_template dataset folders in
    let root := day_folder t (y, m, d) in
    let frame := as_at_text w in
    new_frame_id rnd dataset texts w (a_day y m d) = Ok ds ->
    inner_filename (s_format E) ext ds = Ok (s_filename E) -> new_inner k (s_format E) ext ds = Ok i ->
    read_as parse unzstd other E (extension (s_format E) ext) fits image ->
    plain ext -> plain (s_node E) -> clean_failures E -> contains $"BACKOUT" (root ++ $"/" ++ frame) = false ->
    forall now hh mm ss hh' mm' ss' rnd' n es rs fs os (st : state (R:=value)) log' s0,
    let start := of_fields y m d hh mm ss in
    let stop := of_fields y m d hh' mm' ss' in
    valid_date y m d -> valid_time hh mm ss -> valid_time hh' mm' ss' -> (start <= stop)%Z ->
    proper k s0 -> NoDup es ->
    (forall name, In name (listing k rnd' (range_hours now start stop) root s0) <-> In name (map (name_in root) es)) ->
    tidy root (live root es) -> older_frames (live root es) frame ->
    run E (new_writer nothing) (map Append rs ++ map Finalize fs) = (os, st) ->
    good_clock E (attempts (st_world st)) -> crashed (puts (st_world st)) log' ->
    let records := taken E (map Append rs ++ map Finalize fs) os in
    (k = Gcs -> records <> []) -> (forall r, In r records -> fits r /\ applies columns filters cf pf (image r)) ->
    (exists ops, operations_of E log' ops) /\
    forall ops, operations_of E log' ops ->
    exists i' s1, operate k i (s_node E) ops s0 = Ok (i', s1) /\
      let read s := records_read (read_selected parse unzstd other columns filters hash loads k now rnd' t start stop n s) in
      ((~ marked (root ++ $"/" ++ frame) log' /\ read s1 = read s0) \/
       (marked (root ++ $"/" ++ frame) log' /\ read s1 = found records n (filter pf (map cf (map image records))))).
Proof.
  intros parse unzstd other fits image columns filters cf pf hash loads k E ext names folders texts y m d w rnd ds i HN HP HT dataset t root frame Hds Hfile Hinner HB PE PN CF NB
    now hh mm ss hh' mm' ss' rnd' n es rs fs os st log' s0 start stop V T1 T2 LE P0 ND L0 TD OF HR GC CR records TK HRec.
  split; [eapply run_operations; eauto|]. intros ops HO. pose proof (RoundTrip.read_as_extension _ _ _ _ _ _ _ HB) as HJ.
  destruct (operated parse unzstd other hash loads k E ext names folders texts y m d w rnd ds i HN HP HT HJ PE PN CF Hds Hfile Hinner NB rnd' es rs fs os st log' ops s0
              P0 TD HR GC CR HO TK) as (i' & s1 & Hop).
  exists i', s1. split; [exact Hop|].
  exact (whole parse unzstd other hash loads k E ext names folders texts y m d w rnd ds i HN HP HT HJ PE PN CF Hds Hfile Hinner NB
           now hh mm ss hh' mm' ss' rnd' n columns filters cf pf V T1 T2 LE es rs fs os st log' ops s0 P0 ND L0 TD OF HR GC CR HO TK fits image i' s1 HB Hop HRec).
Qed.
