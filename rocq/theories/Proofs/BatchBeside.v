(** Proofs: a batch for a day which has data in parts (by_ folders). *)
From Verif.Base Require Import Py PyFacts Value ValueFacts.
From Verif.Model Require Import Paths Dates Frames ReadRange Cursor Storage Writers Adapters Reader.
From Verif.Spec Require Import Paths Dates Frames Cursor Json Writers Reader StreamRead.
From Verif.Spec Require Adapters.
From Verif.Spec Require Import System StreamStore.
From Verif.Proofs Require RoundTrip Frames.
From Verif.Proofs Require Import Paths Dates Writers Adapters AdaptersUse System.
From Verif.Proofs Require BatchFolder StreamRange ReadRange Repeats RangeDays SystemBatch BatchRange.
Local Open Scope nat_scope.

(** ** What is outside of the parts does not matter *)
Lemma partition_starts l x : In x (partitions_of l) -> startswith $"by_" x = true.
Proof.
  unfold partitions_of. intros H. apply -> (dedup_In str_eqb str_eqb_eq) in H. apply in_flat_map in H.
  destruct H as (b & _ & H). unfold extract_by in H. rewrite Frames.first_starting_find in H.
  destruct (find _ _) as [z|] eqn:F; [|destruct H]. destruct H as [<-|[]]. now apply find_some in F.
Qed.
Lemma chosen_by x b : startswith $"by_" x = true -> contains ($"/" ++ x ++ $"/") b = true -> contains $"/by_" b = true.
Proof.
  intros S. apply startswith_iff in S as [r ->]. rewrite !contains_iff. intros (u & v & ->).
  exists u, (r ++ $"/" ++ v). rewrite <- !app_assoc. reflexivity.
Qed.
Definition parted (b : str) : bool := contains $"/by_" b.
Lemma partitions_parted l : partitions_of l = partitions_of (filter parted l).
Proof.
  unfold partitions_of. do 2 f_equal. induction l as [|b l IH]; auto. cbn [filter]. unfold parted at 1.
  destruct (contains $"/by_" b) eqn:E; [cbn [filter]; rewrite E, IH; reflexivity|exact IH].
Qed.
Lemma filter_twice {A} (f g : A -> bool) l : (forall x, g x = true -> f x = true) -> filter g (filter f l) = filter g l.
Proof.
  intros H. induction l as [|a l IH]; auto. cbn [filter]. destruct (f a) eqn:F; cbn [filter]; [now rewrite IH|].
  destruct (g a) eqn:G; auto. apply H in G. congruence.
Qed.
Lemma partitions_some l : (exists b, In b l /\ parted b = true) -> partitions_of l <> [].
Proof.
  intros (b & I & P). destruct (Frames.extract_by_some b P) as (x & Ex). intros N.
  assert (In x (partitions_of l)); [|rewrite N in H; destruct H].
  unfold partitions_of. apply <- (dedup_In str_eqb str_eqb_eq). apply in_flat_map. exists b. split.
  - apply filter_In. auto.
  - rewrite Ex. now left.
Qed.
Lemma choose_parted l parts : parts <> [] -> (forall x, In x parts -> startswith $"by_" x = true) ->
  choose_partition l parts = choose_partition (filter parted l) parts.
Proof.
  intros NE S. unfold choose_partition. destruct (rev (sorted_str parts)) as [|x xs] eqn:R.
  - exfalso. destruct parts as [|p parts]; [congruence|]. assert (I : In p (rev (sorted_str (p :: parts)))).
    { apply -> in_rev. apply sorted_str_In. now left. }
    rewrite R in I. destruct I.
  - f_equal. symmetry. apply filter_twice. intros b. apply chosen_by. apply S.
    apply sorted_str_In. apply in_rev. rewrite R. now left.
Qed.

Lemma cycle_parted pf l : (exists b, In b l /\ parted b = true /\ contains $"BACKOUT" b = false) ->
  cycle_blobs_of pf l = cycle_blobs_of pf (filter parted l).
Proof.
  intros (b & I & P & NB). unfold cycle_blobs_of.
  assert (C : filter (fun b => negb (contains $"BACKOUT" b)) (filter parted l) = filter parted (filter (fun b => negb (contains $"BACKOUT" b)) l)).
  { clear. induction l as [|a l IH]; auto. cbn [filter]. destruct (parted a) eqn:E1, (negb (contains $"BACKOUT" a)) eqn:E2; cbn [filter];
      rewrite ?E1, ?E2, IH; reflexivity. }
  rewrite C. clear C. set (lv := filter (fun b => negb (contains $"BACKOUT" b)) l) in *.
  assert (HP : partitions_of lv <> []).
  { apply partitions_some. exists b. split; auto. apply filter_In. split; [exact I|cbv beta; rewrite NB; reflexivity]. }
  rewrite <- (partitions_parted lv). pose proof (fun x => partition_starts lv x) as PS.
  set (parts := partitions_of lv) in *. clearbody parts lv. clear - HP PS.
  destruct pf as [[[field op] value]|]; cbn [apply_partition_filter].
  - destruct (negb _); [reflexivity|]. destruct (existsb _ _); cbn [bind].
    + rewrite filter_twice; [reflexivity|]. intros x H. unfold parted. apply contains_iff in H as (u & v & ->).
      apply contains_iff. exists u, (sanitize field ++ $"/" ++ sanitize field ++ $"=" ++ sanitize value ++ $"/" ++ v).
      rewrite <- !app_assoc. reflexivity.
    + rewrite (choose_parted lv parts); auto.
  - cbn [bind]. rewrite (choose_parted lv parts); auto.
Qed.
Lemma select_frame_In l b : In b (select_frame l) -> In b l.
Proof.
  unfold select_frame. destruct (rev _) as [|a s]; auto. destruct (frame_loop l a s); [|intros []].
  intros H. now apply filter_In in H.
Qed.
Lemma cycle_In pf l out b : cycle_blobs_of pf l = Ok out -> In b out -> In b l /\ contains $"BACKOUT" b = false.
Proof.
  unfold cycle_blobs_of. set (lv := filter _ l). destruct (apply_partition_filter pf lv (partitions_of lv)) as [[cb parts]|e] eqn:A; [|discriminate].
  cbn [bind]. destruct (choose_partition cb parts) as [ch cb'] eqn:C. intros [= <-] H.
  unfold read_folders in H. apply in_flat_map in H as (f & _ & H). apply select_frame_In in H. apply filter_In in H as [H _].
  assert (H1 : In b cb).
  { unfold choose_partition in C. destruct (rev _); injection C as <- <-; auto. now apply filter_In in H. }
  assert (H2 : In b lv).
  { unfold apply_partition_filter in A. destruct pf as [[[field op] v]|]; [|injection A as <- <-; auto].
    destruct (negb _); [discriminate|]. destruct (existsb _ _); injection A as <- <-; auto. now apply filter_In in H1. }
  apply filter_In in H2. now rewrite negb_true_iff in H2.
Qed.

(** ** The names of a batch *)
Lemma hex_file_not_by f ext node t : startswith $"by_" (blob_file f ext node t) = false.
Proof.
  destruct (startswith $"by_" (blob_file f ext node t)) eqn:S; auto. exfalso. apply startswith_iff in S as [r S].
  unfold blob_file in S. destruct (hex t) as [|a [|b h]] eqn:H; cbn [app list_ascii_of_string] in S; try congruence.
  assert (Y : In b (hex t)) by (rewrite H; right; now left). apply hex_chars in Y. injection S as _ S _. subst b. discriminate.
Qed.

Section Beside.
  Context (k : kind) (E : setting value) (ext : str) (names : list str) (folders : list (list seg)) (texts : list str) (y m d : Z) (w : moment) (rnd ds : str) (i : inner).
  Hypothesis HN : folder_names names.
  Hypothesis HF : daily_partitions folders.
  Hypothesis HT : written_as folders texts.
  Hypothesis HJ : data_file_extension (extension (s_format E) ext).
  Hypothesis PE : plain ext.
  Hypothesis PN : plain (s_node E).
  Hypothesis CF : clean_failures E.
  Hypothesis Hds : new_frame_id rnd (join $"/" names) texts w (a_day y m d) = Ok ds.
  Hypothesis Hfile : inner_filename (s_format E) ext ds = Ok (s_filename E).
  Hypothesis Hinner : new_inner k (s_format E) ext ds = Ok i.
  Local Notation t := (dataset_template (join $"/" names) folders).
  Local Notation root := (day_folder t (y, m, d)).
  Local Notation dn := (day_names names folders (a_day y m d)).
  Hypothesis NB : contains $"BACKOUT" (root ++ $"/" ++ as_at_text w) = false.
  Context (now : datetime) (hh mm ss hh' mm' ss' : Z) (rnd' : str) (n : nat) (asked : option (str * str * str)).
  Hypothesis V : valid_date y m d.
  Hypothesis T1 : valid_time hh mm ss.
  Hypothesis T2 : valid_time hh' mm' ss'.
  Local Notation start := (of_fields y m d hh mm ss).
  Local Notation stop := (of_fields y m d hh' mm' ss').
  Hypothesis LE : (start <= stop)%Z.
  Local Notation hours := (range_hours now start stop).
  Context (es : list entry) (rs : list value) (fs : list bool) (os : list outcome) (st : state (R:=value))
          (log' : list (str * str)) (ops : list operation) (s0 s1 : stored) (i' : inner).
  Hypothesis P0 : proper k s0.
  Hypothesis L0 : forall q, In q (listing k rnd' hours root s0) <-> In q (map (name_in root) es).
  Hypothesis TD : tidy root (live root es).
  Hypothesis BY : exists e, live root es e /\ e_by e <> None.
  Hypothesis HR : run E (new_writer nothing) (map Append rs ++ map Finalize fs) = (os, st).
  Hypothesis GC : good_clock E (attempts (st_world st)).
  Hypothesis CR : crashed (puts (st_world st)) log'.
  Hypothesis HO : operations_of E log' ops.
  Hypothesis TK : k = Gcs -> taken E (map Append rs ++ map Finalize fs) os <> [].
  Hypothesis Hop : operate k i (s_node E) ops s0 = Ok (i', s1).

  Lemma log_named q : In q (map fst log') -> exists file, component file /\ startswith $"by_" file = false /\
    q = join $"/" (dn ++ [as_at_text w]) ++ $"/" ++ file.
  Proof.
    destruct (SystemBatch.writer_facts k E ext names folders texts y m d w rnd ds i HN HF HT Hds Hfile Hinner) as (b & fs' & Ed & F & Hf & _).
    pose proof (SystemBatch.fit E ext HJ PE PN) as Fit.
    rewrite Ed. clear - HO F Hf Fit. induction HO as [|e o l1 l2 He HO1 IH]; [intros []|].
    apply (op_named E ext b fs' F Fit Hf) in He as [He _]. intros [<-|Hq]; [|auto].
    exists (file_of_op E ext o). destruct (file_of_op_ok E ext Fit o). split; auto. split; auto.
    destruct o; [apply hex_file_not_by|reflexivity].
  Qed.
  Lemma root_is : root = join $"/" dn.
  Proof. apply (SystemBatch.root_join names folders y m d); auto. Qed.
  Lemma log_not_parted q : In q (map fst log') -> parted q = false.
  Proof.
    intros Hq. destruct (log_named q Hq) as (file & (Nf & _ & Sf) & By & ->).
    pose proof (day_folder_ok names HN folders HF (a_day y m d)) as FD.
    assert (Ne : dn <> []) by (apply day_names_ne; auto).
    destruct (parted _) eqn:P; auto. exfalso. unfold parted in P.
    assert (J : join $"/" (dn ++ [as_at_text w]) ++ $"/" ++ file = join $"/" (dn ++ [as_at_text w; file])).
    { rewrite !join_app by (auto; discriminate). cbn [join]. rewrite <- !app_assoc. reflexivity. }
    rewrite J in P. change ($"/by_") with (join [slash] ([] :: [] ++ [$"by_"])) in P.
    pose proof (BatchFolder.as_at_component w) as ((_ & _ & Aw) & _).
    assert (NS : forall c, In c (dn ++ [as_at_text w; file]) -> ~ In slash c).
    { intros c Hc. apply in_app_iff in Hc as [Hc|[<-|[<-|[]]]]; auto. destruct FD as (_ & FD & _). destruct (FD c Hc) as ((_ & _ & X) & _). exact X. }
    apply contains_join in P; auto.
    - destruct P as (pre & u & v & post & Q).
      assert (I : In ($"by_" ++ v) (dn ++ [as_at_text w; file])) by (rewrite Q; apply in_app_iff; right; right; left; reflexivity).
      apply in_app_iff in I as [I|[I|[I|[]]]].
      + assert (R : In ($"by_" ++ v) (split "/"%char root)).
        { rewrite root_is. rewrite split_join; auto. intros c Hc. apply NS. apply in_app_iff. auto. }
        apply (t_root _ _ TD) in R as ([R _] & _). rewrite startswith_app in R. discriminate.
      + unfold as_at_text in I. discriminate.
      + rewrite I, startswith_app in By. discriminate.
    - intros c [<-|[<-|[]]]; cbn; intuition discriminate.
    - intros Q. apply app_eq_nil in Q. destruct Q. discriminate.
  Qed.

  Lemma beside parse unzstd other columns filters hash loads :
    let read s := records_read (read_asked parse unzstd other columns filters hash loads k now rnd' t asked start stop n s) in
    read s1 = read s0.
  Proof.
    cbv zeta.
    destruct (BatchRange.stored_after k E ext names folders texts y m d w rnd ds i HN HF HT HJ PE PN CF Hds Hfile Hinner NB es rs fs os st log' ops s0 s1 i' P0 TD HR GC CR HO TK Hop)
      as (P1 & H1 & O1).
    assert (DT : daily_template t) by (apply template_daily; auto).
    assert (RD : forall s, read_asked parse unzstd other columns filters hash loads k now rnd' t asked start stop n s =
      read_records hash loads (fun _ => get_list_of_blobs asked (fun _ => listing k rnd' hours root s) [root]) 0
        (blob_records parse unzstd other (fun name => get_blob_bytes k name s) columns filters None) NoCursor n).
    { intros s. unfold read_asked, read_records, find_blobs.
      rewrite (list_day_asked asked t _ now rnd' y m d hh mm ss hh' mm' ss' DT V T1 T2 LE). reflexivity. }
    rewrite !RD. clear RD.
    assert (G : forall l, (exists b, In b l /\ parted b = true /\ contains $"BACKOUT" b = false) ->
      get_list_of_blobs asked (fun _ => l) [root] = get_list_of_blobs asked (fun _ => filter parted l) [root]).
    { intros l X. unfold get_list_of_blobs. cbn [dedup existsb filter mapM]. rewrite (cycle_parted asked l X). reflexivity. }
    assert (LD : forall s b, proper k s -> In b (listing k rnd' hours root s) <->
        startswith (root ++ $"/") b = true /\ endswith $"/" b = false /\ exists data, holds_at k s b data).
    { intros s b. apply (SystemBatch.listing_day k names folders y m d HN HF now hh mm ss hh' mm' ss' rnd' LE). }
    assert (X0 : exists b, In b (listing k rnd' hours root s0) /\ parted b = true /\ contains $"BACKOUT" b = false).
    { destruct BY as (e & He & Hb). exists (name_in root e). split; [apply L0; apply in_map; apply He|]. split; [|apply He].
      now apply (Frames.contains_by root _ TD e He). }
    assert (X1 : exists b, In b (listing k rnd' hours root s1) /\ parted b = true /\ contains $"BACKOUT" b = false).
    { destruct X0 as (b & I & R). exists b. split; auto. apply (LD s0 b P0) in I as (A & B & C). apply (LD s1 b P1).
      split; auto. split; auto. apply H1. auto. }
    rewrite (G _ X0), (G _ X1).
    assert (SM : Repeats.same (filter parted (listing k rnd' hours root s1)) (filter parted (listing k rnd' hours root s0))).
    { intros b. rewrite !filter_In, (LD s1 b P1), (LD s0 b P0), H1. split.
      - intros ((A & B & [C|C]) & D); auto. apply log_not_parted in C. congruence.
      - intros ((A & B & C) & D). auto. }
    rewrite (Repeats.read_set hash loads _ _ (get_list_of_blobs asked (fun _ => filter parted (listing k rnd' hours root s0)) [root]))
      by (apply Repeats.get_list_same; intros _ _; exact SM).
    f_equal. unfold read_records, find_blobs. change (1 <? 0)%Z with false. cbn iota.
    destruct (get_list_of_blobs asked _ [root]) as [out|e] eqn:Eo; cbn [bind]; [|reflexivity].
    destruct (filter is_readable out) as [|x0 l0] eqn:El; [reflexivity|]. rewrite <- El. clear x0 l0 El.
    apply session_same. intros q Hq. apply filter_In in Hq as [Hq _].
    assert (Q : In q (filter parted (listing k rnd' hours root s0)) /\ contains $"BACKOUT" q = false).
    { unfold get_list_of_blobs in Eo. cbn [dedup existsb filter mapM] in Eo.
      destruct (cycle_blobs_of asked _) as [c|e] eqn:Ec; [|discriminate]. cbn [bind] in Eo. injection Eo as <-.
      apply -> sorted_str_In in Hq. cbn [concat] in Hq. rewrite app_nil_r in Hq. exact (cycle_In _ _ _ _ Ec Hq). }
    destruct Q as [Q NBq]. apply filter_In in Q as [Q Pq]. apply L0 in Q. apply in_map_iff in Q as (e & <- & He).
    assert (Le : live root es e) by (split; auto).
    apply (Frames.contains_by root _ TD e Le) in Pq. destruct (e_by e) as [[b f]|] eqn:Eb; [|congruence].
    unfold blob_records. rewrite O1; [reflexivity|].
    intros p Hp. destruct (log_named p Hp) as (file & Cf & _ & ->).
    destruct (t_by _ _ TD e b f Le Eb) as (Pb & Sb & _).
    assert (Cb : component b).
    { split; [intros ->; discriminate|]. split; [intros ->; discriminate|exact Pb]. }
    pose proof (day_folder_ok names HN folders HF (a_day y m d)) as FD.
    assert (CD : components_of (join $"/" dn) = dn) by (apply components_join; intros c Hc; apply FD; auto).
    assert (Q1 : exists rest, components_of (name_in root e) = dn ++ b :: rest).
    { unfold name_in, local_parts. rewrite Eb. cbn [app]. rewrite join_cons by discriminate.
      rewrite root_is, !components_app_slash, CD, (components_single b) by auto. eexists. reflexivity. }
    assert (Q2 : components_of (join $"/" (dn ++ [as_at_text w]) ++ $"/" ++ file) = dn ++ as_at_text w :: components_of file).
    { rewrite join_app by (apply day_names_ne || discriminate; auto). cbn [join]. rewrite <- !app_assoc, !components_app_slash, CD.
      rewrite (components_single (as_at_text w)) by apply (BatchFolder.as_at_component w). reflexivity. }
    destruct Q1 as (rest & Q1). rewrite Q1, Q2. intros Q. apply app_inv_head in Q.
    injection Q as -> _. unfold as_at_text in Sb. discriminate.
  Qed.
End Beside.

Theorem batch_beside_parts :
  forall k (E : setting value) ext names folders texts y m d w rnd ds i,
    folder_names names -> daily_partitions folders -> written_as folders texts ->
    let t := dataset_template (join $"/" names) folders in
    let root := day_folder t (y, m, d) in
    new_frame_id rnd (join $"/" names) texts w (a_day y m d) = Ok ds ->
    inner_filename (s_format E) ext ds = Ok (s_filename E) -> new_inner k (s_format E) ext ds = Ok i ->
    data_file_extension (extension (s_format E) ext) ->
    plain ext -> plain (s_node E) -> clean_failures E -> contains $"BACKOUT" (root ++ $"/" ++ as_at_text w) = false ->
    forall now hh mm ss hh' mm' ss' rnd' es rs fs os (st : state (R:=value)) log' s0,
    let start := of_fields y m d hh mm ss in
    let stop := of_fields y m d hh' mm' ss' in
    valid_date y m d -> valid_time hh mm ss -> valid_time hh' mm' ss' -> (start <= stop)%Z ->
    proper k s0 ->
    (forall name, In name (listing k rnd' (range_hours now start stop) root s0) <-> In name (map (name_in root) es)) ->
    tidy root (live root es) -> (exists e, live root es e /\ e_by e <> None) ->
    run E (new_writer nothing) (map Append rs ++ map Finalize fs) = (os, st) ->
    good_clock E (attempts (st_world st)) -> crashed (puts (st_world st)) log' ->
    (k = Gcs -> taken E (map Append rs ++ map Finalize fs) os <> []) ->
    (exists ops, operations_of E log' ops) /\
    forall ops, operations_of E log' ops ->
    exists i' s1, operate k i (s_node E) ops s0 = Ok (i', s1) /\
      forall parse unzstd other columns filters hash loads asked n,
      let read s := records_read (read_asked parse unzstd other columns filters hash loads k now rnd' t asked start stop n s) in
      read s1 = read s0.
Proof.
  intros k E ext names folders texts y m d w rnd ds i HN HP HT t root Hds Hfile Hinner HJ PE PN CF NB
    now hh mm ss hh' mm' ss' rnd' es rs fs os st log' s0 start stop V T1 T2 LE P0 L0 TD BY HR GC CR TK.
  split; [eapply SystemBatch.run_operations; eauto|]. intros ops HO.
  destruct (SystemBatch.operated (fun _ => Raise ValueError) (fun _ => Raise ValueError) (fun _ _ => ([], None)) (fun _ => 0%Z) (fun _ => Raise ValueError)
              k E ext names folders texts y m d w rnd ds i HN HP HT HJ PE PN CF Hds Hfile Hinner NB rnd' es rs fs os st log' ops s0
              P0 TD HR GC CR HO TK) as (i' & s1 & Hop).
  exists i', s1. split; [exact Hop|]. intros parse unzstd other columns filters hash loads asked n.
  exact (beside k E ext names folders texts y m d w rnd ds i HN HP HT HJ PE PN CF Hds Hfile Hinner NB now hh mm ss hh' mm' ss' rnd' n asked V T1 T2 LE
           es rs fs os st log' ops s0 s1 i' P0 L0 TD BY HR GC CR HO TK Hop parse unzstd other columns filters hash loads).
Qed.
