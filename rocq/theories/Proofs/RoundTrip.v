(** Proofs: what a writer stored is what a reader reads. *)
From Coq Require Import Sorted.
From Verif.Base Require Import Py PyFacts Value ValueFacts.
From Verif.Model Require Import Paths Dates Frames ReadRange Cursor Storage Writers Reader.
From Verif.Spec Require Import Paths Frames Cursor Json Writers Reader.
From Verif.Proofs Require Import Paths Writers Json Cursor Batch Reader.

(** ** One blob *)
Section Blob.
  Context (parse : str -> result value) (unzstd : str -> result str) (other : str -> str -> generator value).
  Context (read_blob : str -> result str).

  Lemma extension_of_file ext name : file_with_extension ext name -> extension_of None name = Ok (Some ext).
  Proof.
    intros H. unfold extension_of. cbn [format_of]. destruct (get_parts_extension ext name H) as (b & f & st & E).
    rewrite E. reflexivity.
  Qed.
  Section Columns.
    Context (columns : value -> result value) (filters : value -> result bool).
    Lemma jsonl_blob name lines : file_with_extension $".jsonl" name ->
      read_blob name = Ok (lines_text lines) -> Forall one_line lines ->
      blob_records parse unzstd other read_blob columns filters None name =
      fst (select_and_filter columns filters (fst (map_gen parse lines None)) (snd (map_gen parse lines None))).
    Proof.
      intros Hx Hr Hl. unfold blob_records. rewrite (extension_of_file _ _ Hx), Hr.
      replace (dget str_eqb $".jsonl" KNOWN_EXTENSIONS) with (Some DATA) by (vm_compute; reflexivity).
      replace (decode parse unzstd other $".jsonl" (lines_text lines)) with
        (Some (map_gen parse (splitlines (lines_text lines)) None)) by (vm_compute; reflexivity).
      rewrite splitlines_text by auto. destruct (map_gen parse lines None); reflexivity.
    Qed.
    Lemma zstd_blob name data lines : file_with_extension $".zstd" name ->
      read_blob name = Ok data -> unzstd data = Ok (lines_text lines) -> Forall one_line lines ->
      blob_records parse unzstd other read_blob columns filters None name =
      fst (select_and_filter columns filters (fst (map_gen parse lines None)) (snd (map_gen parse lines None))).
    Proof.
      intros Hx Hr Hz Hl. unfold blob_records. rewrite (extension_of_file _ _ Hx), Hr.
      replace (dget str_eqb $".zstd" KNOWN_EXTENSIONS) with (Some DATA) by (vm_compute; reflexivity).
      replace (decode parse unzstd other $".zstd" data) with
        (Some (match unzstd data with
               | Raise e => ([], Some e)
               | Ok text => map_gen parse (removelast (split LF text)) None
               end)) by (vm_compute; reflexivity).
      rewrite Hz, split_text by (apply Forall_forall; auto). destruct (map_gen parse lines None); reflexivity.
    Qed.
  End Columns.

  Notation records := (blob_records parse unzstd other read_blob pass_thru pass_thru_filter None).
  Lemma jsonl_blob_until name lines rs : file_with_extension $".jsonl" name ->
    read_blob name = Ok (lines_text lines) -> Forall one_line lines -> until_damage parse lines rs ->
    records name = filter truthy rs.
  Proof.
    intros Hx Hr Hl Hd. rewrite (jsonl_blob _ _ name lines Hx Hr Hl), pass_all. cbn [fst].
    now rewrite (map_gen_until _ _ _ _ Hd).
  Qed.
  Lemma zstd_blob_until name data lines rs : file_with_extension $".zstd" name ->
    read_blob name = Ok data -> unzstd data = Ok (lines_text lines) -> Forall one_line lines -> until_damage parse lines rs ->
    records name = filter truthy rs.
  Proof.
    intros Hx Hr Hz Hl Hd. rewrite (zstd_blob _ _ name data lines Hx Hr Hz Hl), pass_all. cbn [fst].
    now rewrite (map_gen_until _ _ _ _ Hd).
  Qed.
  Lemma unreadable_blob name e ext : file_with_extension ext name -> read_blob name = Raise e -> records name = [].
  Proof.
    intros Hx Hr. unfold blob_records. rewrite (extension_of_file _ _ Hx), Hr.
    destruct (dget str_eqb ext KNOWN_EXTENSIONS); reflexivity.
  Qed.
End Blob.

(** ** The writer's blobs *)
Lemma filter_true {A} (p : A -> bool) l : (forall x, In x l -> p x = true) -> filter p l = l.
Proof.
  induction l as [|x l IH]; intros H; [reflexivity|]. cbn [filter]. rewrite H by (left; auto).
  f_equal. apply IH. intros y Hy. apply H. right. auto.
Qed.

Lemma data_extension_facts x : data_extension x ->
  dget str_eqb x KNOWN_EXTENSIONS = Some DATA /\
  exists e, x = $"." ++ e /\ e <> [] /\ ~ In "."%char e /\ ~ In "/"%char e.
Proof.
  unfold data_extension. cbn [In]. intros H.
  repeat (destruct H as [<-|H]; [split; [vm_compute; reflexivity|]; eexists; split; [reflexivity|]; cbn; intuition discriminate|]).
  destruct H.
Qed.

Lemma read_as_extension parse unzstd other E ext fits image : read_as parse unzstd other E ext fits image -> data_file_extension ext.
Proof. intros (e & x & H & D & _). exists e, x. auto. Qed.

Section Stored.
  Context (parse : str -> result value) (unzstd : str -> result str)
          (other : str -> str -> generator value) (read_blob : str -> result str).
  Context (E : setting value) (x : str) (fits : value -> Prop) (image : value -> value).
  Hypothesis HD : decodes_as parse unzstd other E x fits image.
  (** what is selected of the records and which are kept *)
  Context (columns : value -> result value) (filters : value -> result bool) (cf : value -> value) (pf : value -> bool).
  Notation records := (blob_records parse unzstd other read_blob columns filters None).
  Notation fine r := (fits r /\ applies columns filters cf pf (image r)).
  Notation selected l := (filter pf (map cf (map image l))).

  Lemma held_blob name g data : file_with_extension x name ->
    read_blob name = Ok data -> holds E g data ->
    (forall r, In r g -> fine r) -> records name = selected g.
  Proof.
    intros Hx Hr Hh Hg. destruct HD as [Dx Dd]. destruct (data_extension_facts x Dx) as [Kx _].
    unfold blob_records. rewrite (extension_of_file _ _ Hx), Kx, Hr.
    rewrite (Dd g data) by (auto; intros r H; apply (Hg r H)).
    rewrite (select_and_filter_total columns filters cf pf); [reflexivity| |]; intros r H; apply in_map_iff in H as (r0 & <- & H); apply (Hg r0 H).
  Qed.

  (** *** a list of stored blobs *)
  Lemma read_stored stored groups :
    StronglySorted (fun a b => str_ltb a b = true) (map fst stored) ->
    (forall n d, In (n, d) stored -> file_with_extension x n /\ read_blob n = Ok d) ->
    Forall2 (holds E) groups (map snd stored) ->
    (forall r, In r (concat groups) -> fine r) ->
    full_read records (map fst stored) (selected (concat groups)).
  Proof.
    intros HS HB HG HR. exists (map fst stored). split; [split; [exact HS|tauto]|].
    clear HS. revert groups HG HR. induction stored as [|[n d] stored IH]; intros groups HG HR.
    - inversion HG. reflexivity.
    - inversion HG as [|g ? groups' ? Hg HG']; subst. cbn [map fst flat_map concat].
      destruct (HB n d) as [Hx Hr]; [left; auto|].
      rewrite (held_blob n g d Hx Hr Hg) by (intros r H; apply HR; cbn; apply in_app_iff; auto).
      rewrite !map_app, filter_app. f_equal. apply IH; auto.
      + intros n' d' H. apply HB. right. auto.
      + intros r H. apply HR. cbn. apply in_app_iff. auto.
  Qed.
End Stored.

Lemma content_of_data dir log : NoDup (map fst (data_of dir log)) -> forall n d, In (n, d) (data_of dir log) ->
  content_of log n = Some d.
Proof.
  induction log as [|[m c] log IH]; [intros _ n d []|]. intros HN n d H.
  assert (Hn: n <> marker dir).
  { unfold data_of in H. apply filter_In in H as [_ H]. cbn [fst] in H. intros ->. rewrite str_eqb_refl in H. discriminate. }
  unfold data_of in HN, H. cbn [filter fst content_of] in *. change (filter _ log) with (data_of dir log) in *.
  destruct (str_eqb m (marker dir)) eqn:Em; cbn [negb] in *.
  - rewrite (IH HN n d H). reflexivity.
  - cbn [map fst] in HN. inversion HN as [|? ? Hni HN']; subst. destruct H as [H|H].
    + injection H as -> ->. destruct (content_of log n) as [d'|] eqn:Ed.
      * exfalso. apply Hni.
        assert (G: forall l, content_of l n = Some d' -> In (n, d') l).
        { clear. induction l as [|[a b] l IH]; cbn [content_of]; [discriminate|].
          destruct (content_of l n) as [x|] eqn:Ex.
          - intros [= ->]. right. auto.
          - destruct (str_eqb a n) eqn:Ea; [|discriminate]. intros [= ->]. apply str_eqb_eq in Ea. left. congruence. }
        apply G in Ed. change n with (fst (n, d')). apply in_map. unfold data_of. apply filter_In. split; auto.
        cbn [fst]. rewrite Em. reflexivity.
      * now rewrite str_eqb_refl.
    + rewrite (IH HN' n d H). reflexivity.
Qed.

(** ** A writer's history, then a read *)
Section History.
  Context (parse : str -> result value) (unzstd : str -> result str)
          (other : str -> str -> generator value) (read_blob : str -> result str).
  Context (E : setting value) (root frame ext : str) (e x : str) (fits : value -> Prop) (image : value -> value).
  Notation dir := (root ++ $"/" ++ frame).
  Hypothesis W : writes_in E dir ext.
  Hypothesis HX : ext = e ++ x.
  Hypothesis HD : decodes_as parse unzstd other E x fits image.
  Hypothesis HF : relative_folder dir.
  Context (columns : value -> result value) (filters : value -> result bool) (cf : value -> value) (pf : value -> bool).
  Notation records := (blob_records parse unzstd other read_blob columns filters None).
  Notation fine r := (fits r /\ applies columns filters cf pf (image r)).
  Notation selected l := (filter pf (map cf (map image l))).

  Lemma blob_extension t : file_with_extension x (blob_name (s_filename E) (s_node E) t).
  Proof.
    rewrite (Writers.blob_name_eq E dir ext W). destruct W as (_ & _ & _ & Xs & _ & _ & Ns).
    destruct HF as [Hr Hc]. rewrite HX in *.
    destruct (data_extension_facts x (proj1 HD)) as (_ & z & Hz & H1 & H2 & H3).
    assert (Hh: ~ In "/"%char (hex t)).
    { intros C. apply hex_chars in C. vm_compute in C. discriminate. }
    exists dir, (hex t ++ $"-" ++ s_node E ++ e), z.
    split; [now rewrite <- !app_assoc|]. split; [exact Hz|]. split; [exact H1|].
    split; [intros C; apply app_eq_nil in C as [C _]; apply (hex_nonempty t C)|]. split; [exact H2|]. split; [exact H3|].
    split; [|split; [exact Hr|exact Hc]].
    rewrite !in_app_iff. intros [C|[[C|[]]|[C|C]]]; auto; [discriminate|]. apply Xs, in_app_iff. auto.
  Qed.

  Lemma stored_readable ns (log : list (str * str)) : (forall n d, In (n, d) log -> exists k, n = blob_name (s_filename E) (s_node E) k) ->
    map fst log = ns -> filter is_readable ns = ns.
  Proof.
    intros H <-. apply filter_true. intros n Hn. apply in_map_iff in Hn as ([m d] & <- & Hm).
    destruct (H m d Hm) as (k & ->). cbn [fst]. unfold is_readable.
    rewrite (last_extension_eq x) by apply blob_extension.
    now rewrite (proj1 (data_extension_facts x (proj1 HD))).
  Qed.

  Lemma ltb_sorted K ns : good_clock E K -> StronglySorted Peano.lt ns -> Forall (fun n => (n < K)%nat) ns ->
    StronglySorted (fun a b => str_ltb a b = true) (map (fun n => blob_name (s_filename E) (s_node E) (s_clock E n)) ns).
  Proof.
    intros CL. induction 1 as [|n ns S IH F]; intros FK; cbn [map]; constructor.
    - apply IH. inversion FK; auto.
    - apply Forall_forall. intros b Hb. apply in_map_iff in Hb as (m & <- & Hm).
      rewrite Forall_forall in F, FK. unfold str_ltb.
      pose proof (Batch.bname_lt E root frame ext K W CL n m (F m Hm) (FK m (or_intror Hm))) as L.
      unfold Batch.bname in L. rewrite L. reflexivity.
  Qed.

  Lemma sorted_nodup (l : list str) : StronglySorted (fun a b => str_ltb a b = true) l -> NoDup l.
  Proof.
    induction 1 as [|a l S IH F]; constructor; auto. intros C. rewrite Forall_forall in F. apply F in C.
    unfold str_ltb in C. rewrite str_compare_refl in C. discriminate.
  Qed.

  (** a log in which the data blobs are the writer's in order of writing *)
  Lemma read_log log ns K groups hash loads limit n :
    good_clock E K -> StronglySorted Peano.lt ns -> Forall (fun n => (n < K)%nat) ns ->
    map fst (data_of dir log) = map (fun n => blob_name (s_filename E) (s_node E) (s_clock E n)) ns ->
    reads_log read_blob log ->
    Forall2 (holds E) groups (map snd (data_of dir log)) ->
    (forall r, In r (concat groups) -> fine r) ->
    concat groups <> [] -> (limit <= 1)%Z ->
    exists c, read_records hash loads (fun _ => Ok (map fst (data_of dir log))) limit records NoCursor n
              = Ok (firstn n (selected (concat groups)), c).
  Proof.
    intros CL HS HK Hn HL HG HR Hne Hlim.
    pose proof (ltb_sorted K ns CL HS HK) as Hsort. rewrite <- Hn in Hsort.
    pose proof (sorted_nodup _ Hsort) as HND.
    assert (HB: forall m d, In (m, d) (data_of dir log) -> exists k, m = blob_name (s_filename E) (s_node E) k).
    { intros m d H. assert (I: In m (map fst (data_of dir log))) by (change m with (fst (m, d)); apply in_map; auto).
      rewrite Hn in I. apply in_map_iff in I as (k & <- & _). eauto. }
    assert (FR: full_read records (map fst (data_of dir log)) (selected (concat groups))).
    { apply (read_stored parse unzstd other read_blob E x fits image HD columns filters); auto.
      intros m d H. split.
      - destruct (HB m d H) as (k & ->). apply blob_extension.
      - apply HL. eapply content_of_data; eauto. }
    unfold read_records. rewrite no_limit by auto. cbn [bind].
    rewrite (stored_readable _ _ HB eq_refl).
    assert (Hb: map fst (data_of dir log) <> []).
    { intros C. apply map_eq_nil in C. rewrite C in HG. inversion HG; subst. apply Hne. reflexivity. }
    destruct (map fst (data_of dir log)) as [|b0 bs] eqn:Eb; [congruence|]. rewrite <- Eb in *.
    apply read_once; auto. rewrite Hn. intros C. apply in_map_iff in C as (k & C & _).
    rewrite (Writers.blob_name_eq E dir ext W) in C. apply app_eq_nil in C as [_ C]. discriminate.
  Qed.

  Lemma history cs f os ret s hash loads n :
    clean_failures E -> run E (new_writer nothing) (cs ++ [Finalize f]) = (os ++ [Returned ret], s) ->
    good_clock E (attempts (st_world s)) ->
    reads_log read_blob (puts (st_world s)) ->
    let rs := taken E (cs ++ [Finalize f]) (os ++ [Returned ret]) in
    (forall r, In r rs -> fine r) -> rs <> [] ->
    exists c, read_records hash loads (fun _ => Ok (map fst (data_of dir (puts (st_world s))))) 0 records NoCursor n
              = Ok (firstn n (selected rs), c).
  Proof.
    intros CF H CL HL rs HR Hne.
    pose proof (Writers.stored_in_order E dir ext W CF _ _ s H) as (groups & waiting & HG & Hc & _ & Hw).
    rewrite (Hw cs f os ret eq_refl eq_refl), app_nil_r in Hc.
    change (stored_records E) with (taken E) in Hc. fold rs in Hc.
    assert (LN: Batch.log_names E root frame (st_world s)).
    { refine (Batch.log_names_run E root frame ext W CF _ _ _ _ _ H). exists []. repeat split; constructor. }
    destruct LN as (ns & Hns & HS & HK). rewrite <- Hc. unfold Batch.bdir, Batch.bname in Hns.
    eapply read_log; eauto; try (rewrite Hc; auto). lia.
  Qed.

  Lemma filter_firstn {A} (p : A -> bool) j l : exists i, filter p (firstn j l) = firstn i (filter p l).
  Proof.
    revert j. induction l as [|z l IH]; intros j.
    - exists 0%nat. now rewrite firstn_nil.
    - destruct j; [exists 0%nat; reflexivity|]. cbn [firstn filter]. destruct (IH j) as [i Hi].
      destruct (p z); [exists (S i); cbn; now rewrite Hi|exists i; auto].
  Qed.
  Lemma firstn_sorted i ns : StronglySorted Peano.lt ns -> StronglySorted Peano.lt (firstn i ns).
  Proof.
    intros H. revert i. induction H as [|n ns S IH F]; intros i; [rewrite firstn_nil; constructor|].
    destruct i; cbn [firstn]; constructor; auto. rewrite Forall_forall in *. intros m Hm. apply F.
    rewrite <- (firstn_skipn i ns). apply in_app_iff. auto.
  Qed.

  (** what is left of a batch, read *)
  Lemma read_left cs os s log' groups hash loads n :
    clean_failures E -> run E (new_writer nothing) cs = (os, s) ->
    good_clock E (attempts (st_world s)) ->
    crashed (puts (st_world s)) log' -> reads_log read_blob log' ->
    (forall r, In r (taken E cs os) -> fine r) -> taken E cs os <> [] ->
    Forall2 (holds E) groups (map snd (data_of dir log')) -> concat groups = taken E cs os ->
    exists c, read_records hash loads (fun _ => Ok (map fst (data_of dir log'))) 0 records NoCursor n
              = Ok (firstn n (selected (taken E cs os)), c).
  Proof.
    intros CF H CL Hc HL HR Hne HG Hg.
    assert (LN: Batch.log_names E root frame (st_world s)).
    { refine (Batch.log_names_run E root frame ext W CF _ _ _ _ _ H). exists []. repeat split; constructor. }
    destruct LN as (ns & Hns & HS & HK). unfold Batch.bname in Hns.
    assert (Hj: exists j, map fst log' = firstn j (map fst (puts (st_world s)))) by (eapply Batch.crash_names; eauto). destruct Hj as [j Hj].
    assert (Hi: exists i, map fst (data_of dir log') = firstn i (map fst (data_of dir (puts (st_world s))))).
    { change dir with (Batch.bdir root frame). rewrite (Batch.data_names root frame log'), (Batch.data_names root frame (puts (st_world s))), Hj. apply filter_firstn. }
    destruct Hi as [i Hi]. change (Batch.bdir root frame) with dir in *. rewrite Hns, firstn_map in Hi.
    rewrite <- Hg. apply (read_log log' (firstn i ns) _ groups hash loads 0 n CL (firstn_sorted i ns HS)); auto.
    - rewrite Forall_forall in *. intros m Hm'. apply HK. rewrite <- (firstn_skipn i ns). apply in_app_iff. auto.
    - rewrite Hg. auto.
    - rewrite Hg. auto.
    - lia.
  Qed.

  (** of nothing no blobs are made *)
  Lemma nothing_left cs os s log' :
    clean_failures E -> run E (new_writer nothing) cs = (os, s) -> crashed (puts (st_world s)) log' ->
    taken E cs os = [] -> map fst (data_of dir log') = [].
  Proof.
    intros CF H Hc Hno. destruct (Writers.stored_in_order E dir ext W CF _ _ s H) as (groups & waiting & HG & Hcc & Hn & _).
    change (stored_records E) with (taken E) in Hcc. rewrite Hno in Hcc. apply app_eq_nil in Hcc as [Hcc _].
    assert (groups = []) as ->.
    { destruct groups as [|g gs]; [auto|]. cbn [concat] in Hcc. apply app_eq_nil in Hcc as [-> _].
      exfalso. apply (Hn []); [left|]; auto. }
    assert (Hj: exists j, map fst log' = firstn j (map fst (puts (st_world s)))) by (eapply Batch.crash_names; eauto). destruct Hj as [j Hj].
    pose proof (Batch.data_names root frame log') as N1. pose proof (Batch.data_names root frame (puts (st_world s))) as N2.
    change (Batch.bdir root frame) with dir in *. rewrite N1, Hj.
    destruct (filter_firstn (fun n => negb (str_eqb n (marker dir))) j (map fst (puts (st_world s)))) as [i Hi].
    rewrite Hi, <- N2. destruct (data_of dir (puts (st_world s))); [apply firstn_nil|inversion HG].
  Qed.

  (** a batch, possibly killed, then a read *)
  Lemma batch es rs fs os s log' listing hash loads n :
    clean_failures E -> plain (s_node E) -> plain ext ->
    ~ In "/"%char frame /\ startswith $"as_at_" frame = true ->
    contains $"BACKOUT" dir = false ->
    NoDup es -> tidy root (live root es) -> older_frames (live root es) frame ->
    run E (new_writer nothing) (map Append rs ++ map Finalize fs) = (os, s) ->
    good_clock E (attempts (st_world s)) ->
    crashed (puts (st_world s)) log' -> NoDup listing ->
    (forall m, In m listing <-> In m (map (name_in root) es) \/ In m (map fst log')) ->
    reads_log read_blob log' ->
    let tk := taken E (map Append rs ++ map Finalize fs) os in
    (forall r, In r tk -> fine r) ->
    let read store := read_records hash loads (fun _ => get_list_of_blobs None (fun _ => store) [root]) 0 records NoCursor n in
    (~ marked dir log' /\ read listing = read (map (name_in root) es)) \/
    (marked dir log' /\ (tk <> [] -> exists c, read listing = Ok (firstn n (selected tk), c)) /\
     (tk = [] -> read listing = Raise DataNotFoundError)).
  Proof.
    intros CF PN PE FR NB Hnd T O H CL Hc Hl HI HL tk HR read.
    destruct (Batch.all_or_nothing E root frame ext _ W CF CL PN PE FR NB es rs fs os s log' listing Hnd T O H Hc Hl HI eq_refl)
      as (out & before & Eo & Eb & D).
    unfold read, read_records, find_blobs. rewrite Eo, Eb.
    destruct D as [(Hm & ->)|(Hm & -> & groups & HG & Hg)]; [left; auto|right]. split; [auto|]. split.
    - intros Hne. eapply (read_left _ _ _ log' groups hash loads n); eauto.
    - intros Hno. pose proof (nothing_left _ _ _ log' CF H Hc Hno) as Q. unfold Batch.bdir in *. rewrite Q. reflexivity.
  Qed.
End History.

(** ** Formats *)
(** lines of JSON, as they are, or compressed *)
Lemma texts_lines dump E (change : value -> value) g texts :
  (forall r t, s_ser E r = Ok t -> t = dump (change r) ++ ["010"%char]) ->
  texts_of E g texts -> concat texts = lines_text (map dump (map change g)).
Proof.
  intros Hser. unfold lines_text. rewrite !map_map.
  induction 1 as [|r t g texts H F IH]; [reflexivity|]. cbn [map concat]. rewrite (Hser r t H), IH. reflexivity.
Qed.
Lemma lines_decoded dump parse g : one_line_json dump parse -> (forall r, In r g -> distinct_keys r) ->
  Forall one_line (map dump g) /\ map_gen parse (map dump g) None = (g, None).
Proof.
  intros C H. split.
  - apply Forall_forall. intros l Hl. apply in_map_iff in Hl as (r & <- & Hr). apply C, H, Hr.
  - induction g as [|r g IH]; [reflexivity|]. cbn [map map_gen]. rewrite (proj1 (C r (H r (or_introl eq_refl)))).
    rewrite IH by (intros z Hz; apply H; right; auto). reflexivity.
Qed.
Lemma json_lines_read dump parse unzstd other E ext (change : value -> value) :
  one_line_json dump parse ->
  (forall r t, s_ser E r = Ok t -> t = dump (change r) ++ ["010"%char]) ->
  (forall t, unzstd (s_zstd E t) = Ok t) ->
  (s_format E = Jsonl \/ s_format E = Flat) /\ (exists e, ext = e ++ $".jsonl") \/
  s_format E = Zstd /\ (exists e, ext = e ++ $".zstd") ->
  read_as parse unzstd other E ext (fun r => distinct_keys (change r)) change.
Proof.
  intros C Hser Hz HF.
  assert (D : forall g, (forall r, In r g -> distinct_keys (change r)) ->
    Forall one_line (map dump (map change g)) /\ map_gen parse (map dump (map change g)) None = (map change g, None)).
  { intros g Hg. apply lines_decoded; auto. intros r Hr. apply in_map_iff in Hr as (z & <- & Hz'). auto. }
  destruct HF as [(F & e & Ex)|(F & e & Ex)].
  - exists e, $".jsonl". split; [exact Ex|]. split; [cbn; tauto|]. intros g data Hg Hh.
    destruct (D g Hg) as [H1 H2].
    assert (T : data = lines_text (map dump (map change g))).
    { unfold holds in Hh. destruct F as [F|F]; rewrite F in Hh; destruct Hh as (texts & T & ->); eapply texts_lines; eauto. }
    subst data. replace (decode parse unzstd other $".jsonl" (lines_text (map dump (map change g)))) with
        (Some (map_gen parse (splitlines (lines_text (map dump (map change g)))) None)) by (vm_compute; reflexivity).
    now rewrite splitlines_text, H2.
  - exists e, $".zstd". split; [exact Ex|]. split; [cbn; tauto|]. intros g data Hg Hh.
    destruct (D g Hg) as [H1 H2].
    unfold holds in Hh. rewrite F in Hh. destruct Hh as (texts & T & ->).
    rewrite (texts_lines dump E change g texts Hser T).
    replace (decode parse unzstd other $".zstd" (s_zstd E (lines_text (map dump (map change g))))) with
        (Some (match unzstd (s_zstd E (lines_text (map dump (map change g)))) with
               | Raise e => ([], Some e)
               | Ok text => map_gen parse (removelast (split LF text)) None
               end)) by (vm_compute; reflexivity).
    rewrite Hz, split_text by (apply Forall_forall; auto). now rewrite H2.
Qed.
Lemma json_writer_read dump parse unzstd other E ext :
  one_line_json dump parse -> json_lines_writer dump unzstd E ext -> read_as parse unzstd other E ext distinct_keys (fun r => r).
Proof.
  intros C (Hs & Hz & HF). apply (json_lines_read dump parse unzstd other E ext (fun r => r) C Hs Hz).
  destruct HF as [(F & ->)|(F & e & ->)]; [left|right; eauto]. split; [auto|]. exists []. reflexivity.
Qed.
Lemma parquet_read parse unzstd other E ext e (fits : value -> Prop) image :
  s_format E = Parquet -> ext = e ++ $".parquet" ->
  (forall g data, (forall r, In r g -> fits r) -> s_parquet E g = Ok data -> other $".parquet" data = (map image g, None)) ->
  read_as parse unzstd other E ext fits image.
Proof.
  intros F Ex H. exists e, $".parquet". split; [exact Ex|]. split; [cbn; tauto|]. intros g data Hg Hh.
  unfold holds in Hh. rewrite F in Hh.
  replace (decode parse unzstd other $".parquet" data) with (Some (other $".parquet" data)) by (vm_compute; reflexivity).
  now rewrite (H g data Hg Hh).
Qed.

(** ** Damage *)
(** without a selection or filter, those which are not empty *)
Lemma plain_fine r : applies pass_thru pass_thru_filter (fun r => r) truthy r.
Proof. split; reflexivity. Qed.

Section PlainHistory.
  Context (parse : str -> result value) (unzstd : str -> result str)
          (other : str -> str -> generator value) (read_blob : str -> result str).
  Context (E : setting value) (root frame ext : str) (fits : value -> Prop) (image : value -> value).
  Notation dir := (root ++ $"/" ++ frame).
  Hypothesis W : writes_in E dir ext.
  Hypothesis HB : read_as parse unzstd other E ext fits image.
  Hypothesis HF : relative_folder dir.
  Notation records := (blob_records parse unzstd other read_blob pass_thru pass_thru_filter None).

  Lemma plain_history cs f os ret s hash loads n :
    clean_failures E -> run E (new_writer nothing) (cs ++ [Finalize f]) = (os ++ [Returned ret], s) ->
    good_clock E (attempts (st_world s)) ->
    reads_log read_blob (puts (st_world s)) ->
    let rs := taken E (cs ++ [Finalize f]) (os ++ [Returned ret]) in
    (forall r, In r rs -> fits r) -> rs <> [] ->
    exists c, read_records hash loads (fun _ => Ok (map fst (data_of dir (puts (st_world s))))) 0 records NoCursor n
              = Ok (firstn n (filter truthy (map image rs)), c).
  Proof.
    intros CF H CL HL rs HR Hne. rewrite <- (map_id (map image rs)).
    destruct HB as (e0 & x0 & HX & HD).
    apply (history parse unzstd other read_blob E root frame ext e0 x0 fits image W HX HD HF pass_thru pass_thru_filter (fun r => r) truthy
             cs f os ret s hash loads n CF H CL HL); auto. intros r Hr. split; [apply HR, Hr|apply plain_fine].
  Qed.

  Lemma plain_left cs os s log' groups hash loads n :
    clean_failures E -> run E (new_writer nothing) cs = (os, s) ->
    good_clock E (attempts (st_world s)) ->
    crashed (puts (st_world s)) log' -> reads_log read_blob log' ->
    (forall r, In r (taken E cs os) -> fits r) -> taken E cs os <> [] ->
    Forall2 (holds E) groups (map snd (data_of dir log')) -> concat groups = taken E cs os ->
    exists c, read_records hash loads (fun _ => Ok (map fst (data_of dir log'))) 0 records NoCursor n
              = Ok (firstn n (filter truthy (map image (taken E cs os))), c).
  Proof.
    intros CF H CL Hc HL HR Hne HG Hg. rewrite <- (map_id (map image (taken E cs os))).
    destruct HB as (e0 & x0 & HX & HD).
    apply (read_left parse unzstd other read_blob E root frame ext e0 x0 fits image W HX HD HF pass_thru pass_thru_filter (fun r => r) truthy
             cs os s log' groups hash loads n CF H CL Hc HL); auto. intros r Hr. split; [apply HR, Hr|apply plain_fine].
  Qed.

  Lemma plain_batch es rs fs os s log' listing hash loads n :
    clean_failures E -> plain (s_node E) -> plain ext ->
    ~ In "/"%char frame /\ startswith $"as_at_" frame = true ->
    contains $"BACKOUT" dir = false ->
    NoDup es -> tidy root (live root es) -> older_frames (live root es) frame ->
    run E (new_writer nothing) (map Append rs ++ map Finalize fs) = (os, s) ->
    good_clock E (attempts (st_world s)) ->
    crashed (puts (st_world s)) log' -> NoDup listing ->
    (forall m, In m listing <-> In m (map (name_in root) es) \/ In m (map fst log')) ->
    reads_log read_blob log' ->
    let tk := taken E (map Append rs ++ map Finalize fs) os in
    (forall r, In r tk -> fits r) ->
    let read store := read_records hash loads (fun _ => get_list_of_blobs None (fun _ => store) [root]) 0 records NoCursor n in
    (~ marked dir log' /\ read listing = read (map (name_in root) es)) \/
    (marked dir log' /\ (tk <> [] -> exists c, read listing = Ok (firstn n (filter truthy (map image tk)), c)) /\
     (tk = [] -> read listing = Raise DataNotFoundError)).
  Proof.
    intros CF PN PE FR NB Hnd T O H CL Hc Hl HI HL tk HR. rewrite <- (map_id (map image tk)).
    destruct HB as (e0 & x0 & HX & HD).
    apply (batch parse unzstd other read_blob E root frame ext e0 x0 fits image W HX HD HF pass_thru pass_thru_filter (fun r => r) truthy
             es rs fs os s log' listing hash loads n CF PN PE FR NB Hnd T O H CL Hc Hl HI HL); auto. intros r Hr. split; [apply HR, Hr|apply plain_fine].
  Qed.
End PlainHistory.

Lemma flat_map_ext_in {A B} (f g : A -> list B) l : (forall a, In a l -> f a = g a) -> flat_map f l = flat_map g l.
Proof.
  induction l as [|a l IH]; intros H; [reflexivity|]. cbn [flat_map]. rewrite H by (left; auto).
  f_equal. apply IH. intros b Hb. apply H. right. auto.
Qed.
Lemma readable_not_empty blobs : ~ In [] (filter is_readable blobs).
Proof. intros H. apply filter_In in H as [_ H]. vm_compute in H. discriminate. Qed.

Lemma select_and_filter_In columns filters rows fin r :
  In r (fst (select_and_filter columns filters rows fin)) ->
  exists row, In row rows /\ columns row = Ok r /\ filters r = Ok true.
Proof.
  induction rows as [|row rows IH]; cbn [select_and_filter]; [intros []|].
  destruct (columns row) as [s|e] eqn:Ec; [|intros []]. destruct (filters s) as [k|e] eqn:Ef; [|intros []].
  destruct (select_and_filter columns filters rows fin) as [ys e]. destruct k; cbn [fst] in *.
  - intros [<-|H]; [exists row; split; [left|]; auto|]. destruct (IH H) as (x & Hx & Q). exists x. split; [right|]; auto.
  - intros H. destruct (IH H) as (x & Hx & Q). exists x. split; [right|]; auto.
Qed.

Lemma map_gen_In {A B} (f : A -> result B) l fin r : In r (fst (map_gen f l fin)) -> exists a, In a l /\ f a = Ok r.
Proof.
  induction l as [|a l IH]; cbn [map_gen]; [intros []|]. destruct (f a) as [b|e] eqn:Ef; [|intros []].
  destruct (map_gen f l fin) as [ys e]. cbn [fst] in *. intros [<-|H].
  - exists a. split; [left|]; auto.
  - destruct (IH H) as (x & Hx & Q). exists x. split; [right|]; auto.
Qed.

Section Any.
  Context (parse : str -> result value) (unzstd : str -> result str) (other : str -> str -> generator value).
  Context (read_blob : str -> result str).
  Context (hash : str -> Z) (loads : str -> result cdict).

  Lemma never_raises columns filters override blobs n : filter is_readable blobs <> [] ->
    exists out c,
      read_records hash loads (fun _ => Ok blobs) 0 (blob_records parse unzstd other read_blob columns filters override) NoCursor n
      = Ok (firstn n out, c) /\
      forall r, In r out -> exists b data ext rows fin row,
        In b blobs /\ is_readable b = true /\ read_blob b = Ok data /\ decode parse unzstd other ext data = Some (rows, fin) /\
        In row rows /\ columns row = Ok r /\ filters r = Ok true.
  Proof.
    intros Hne. set (recs := blob_records parse unzstd other read_blob columns filters override).
    destruct (full_read_exists recs (filter is_readable blobs)) as [out Ho].
    destruct (read_once hash loads recs (filter is_readable blobs) (readable_not_empty blobs) out n Ho) as [c Hc].
    exists out, c. split.
    - unfold read_records. rewrite no_limit by lia. cbn [bind].
      destruct (filter is_readable blobs) eqn:E; [congruence|exact Hc].
    - destruct Ho as (names & (_ & Hn) & ->). intros r Hr. apply in_flat_map in Hr as (b & Hb & Hr).
      apply Hn, filter_In in Hb as [Hb Hread]. unfold recs, blob_records in Hr.
      destruct (extension_of override b) as [[ext|]|e]; [|destruct Hr|destruct Hr].
      destruct (dget str_eqb ext KNOWN_EXTENSIONS) as [ty|]; [|destruct Hr].
      destruct (read_blob b) as [data|e] eqn:Er; [|destruct Hr].
      destruct (decode parse unzstd other ext data) as [[rows fin]|] eqn:Ed; [|destruct Hr].
      apply select_and_filter_In in Hr as (row & Hrow & Hc' & Hf).
      exists b, data, ext, rows, fin, row. auto 10.
  Qed.

  Lemma damaged blobs (content : str -> option (list str)) (rs : str -> list value) names n :
    (forall b, In b blobs -> file_with_extension $".jsonl" b /\
       match content b with
       | Some lines => read_blob b = Ok (lines_text lines) /\ Forall one_line lines /\ until_damage parse lines (rs b)
       | None => (exists e, read_blob b = Raise e) /\ rs b = []
       end) ->
    blobs <> [] -> ascending_names blobs names ->
    exists c,
      read_records hash loads (fun _ => Ok blobs) 0 (blob_records parse unzstd other read_blob pass_thru pass_thru_filter None) NoCursor n
      = Ok (firstn n (flat_map (fun b => filter truthy (rs b)) names), c).
  Proof.
    intros HB Hne HN. set (recs := blob_records parse unzstd other read_blob pass_thru pass_thru_filter None).
    assert (Hread: filter is_readable blobs = blobs).
    { apply filter_true. intros b Hb. unfold is_readable.
      rewrite (last_extension_eq $".jsonl") by (apply HB; auto). reflexivity. }
    assert (FR: full_read recs blobs (flat_map (fun b => filter truthy (rs b)) names)).
    { exists names. split; auto. apply flat_map_ext_in. intros b Hb. apply HN in Hb.
      destruct (HB b Hb) as [Hx Hc]. unfold recs. destruct (content b) as [lines|].
      - destruct Hc as (Hr & Ho & Hd). symmetry. eapply jsonl_blob_until; eauto.
      - destruct Hc as ((e & Hr) & ->). symmetry. eapply unreadable_blob; eauto. }
    unfold read_records. rewrite no_limit by lia. cbn [bind]. rewrite Hread.
    destruct blobs as [|b0 bs] eqn:E; [congruence|]. rewrite <- E in *.
    apply read_once; auto. rewrite <- Hread. apply readable_not_empty.
  Qed.
End Any.

(** the lines of a damaged file, delivered or not, are never invented *)
Lemma jsonl_rows parse unzstd other data rows fin r :
  decode parse unzstd other $".jsonl" data = Some (rows, fin) -> In r rows ->
  exists line, In line (splitlines data) /\ parse line = Ok r.
Proof.
  intros H Hr. change (Some (map_gen parse (splitlines data) None) = Some (rows, fin)) in H.
  injection H as H. apply (map_gen_In parse (splitlines data) None r). rewrite H. exact Hr.
Qed.

(** the reference JSON codec writes one line per record *)
Lemma json_one_line : one_line_json Json.dumps Json.loads.
Proof.
  intros v Hv. split; [apply Json.json_faithful; auto|]. intros c Hc. apply Json.dumps_printable in Hc.
  unfold line_end. destruct (Ascii.eqb_spec c "010") as [->|]; [cbn in Hc; lia|].
  destruct (Ascii.eqb_spec c "013") as [->|]; [cbn in Hc; lia|]. reflexivity.
Qed.
