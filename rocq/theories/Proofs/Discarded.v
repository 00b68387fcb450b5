(** Proofs about batch writers which are thrown away. *)
From Verif.Base Require Import Py Value.
From Verif.Model Require Import Paths Dates Frames ReadRange Cursor Storage Writers Adapters Reader Collector.
From Verif.Spec Require Import Paths Dates Frames Cursor Json Writers Reader Adapters System.
From Verif.Proofs Require SystemBatch.

Section Discard.
  Context {R : Type} (E : setting R).
  Lemma like_failed (s : state (R:=R)) : discard E s = st_world (snd (step E s (Finalize true))).
  Proof.
    unfold discard. cbn [step]. unfold finalize. destruct (Writers.commit E (st_blob s) (st_world s)) as [[n|e] [b w]]; reflexivity.
  Qed.
  Lemma run_more cs c : forall s os st, run E s cs = (os, st) ->
    run E s (cs ++ [c]) = (os ++ [fst (step E st c)], snd (step E st c)).
  Proof.
    induction cs as [|a cs IH]; intros s os st; cbn [run app].
    - intros [= <- <-]. destruct (step E s c); reflexivity.
    - destruct (step E s a) as [o s1]. destruct (run E s1 cs) as [os1 s2] eqn:E1. intros [= <- <-]. now rewrite (IH _ _ _ E1).
  Qed.
  Lemma not_refused_more cs f : not_refused E (cs ++ [Finalize f]) = not_refused E cs.
  Proof. induction cs as [|[r|g] cs IH]; cbn; [reflexivity| |exact IH]. destruct (s_check E r); congruence. Qed.
  Lemma accepted_more f o cs : forall os : list outcome, length cs = length os ->
    accepted (R:=R) (cs ++ [Finalize f]) (os ++ [o]) = accepted cs os.
  Proof.
    induction cs as [|[r|g] cs IH]; intros [|p os] L; try discriminate; [reflexivity| |].
    - cbn. destruct p; [f_equal|]; apply IH; now injection L.
    - cbn. apply IH; now injection L.
  Qed.
  Lemma run_length cs : forall s os st, run E s cs = (os, st) -> length cs = length os.
  Proof.
    induction cs as [|a cs IH]; intros s os st; cbn [run]; [now intros [= <- <-]|].
    destruct (step E s a) as [o s1]. destruct (run E s1 cs) as [os1 s2] eqn:E1. intros [= <- <-]. cbn. f_equal. eauto.
  Qed.
  Lemma taken_more cs f os st o : run E (new_writer nothing) cs = (os, st) ->
    taken E (cs ++ [Finalize f]) (os ++ [o]) = taken E cs os.
  Proof.
    intros H. unfold taken. destruct (is_parquet _); [apply not_refused_more|]. apply accepted_more. eapply run_length; eauto.
  Qed.
End Discard.

Lemma thrown_away :
  forall parse unzstd other fits image (columns : value -> result value) (filters : value -> result bool) (cf : value -> value) (pf : value -> bool) hash loads k (E : setting value) ext names folders texts y m d w rnd ds i,
    folder_names names -> daily_partitions folders -> written_as folders texts ->
    let dataset := join $"/" names in
    let t := dataset_template dataset folders in
    let root := day_folder t (y, m, d) in
    let frame := as_at_text w in
    new_frame_id rnd dataset texts w (a_day y m d) = Ok ds ->
    inner_filename (s_format E) ext ds = Ok (s_filename E) -> new_inner k (s_format E) ext ds = Ok i ->
    read_as parse unzstd other E (extension (s_format E) ext) fits image ->
    plain ext -> plain (s_node E) -> clean_failures E -> contains $"BACKOUT" (root ++ $"/" ++ frame) = false ->
    forall now hh mm ss hh' mm' ss' rnd' n es rs fs os (st : state (R:=value)) log' s0,
    let start := of_fields y m d hh mm ss in
    let stop := of_fields y m d hh' mm' ss' in
    valid_date y m d -> valid_time hh mm ss -> valid_time hh' mm' ss' -> (start <= stop)%Z ->
    proper k s0 -> NoDup es ->
    (forall name, In name (listing k rnd' (range_hours now start stop) root s0) <-> In name (map (name_in root) es)) ->
    tidy root (live root es) -> older_frames (live root es) frame ->
    run E (new_writer nothing) (map Append rs ++ map Finalize fs) = (os, st) ->
    good_clock E (attempts (discard E st)) -> crashed (puts (discard E st)) log' ->
    let records := taken E (map Append rs ++ map Finalize fs) os in
    (k = Gcs -> records <> []) -> (forall r, In r records -> fits r /\ applies columns filters cf pf (image r)) ->
    (exists ops, operations_of E log' ops) /\
    forall ops, operations_of E log' ops ->
    exists i' s1, operate k i (s_node E) ops s0 = Ok (i', s1) /\
      let read s := records_read (read_selected parse unzstd other columns filters hash loads k now rnd' t start stop n s) in
      ((~ marked (root ++ $"/" ++ frame) log' /\ read s1 = read s0) \/
       (marked (root ++ $"/" ++ frame) log' /\ read s1 = found records n (filter pf (map cf (map image records))))).
Proof.
  intros parse unzstd other fits image columns filters cf pf hash loads k E ext names folders texts y m d w rnd ds i HN HP HT dataset t root frame Hds Hfile Hinner HB PE PN CF NB
    now hh mm ss hh' mm' ss' rnd' n es rs fs os st log' s0 start stop V T1 T2 LE P0 ND L0 TD OF HR GC CR records TK HRec.
  rewrite like_failed in GC, CR.
  pose proof (run_more E _ (Finalize true) _ _ _ HR) as HR'.
  assert (Ec: (map Append rs ++ map Finalize fs) ++ [Finalize true] = map Append rs ++ map Finalize (fs ++ [true])).
  { now rewrite map_app, app_assoc. }
  pose proof (taken_more E _ true _ _ (fst (step E st (Finalize true))) HR) as ET. rewrite Ec in HR', ET.
  unfold records in *. rewrite <- ET in TK, HRec |- *.
  exact (SystemBatch.selected_batch parse unzstd other fits image columns filters cf pf hash loads k E ext names folders texts y m d w rnd ds i HN HP HT Hds Hfile Hinner HB PE PN CF NB
    now hh mm ss hh' mm' ss' rnd' n es rs (fs ++ [true]) _ _ log' s0 V T1 T2 LE P0 ND L0 TD OF HR' GC CR TK HRec).
Qed.
