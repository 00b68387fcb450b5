(** A complete batch gives its records to a query (C83). *)
From Verif.Base Require Import Py Value.
From Verif.Model Require Import Paths Dates Frames ReadRange Cursor Storage Writers Adapters Reader.
From Verif.Spec Require Import Paths Dates Frames Cursor Json Writers Reader.
From Verif.Spec Require Adapters.
From Verif.Spec Require Import System Query.
From Verif.Proofs Require SystemBatch RoundTrip.

Lemma batch_gives :
  forall (parse : str -> result value) (unzstd : str -> result str)
         (other : str -> str -> generator value) (fits : value -> Prop) (image : value -> value)
         (hash : str -> Z) (loads : str -> result cdict)
         (k : kind) (E : setting value) (ext : str) (names : list str) (folders : list (list seg)) (texts : list str) (y m d : Z) (w : moment) (rnd ds : str) (i : inner),
    folder_names names -> daily_partitions folders -> written_as folders texts ->
    let dataset := join $"/" names in
    let t := dataset_template dataset folders in
    let root := day_folder t (y, m, d) in
    let frame := as_at_text w in
    new_frame_id rnd dataset texts w (a_day y m d) = Ok ds ->
    inner_filename (s_format E) ext ds = Ok (s_filename E) -> new_inner k (s_format E) ext ds = Ok i ->
    read_as parse unzstd other E (extension (s_format E) ext) fits image ->
    plain ext -> plain (s_node E) -> clean_failures E -> contains $"BACKOUT" (root ++ $"/" ++ frame) = false ->
    forall (now : datetime) (hh mm ss hh' mm' ss' : Z) (rnd' : str) (es : list entry)
           (rs : list value) (fs : list bool) (os : list outcome) (st : state (R:=value)) (log' : list (str * str)) (s0 : stored),
    let start := of_fields y m d hh mm ss in
    let stop := of_fields y m d hh' mm' ss' in
    valid_date y m d -> valid_time hh mm ss -> valid_time hh' mm' ss' -> (start <= stop)%Z ->
    Adapters.proper k s0 -> NoDup es ->
    (forall name, In name (listing k rnd' (range_hours now start stop) root s0) <-> In name (map (name_in root) es)) ->
    tidy root (live root es) -> older_frames (live root es) frame ->
    run E (new_writer nothing) (map Append rs ++ map Finalize fs) = (os, st) ->
    good_clock E (attempts (st_world st)) -> crashed (puts (st_world st)) log' -> marked (root ++ $"/" ++ frame) log' ->
    let records := taken E (map Append rs ++ map Finalize fs) os in
    records <> [] -> (forall r, In r records -> fits r) ->
    (exists ops, operations_of E log' ops) /\
    forall ops, operations_of E log' ops ->
    exists i' s1, operate k i (s_node E) ops s0 = Ok (i', s1) /\
      gives (fun columns filters n => records_read (read_selected parse unzstd other columns filters hash loads k now rnd' t start stop n s1)) (map image records).
Proof.
  intros parse unzstd other fits image hash loads k E ext names folders texts y m d w rnd ds i HN HF HT dataset t root frame Hds Hfile Hinner HB PE PN CF NB
    now hh mm ss hh' mm' ss' rnd' es rs fs os st log' s0 start stop V T1 T2 LE P0 ND L0 TD OF HR GC CR MK records TK HD.
  assert (S : forall columns filters c p n, (forall r, In r (map image records) -> applies columns filters c p r) ->
    (exists ops, operations_of E log' ops) /\ forall ops, operations_of E log' ops ->
    exists i' s1, operate k i (s_node E) ops s0 = Ok (i', s1) /\
      records_read (read_selected parse unzstd other columns filters hash loads k now rnd' t start stop n s1) = Ok (firstn n (filter p (map c (map image records))))).
  { intros columns filters c p n HA.
    assert (HA' : forall r, In r records -> fits r /\ applies columns filters c p (image r)) by (intros r Hr; split; [now apply HD|apply HA, in_map, Hr]).
    destruct (SystemBatch.selected_batch parse unzstd other fits image columns filters c p hash loads k E ext names folders texts y m d w rnd ds i HN HF HT Hds Hfile Hinner HB PE PN CF NB
                now hh mm ss hh' mm' ss' rnd' n es rs fs os st log' s0 V T1 T2 LE P0 ND L0 TD OF HR GC CR (fun _ => TK) HA') as [H1 H2].
    split; [exact H1|]. intros ops HO. destruct (H2 ops HO) as (i' & s1 & Hop & [[N _]|[_ R]]); [now elim N|]. exists i', s1. split; [exact Hop|]. eapply eq_trans; [exact R|]. fold records. unfold found. destruct records; [now elim TK|reflexivity]. }
  destruct (S pass_thru (fun _ => Ok true) (fun r => r) (fun _ => true) 0) as [H1 H2].
  { intros r Hr. split; reflexivity. }
  split; [exact H1|]. intros ops HO. destruct (H2 ops HO) as (i' & s1 & Hop & _). exists i', s1. split; [exact Hop|].
  intros columns filters c p n HA. destruct (S columns filters c p n HA) as [_ H]. destruct (H ops HO) as (i2 & s2 & Hop2 & R).
  assert (s2 = s1) as -> by congruence. exact R.
Qed.
