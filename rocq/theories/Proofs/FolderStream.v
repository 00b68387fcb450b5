(** Proofs: what a stream writer without partitions stored is what a reader without partitions reads. *)
From Coq Require Import Sorted Lia.
From Verif.Base Require Import Py PyFacts Value ValueFacts.
From Verif.Model Require Import Paths Dates Frames ReadRange Cursor Storage Writers Stream Reader.
From Verif.Spec Require Import Paths Dates Frames Cursor Json Writers Stream Reader StreamRead.
From Verif.Spec Require Adapters.
From Verif.Proofs Require Import Paths Dates Writers Json Cursor Batch Reader RoundTrip Stream StreamPaths StreamPool StreamRead.
From Verif.Proofs Require Unpartitioned.

Section Folder.
  Context (parse : str -> result value) (unzstd : str -> result str)
          (other : str -> str -> generator value) (read_blob : str -> result str).
  Context (fits : value -> Prop) (image : value -> value).
  Context (columns : value -> result value) (filters : value -> result bool) (cf : value -> value) (pf : value -> bool).
  Context {V : Type} (M : streaming value V) (names : list str).
  Notation dir := (join $"/" names).
  Notation u := [Lit dir].
  Notation records := (blob_records parse unzstd other read_blob columns filters None).
  Notation selected l := (filter pf (map cf (map image l))).
  Hypothesis HS : stream_settings parse unzstd other fits image M.
  Hypothesis HF : Adapters.folder names.
  Hypothesis PU : proper_template (map Date u).
  Hypothesis T : m_template M = dir.
  Hypothesis Cl : clean_folder dir.

  Lemma fill_dir at_ : fill u at_ = dir.
  Proof. unfold fill. cbn [map concat seg_value]. apply app_nil_r. Qed.
  Lemma text_dir : m_template M = template_text u.
  Proof. rewrite T. unfold template_text. cbn [map concat seg_text]. symmetry. apply app_nil_r. Qed.
  Lemma sent_dir : forall es os, sent M (es ++ [SFinalize]) os dir = accepted_on M (fun _ => true) es os.
  Proof.
    destruct HS as (_ & _ & _ & SM & _).
    induction es as [|e es IH]; intros os; [destruct os; reflexivity|].
    destruct os as [|o os]; [destruct e; reflexivity|]. cbn [app].
    destruct e as [r at_| |]; cbn [sent accepted_on]; auto. destruct o as [x|x]; auto.
    rewrite IH. f_equal. rewrite (targets_dates u PU M SM text_dir), fill_dir. cbn [filter]. unfold suffix_of.
    destruct (m_valid M r); cbn [andb].
    - rewrite app_nil_r, str_eqb_refl. reflexivity.
    - replace (str_eqb _ _) with false; [reflexivity|]. symmetry. apply str_eqb_neq. intros E.
      apply (f_equal (@length _)) in E. rewrite app_length in E. cbn in E. lia.
  Qed.

  Lemma folder_rows es os s store hash loads n :
    stream_ran read_blob M es os s -> lists_folder store (puts (world_of s)) dir ->
    let wanted := accepted_on M (fun _ => true) es os in
    (forall r, In r wanted -> fits r /\ applies columns filters cf pf (image r)) ->
    gives wanted (firstn n (selected wanted)) (read_records hash loads (fun _ => get_list_of_blobs None store [dir]) 0 records NoCursor n).
  Proof.
    intros (E & HC & CL & RL) LF wanted HR. destruct HS as (HW & PN & PE & SM & RE).
    destruct (all_timed M RE _ _ _ E) as (blobs & TM & ST).
    destruct (timed_rows M blobs (world_of s) TM) as (rows & R1 & R2 & R3 & R4).
    assert (W : flat_map (fun id => stored_for id blobs) (ids [dir] [None]) = wanted).
    { unfold ids, id_of. cbn [flat_map map app]. rewrite !app_nil_r, ST. apply sent_dir. }
    rewrite <- W in *. clear W. clear wanted.
    assert (IB : forall b, In b blobs -> exists r, fst b = dir ++ suffix_of M r).
    { intros b Hb. assert (Nb : snd b <> []).
      { pose proof Hb as Hb'. rewrite R2 in Hb'. apply in_map_iff in Hb' as (x & <- & Hx). rewrite Forall_forall in R4. now apply R4. }
      destruct (snd b) as [|r g] eqn:Eg; [congruence|].
      assert (Hr : In r (sent M (es ++ [SFinalize]) os (fst b))).
      { rewrite <- ST. unfold stored_for. apply in_concat. exists (snd b). split; [|rewrite Eg; left; auto].
        apply in_map. apply filter_In. split; auto. apply str_eqb_refl. }
      apply sent_In in Hr as (at_ & Ha & Ht). rewrite (targets_dates u PU M SM text_dir), fill_dir in Ht.
      destruct Ht as [<-|[]]. eauto. }
    assert (FN : forall x, blob_name (s_filename (m_writer M dir)) (s_node (m_base M)) x = dir ++ $"/" ++ file_of M x).
    { intros x. pose proof (fill_name u PU M PE (mkMoment 0 0 0 0 0 0) x) as F. rewrite fill_dir in F. exact F. }
    assert (BN : forall x, blob_name (s_filename (m_writer M (dir ++ $"/BACKOUT/"))) (s_node (m_base M)) x = (dir ++ $"/BACKOUT") ++ $"/" ++ file_of M x).
    { intros x. pose proof (backout_name u PU M PE (mkMoment 0 0 0 0 0 0) x) as F. rewrite fill_dir in F. exact F. }
    destruct HW as (e_ & x_ & HX & HDc).
    apply (core parse unzstd other read_blob M columns filters cf pf e_ x_ fits image HX HDc PN PE blobs (world_of s) CL RL [dir] [None]) with (rows := rows); auto.
    - intros b Hb. destruct (IB b Hb) as (r & ->). unfold suffix_of. destruct (m_valid M r).
      + exists dir. intros k. rewrite app_nil_r. apply FN.
      + exists (dir ++ $"/BACKOUT"). intros k. apply BN.
    - intros p k [<-|[]] [<-|[]] x. unfold id_of. rewrite app_nil_r. apply FN.
    - intros b x p Hb [<-|[]] Hs Hn. destruct (IB b Hb) as (r & Eb). rewrite Eb in *. unfold suffix_of in *.
      destruct (m_valid M r); [exists None; split; [left; auto|reflexivity]|].
      exfalso. rewrite BN in Hn. apply not_true_iff_false in Hn. apply Hn.
      apply contains_iff. exists (dir ++ $"/"), ($"/" ++ file_of M x). rewrite <- !app_assoc. reflexivity.
    - intros p k x [<-|[]] [<-|[]]. unfold id_of. rewrite app_nil_r. apply not_true_iff_false. intros C.
      pose proof (fun at_ => fill_relative u PU at_) as Q1. pose proof (fun at_ => fill_depth u PU at_) as Q2.
      pose proof (fun at_ => fill_no_dot u PU at_) as Q3. pose proof (fun at_ => fill_no_brace u PU at_) as Q4.
      specialize (Q1 (mkMoment 0 0 0 0 0 0)). specialize (Q2 (mkMoment 0 0 0 0 0 0)). specialize (Q3 (mkMoment 0 0 0 0 0 0)). specialize (Q4 (mkMoment 0 0 0 0 0 0)).
      rewrite fill_dir in Q1, Q2, Q3, Q4.
      apply (name_contains M PN PE dir x) in C; auto.
      + destruct C as (c0 & Hw & C). pose proof (fill_solid u PU (mkMoment 0 0 0 0 0 0)) as So. rewrite fill_dir in So.
        rewrite (solid_split dir So) in Hw. destruct (Cl c0 Hw) as (_ & _ & _ & Cl'). congruence.
      + intros Cd. apply Q3. eapply components_chars; [|exact Cd].
        destruct (two_ends _ Q2) as (b & mid & z & ->). change (b :: mid ++ [z]) with ((b :: mid) ++ [z]).
        rewrite last_last. apply in_app_iff. right. left. auto.
    - unfold ids. cbn. repeat constructor.
    - intros id Hi. unfold ids, id_of in Hi. cbn [flat_map map app] in Hi. destruct Hi as [<-|[]]. rewrite app_nil_r.
      pose proof (fill_folder u PU (mkMoment 0 0 0 0 0 0)) as F. rewrite fill_dir in F. exact F.
    - intros p [<-|[]]. exact LF.
    - intros b f [Hk|[]]. discriminate.
    - intros k k' [<-|[]] [<-|[]]. exact I.
    - intros p c [<-|[]] Hc. destruct (Cl c Hc) as (C1 & C2 & C3 & _). split; [|split; [exact C2|split; [exact C3|]]].
      + apply not_true_iff_false. intros S0. apply startswith_iff in S0 as (r & ->). apply not_true_iff_false in C1. apply C1.
        apply contains_iff. exists [], r. reflexivity.
      + intros b f [Hk|[]]. discriminate.
  Qed.

  Lemma folder_stream es os s store now rnd slash start stop hash loads n :
    stream_ran read_blob M es os s -> lists_folder store (puts (world_of s)) dir ->
    slash = [] \/ slash = $"/" -> (start <= stop)%Z ->
    let wanted := accepted_on M (fun _ => true) es os in
    (forall r, In r wanted -> fits r /\ applies columns filters cf pf (image r)) ->
    gives wanted (firstn n (selected wanted)) (read_records hash loads
      (fun _ => list_range None store now rnd (reader_dataset (dir ++ slash) []) start stop) 0 records NoCursor n).
  Proof.
    intros SR LF SL LE wanted HR.
    rewrite (Unpartitioned.listed_once names (Unpartitioned.folder_named names HF) None store now rnd slash start stop SL LE).
    now apply (folder_rows es os s).
  Qed.
End Folder.
