(** Frames in a folder hide the blobs beside them. *)
From Coq Require Import Lia.
From Verif.Base Require Import Py PyFacts Value.
From Verif.Model Require Import Paths Dates Frames ReadRange Cursor Storage Adapters Reader.
From Verif.Spec Require Import Paths Dates Reader Cursor.
From Verif.Spec Require Adapters.
From Verif.Spec Require Import System Unpartitioned.
From Verif.Proofs Require Unpartitioned.

Lemma first_starting_some p parts x : first_starting p parts = Some x -> startswith p x = true.
Proof. induction parts as [|y l IH]; [discriminate|]. cbn. destruct (startswith p y) eqn:Q; [intros [= <-]; exact Q|exact IH]. Qed.
Lemma first_starting_finds p parts x : In x parts -> startswith p x = true -> first_starting p parts <> None.
Proof. induction parts as [|y l IH]; [intros []|]. cbn. destruct (startswith p y) eqn:Q; [discriminate|]. intros [->|H] S; [congruence|auto]. Qed.
Lemma loop_in blobs a st f : frame_loop blobs a st = Some f -> In f (a :: st).
Proof.
  revert a. induction st as [|b st IH]; intros a; cbn [frame_loop]; destruct (negb _ || _); try discriminate; try (intros [= <-]; now left).
  intros H. right. apply IH, H.
Qed.
Lemma framed_only l b : (forall x, In x l -> contains $"as_at_" x = true -> exists part, In part (split slash x) /\ startswith $"as_at_" part = true) ->
  (exists x, In x l /\ contains $"as_at_" x = true) -> In b (select_frame l) -> contains $"as_at_" b = true.
Proof.
  intros H (x & Hx & Cx). unfold select_frame. cbv zeta.
  set (as_ats := dedup str_eqb (map extract_as_at (filter (contains $"as_at_") l))).
  assert (A : forall f, In f as_ats -> startswith $"as_at_" f = true).
  { intros f Hf. apply (proj1 (dedup_In str_eqb str_eqb_eq _ _)) in Hf. apply in_map_iff in Hf as (y & <- & Hy). apply filter_In in Hy as [Hy Cy].
    destruct (H y Hy Cy) as (part & Hp & Sp). unfold extract_as_at. destruct (first_starting _ _) as [z|] eqn:Q; [exact (first_starting_some _ _ _ Q)|].
    exfalso. exact (first_starting_finds _ _ _ Hp Sp Q). }
  assert (N : In (extract_as_at x) (rev (sorted_str as_ats))).
  { apply in_rev. rewrite rev_involutive. apply sorted_str_In. apply (dedup_In str_eqb str_eqb_eq). apply in_map, filter_In. auto. }
  assert (I : forall f, In f (rev (sorted_str as_ats)) -> startswith $"as_at_" f = true).
  { intros f Hf. apply A. apply in_rev in Hf. rewrite sorted_str_In in Hf. exact Hf. }
  destruct (rev (sorted_str as_ats)) as [|a st]; [destruct N|].
  destruct (frame_loop l a st) as [f|] eqn:Q; [|intros []]. intros Hb. apply filter_In in Hb as [_ Hb]. apply andb_true_iff in Hb as [Hb _].
  apply loop_in in Q. apply I in Q. apply startswith_iff in Q as [r ->]. apply contains_iff in Hb as (u & v & ->).
  apply contains_iff. exists u, (r ++ v). now rewrite <- !app_assoc.
Qed.

Lemma hidden k cs s slash_ now rnd a b : Adapters.folder cs -> Adapters.proper k s -> slash_ = [] \/ slash_ = $"/" -> (a <= b)%Z ->
  let dir := join $"/" cs in
  (forall name, stored_below k s dir name -> contains $"/by_" name = false) ->
  (forall name, stored_below k s dir name -> contains $"as_at_" name = true ->
     exists part, In part (split "/"%char name) /\ startswith $"as_at_" part = true) ->
  (exists name, stored_below k s dir name /\ contains $"as_at_" name = true /\ contains $"BACKOUT" name = false) ->
  exists l, list_range None (fun p => listing k rnd (range_hours now a b) p s) now rnd (reader_dataset (dir ++ slash_) []) a b = Ok l /\
    forall name, In name l -> contains $"as_at_" name = true.
Proof.
  intros F P S L dir NB PT (x & Bx & Ax & Kx).
  pose proof (fun name => Unpartitioned.listing_folder k cs s now rnd a b name F P L) as J.
  unfold dir. rewrite (Unpartitioned.listed_once cs (Unpartitioned.folder_named cs F) None _ now rnd slash_ a b S L).
  unfold get_list_of_blobs. cbn [dedup filter mapM]. set (l0 := listing k rnd (range_hours now a b) (join $"/" cs) s) in *.
  unfold cycle_blobs_of. set (l1 := filter (fun b0 => negb (contains $"BACKOUT" b0)) l0).
  assert (B1 : forall y, In y l1 -> stored_below k s dir y) by (intros y Hy; apply filter_In in Hy as [Hy _]; apply J, Hy).
  unfold partitions_of. rewrite (Unpartitioned.filter_none (contains $"/by_")) by (intros y Hy; apply NB, B1, Hy).
  cbn [flat_map dedup apply_partition_filter bind]. unfold choose_partition. cbn. unfold read_folders, partitioned_folders. cbn [flat_map app].
  eexists. split; [reflexivity|]. intros name Hn. rewrite sorted_str_In in Hn. rewrite app_nil_r in Hn.
  assert (E : forall q : str -> bool, (forall y, In y l1 -> q y = true) -> filter q l1 = l1) by (intros q; apply Unpartitioned.filter_id).
  revert Hn. rewrite E.
  - rewrite ?app_nil_r. apply framed_only; [intros y Hy; apply PT, B1, Hy|]. exists x. split; [|exact Ax]. apply filter_In. split; [apply J, Bx|now rewrite Kx].
  - intros y Hy. apply B1 in Hy as (Hy & _). apply startswith_iff in Hy as [r ->]. unfold dir. apply contains_iff. exists (join $"/" cs), r. now rewrite <- app_assoc.
Qed.
