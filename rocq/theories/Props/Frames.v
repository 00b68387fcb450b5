(** C05-C07, C60: which blobs of a folder are read. *)
From Coq Require Import Sorted.
From Verif.Base Require Import Py.
From Verif.Model Require Import Frames.
From Verif.Spec Require Import Frames.
From Verif.Proofs Require Frames.

(** C05 (and C07 for sub-folders none of which is the beginning of another): of one dated folder
    exactly the served blobs are listed, each once, ascending.  [tidy] says the names are of the
    form mabel's writers produce. *)
Theorem newest_complete_frame_selected :
  forall (root : str) (es : list entry),
    NoDup es -> tidy root (live root es) -> no_prefixes (live root es) ->
    exists out, get_list_of_blobs None (fun _ => map (name_in root) es) [root] = Ok out /\
      lists_exactly root (live root es) out.
Proof. exact Frames.folder_selection. Qed.
Print Assumptions newest_complete_frame_selected.

(** ... and for any sequence of dated folders (which may repeat a folder). *)
Theorem newest_complete_frames_of_a_range :
  forall (content : str -> list entry) (paths : list str),
    (forall p, In p paths ->
       NoDup (content p) /\ tidy p (live p (content p)) /\ no_prefixes (live p (content p))) ->
    exists out, get_list_of_blobs None (fun p => map (name_in p) (content p)) paths = Ok out /\
      StronglySorted (fun a b => str_leb a b = true) out /\
      (forall b, In b out <-> exists p e, In p paths /\ served (live p (content p)) e /\ b = name_in p e) /\
      ((forall p q e e', In p paths -> In q paths -> In e (content p) -> In e' (content q) ->
          name_in p e = name_in q e' -> p = q) -> NoDup out).
Proof. exact Frames.many_folders. Qed.
Print Assumptions newest_complete_frames_of_a_range.

(** C06.  For every store, hint and range, without any assumption on names. *)
Theorem backout_and_markers_never_served :
  forall (pf : option (str * str * str)) (store : str -> list str) (paths out : list str),
    get_list_of_blobs pf store paths = Ok out ->
    StronglySorted (fun a b => str_leb a b = true) out /\
    forall b, In b out ->
      (exists p, In p paths /\ In b (store p)) /\
      contains $"BACKOUT" b = false /\
      (contains $"as_at_" b = true -> contains $"/frame.complete" b = false).
Proof. exact Frames.only_listed. Qed.
Print Assumptions backout_and_markers_never_served.

Theorem blob_selection_never_fails :
  forall (store : str -> list str) (paths : list str),
    exists out, get_list_of_blobs None store paths = Ok out.
Proof. exact Frames.never_fails. Qed.
Print Assumptions blob_selection_never_fails.

(** C07, for sub-folders none of which is the beginning of another: what is listed of a sub-folder
    depends on that sub-folder only (two folder contents agreeing on sub-folder [k] give the same
    blobs of [k], whatever the siblings hold). *)
Theorem subpartitions_independent_partial :
  forall (root : str) (es es' : list entry) (by_name folder : str) (out out' : list str),
    NoDup es -> tidy root (live root es) -> no_prefixes (live root es) ->
    NoDup es' -> tidy root (live root es') -> no_prefixes (live root es') ->
    (forall e, e_by e = Some (by_name, folder) -> (In e es <-> In e es')) ->
    (forall e b f, In e es \/ In e es' -> e_by e = Some (b, f) -> b = by_name) ->
    get_list_of_blobs None (fun _ => map (name_in root) es) [root] = Ok out ->
    get_list_of_blobs None (fun _ => map (name_in root) es') [root] = Ok out' ->
    forall e, e_by e = Some (by_name, folder) -> In e es ->
      (In (name_in root e) out <-> In (name_in root e) out').
Proof. exact Frames.independent. Qed.
Print Assumptions subpartitions_independent_partial.

(** C60.  A search hint on the partitioning field prunes to exactly the matching sub-folder. *)
Theorem partition_filter_prunes_exactly :
  forall (root : str) (es : list entry) (field value op : str),
    NoDup es -> tidy root (live root es) -> no_prefixes (live root es) ->
    In op [$"="; $"=="] ->
    (exists e v, live root es e /\ e_by e = Some ($"by_" ++ sanitize field, v)) ->
    exists out,
      get_list_of_blobs (Some (field, op, value)) (fun _ => map (name_in root) es) [root] = Ok out /\
      lists_exactly root
        (fun e => live root es e /\
                  e_by e = Some ($"by_" ++ sanitize field, sanitize field ++ $"=" ++ sanitize value)) out.
Proof. exact Frames.hint_selection. Qed.
Print Assumptions partition_filter_prunes_exactly.

Theorem partition_filter_on_other_field_ignored :
  forall (root : str) (es : list entry) (field value op : str),
    NoDup es -> tidy root (live root es) -> In op [$"="; $"=="] ->
    (forall e b v, live root es e -> e_by e = Some (b, v) ->
       contains ($"by_" ++ sanitize field) b = false) ->
    get_list_of_blobs (Some (field, op, value)) (fun _ => map (name_in root) es) [root] =
    get_list_of_blobs None (fun _ => map (name_in root) es) [root].
Proof. exact Frames.hint_ignored. Qed.
Print Assumptions partition_filter_on_other_field_ignored.

Theorem partition_filter_operator_checked :
  forall (field value op : str) (store : str -> list str) (p : str) (ps : list str),
    ~ In op [$"="; $"=="] ->
    get_list_of_blobs (Some (field, op, value)) store (p :: ps) = Raise NotImplementedError.
Proof. exact Frames.hint_operator. Qed.
Print Assumptions partition_filter_operator_checked.

(** ** Concrete data meeting the hypotheses *)
Definition ex_root := $"data/set/year_2024/month_01/day_02".
Definition fr (n : str) := Some ($"as_at_20240102-" ++ n).
Definition ex_folder : list entry :=
  [ mkEntry None (fr $"010000") $"b.jsonl"; mkEntry None (fr $"010000") $"frame.complete";
    mkEntry None (fr $"020000") $"c.jsonl"; mkEntry None (fr $"020000") $"frame.complete";
    mkEntry None (fr $"020000") $"a.jsonl";
    mkEntry None (fr $"030000") $"d.jsonl"; mkEntry None (fr $"030000") $"frame.complete";
    mkEntry None (fr $"030000") $"frame.ignore";
    mkEntry None (fr $"040000") $"e.jsonl"; mkEntry None None $"BACKOUT-x.jsonl" ].
Ltac tidy_tac :=
  repeat match goal with
         | H : _ \/ _ |- _ => destruct H
         | H : False |- _ => destruct H
         | H : live _ _ _ |- _ => destruct H
         end; subst; unfold fr in *; cbn [e_by e_frame e_file] in *;
  repeat match goal with
         | H : Some _ = Some _ |- _ => injection H; clear H; intros; subst
         end; try discriminate;
  repeat split; try reflexivity; try (cbv; intuition discriminate); try discriminate.

Example ex_folder_ok :
  NoDup ex_folder /\ tidy ex_root (live ex_root ex_folder) /\ no_prefixes (live ex_root ex_folder) /\
  get_list_of_blobs None (fun _ => map (name_in ex_root) ex_folder) [ex_root] =
    Ok [ex_root ++ $"/as_at_20240102-020000/a.jsonl"; ex_root ++ $"/as_at_20240102-020000/c.jsonl"].
Proof.
  split; [|split; [|split]].
  - repeat constructor; cbn [In]; intuition discriminate.
  - constructor.
    + intros c H. cbn in H. assert (N: forall e b f, live ex_root ex_folder e -> e_by e = Some (b, f) -> False).
      { intros e b f [H' _] E. simpl in H'. tidy_tac. }
      repeat (destruct H as [<-|H]; [repeat split; try reflexivity; intros e b f P E; destruct (N e b f P E)|]). destruct H.
    + intros e b f [H _] E. simpl in H. tidy_tac.
    + intros e f [H _] E.
      assert (N: forall e b f, live ex_root ex_folder e -> e_by e = Some (b, f) -> False).
      { intros e' b f' [H' _] E'. simpl in H'. tidy_tac. }
      simpl in H. tidy_tac; intros e b g P E'; destruct (N e b g P E').
    + intros e e' f f' [H _] [H' _] E E'. simpl in H, H'.
      repeat (destruct H as [<-|H]; [|]); try destruct H;
      repeat (destruct H' as [<-|H']; [|]); try destruct H'; cbn in E, E'; try discriminate;
      injection E as <-; injection E' as <-; reflexivity.
    + intros e [H B]. simpl in H.
      repeat (destruct H as [<-|H]; [repeat split; try reflexivity; try (cbv; intuition discriminate); try discriminate|]).
      destruct H.
  - intros e e' b f f' [H _] [H' _] E. simpl in H. tidy_tac.
  - vm_compute. reflexivity.
Qed.

(** ** Finding: sub-folders hour=1 and hour=10.  The blobs of hour=10 are taken for blobs of
    hour=1 as well, so the newer frame of hour=10 hides the data of hour=1, and is itself listed
    twice. *)
Definition ex_sub (h : str) (f : str) : list entry :=
  map (mkEntry (Some ($"by_hour", $"hour=" ++ h)) (fr f)) [$"data.jsonl"; $"frame.complete"].
Definition ex_hours : list entry := ex_sub $"1" $"010000" ++ ex_sub $"10" $"100000".

Lemma ex_hours_tidy : NoDup ex_hours /\ tidy ex_root (live ex_root ex_hours).
Proof.
  assert (B: forall e b f, live ex_root ex_hours e -> e_by e = Some (b, f) -> b = $"by_hour").
  { intros e b f [H _] E. simpl in H. tidy_tac. }
  split; [vm_compute; repeat constructor; cbn [In]; intuition discriminate|]. constructor.
  - intros c H. cbn in H.
    repeat (destruct H as [<-|H]; [repeat split; try reflexivity; intros e b f P E; rewrite (B e b f P E); reflexivity|]).
    destruct H.
  - intros e b f [H _] E. simpl in H. tidy_tac; intros e0 b0 f0 P0 E0; rewrite (B e0 b0 f0 P0 E0); reflexivity.
  - intros e f [H _] E. simpl in H. tidy_tac; intros e0 b0 f0 P0 E0; rewrite (B e0 b0 f0 P0 E0); reflexivity.
  - intros e e' f f' [H _] [H' _] E E'. simpl in H, H'.
    repeat (destruct H as [<-|H]; [|]); try destruct H;
    repeat (destruct H' as [<-|H']; [|]); try destruct H'; cbn in E, E'; try discriminate;
    injection E as <-; injection E' as <-; reflexivity.
  - intros e [H _]. simpl in H.
    repeat (destruct H as [<-|H]; [repeat split; try reflexivity; try (cbv; intuition discriminate); try discriminate|]).
    destruct H.
Qed.

Theorem subpartitions_independent_refuted :
  exists (root : str) (es : list entry) (out : list str) (lost doubled : entry),
    NoDup es /\ tidy root (live root es) /\
    get_list_of_blobs None (fun _ => map (name_in root) es) [root] = Ok out /\
    served (live root es) lost /\ ~ In (name_in root lost) out /\
    out = [name_in root doubled; name_in root doubled].
Proof.
  exists ex_root, ex_hours, (repeat (name_in ex_root (mkEntry (Some ($"by_hour", $"hour=10")) (fr $"100000") $"data.jsonl")) 2),
    (mkEntry (Some ($"by_hour", $"hour=1")) (fr $"010000") $"data.jsonl"),
    (mkEntry (Some ($"by_hour", $"hour=10")) (fr $"100000") $"data.jsonl").
  destruct ex_hours_tidy as [H1 H2]. split; [exact H1|]. split; [exact H2|].
  split; [vm_compute; reflexivity|]. split; [|split; [vm_compute; intuition discriminate|reflexivity]].
  split; [split; [simpl; auto|reflexivity]|]. split.
  - intros e b' f' [H _] E. simpl in H. tidy_tac.
  - intros _. exists ($"as_at_20240102-" ++ $"010000"). split; [reflexivity|]. split; [|discriminate].
    split; [split; [split; [simpl; auto|reflexivity]|]|].
    + intros [H _]. simpl in H. intuition discriminate.
    + intros f' [[H _] _]. simpl in H.
      destruct H as [H|[H|[H|[H|[]]]]]; try discriminate H. injection H as <-. reflexivity.
Qed.
Print Assumptions subpartitions_independent_refuted.

(** ** Finding: a hint on a field whose name is only the beginning of a partitioning's name hides
    all data instead of being ignored (by_user matches by_userid). *)
Theorem partition_filter_name_prefix_hides_data_refuted :
  exists (root : str) (es : list entry) (field value : str) (e : entry),
    (forall e b f, In e es -> e_by e = Some (b, f) -> b <> $"by_" ++ field) /\
    get_list_of_blobs None (fun _ => map (name_in root) es) [root] = Ok [name_in root e] /\
    get_list_of_blobs (Some (field, $"=", value)) (fun _ => map (name_in root) es) [root] = Ok [].
Proof.
  exists ex_root, [mkEntry (Some ($"by_userid", $"userid=7")) None $"x.jsonl"], $"user", $"7",
    (mkEntry (Some ($"by_userid", $"userid=7")) None $"x.jsonl"). split; [|split; vm_compute; reflexivity].
  intros e b f H E. simpl in H. destruct H as [<-|[]]. injection E as <- <-. discriminate.
Qed.
Print Assumptions partition_filter_name_prefix_hides_data_refuted.
