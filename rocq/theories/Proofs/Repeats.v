(** Proofs: what is read does not depend on how often a blob is listed. *)
From Coq Require Import Sorted Permutation.
From Verif.Base Require Import Py PyFacts Value ValueFacts.
From Verif.Model Require Import Paths Dates Frames ReadRange Cursor Reader.
From Verif.Spec Require Import Cursor System.
From Verif.Proofs Require Cursor.

Definition same {A} (l1 l2 : list A) : Prop := forall b, In b l1 <-> In b l2.
Definition same_result (r1 r2 : result (list str)) : Prop :=
  match r1, r2 with Ok l1, Ok l2 => same l1 l2 | Raise e1, Raise e2 => e1 = e2 | _, _ => False end.

Lemma same_filter {A} (f : A -> bool) l1 l2 : same l1 l2 -> same (filter f l1) (filter f l2).
Proof. intros H b. rewrite !filter_In, (H b). reflexivity. Qed.
Lemma same_map {A B} (f : A -> B) l1 l2 : same l1 l2 -> same (map f l1) (map f l2).
Proof. intros H b. rewrite !in_map_iff. split; intros (x & E & I); exists x; (split; [auto|apply H; auto]). Qed.
Lemma same_dedup l1 l2 : same l1 l2 -> same (dedup str_eqb l1) (dedup str_eqb l2).
Proof. intros H b. rewrite !(dedup_In str_eqb str_eqb_eq). auto. Qed.
Lemma same_flat {A B} (f g : A -> list B) l1 l2 : same l1 l2 -> (forall x, same (f x) (g x)) -> same (flat_map f l1) (flat_map g l2).
Proof. intros H F b. rewrite !in_flat_map. split; intros (x & E & I); exists x; (split; [apply H; auto|apply F; auto]). Qed.
Lemma same_sym {A} (l1 l2 : list A) : same l1 l2 -> same l2 l1.
Proof. intros H b. symmetry. auto. Qed.
Lemma same_nil {A} (l1 l2 : list A) : same l1 l2 -> l1 = [] -> l2 = [].
Proof. intros H ->. destruct l2 as [|x l2]; auto. destruct (proj2 (H x)). left. auto. Qed.
Lemma sorted_same l1 l2 : same l1 l2 -> sorted_str (dedup str_eqb l1) = sorted_str (dedup str_eqb l2).
Proof.
  intros H. apply (sorted_perm_unique (fun a b => str_leb a b = true) str_leb_antisym).
  - apply sorted_str_sorted.
  - apply sorted_str_sorted.
  - apply NoDup_Permutation; try (apply isort_NoDup, dedup_NoDup, str_eqb_eq).
    intros x. rewrite !sorted_str_In. apply same_dedup. auto.
Qed.
Lemma same_existsb {A} (f : A -> bool) l1 l2 : same l1 l2 -> existsb f l1 = existsb f l2.
Proof.
  intros H. apply eq_true_iff_eq. rewrite !existsb_exists. split; intros (x & I & E); exists x; (split; [apply H; auto|auto]).
Qed.

Lemma frame_loop_same l1 l2 stack : same l1 l2 -> forall a, frame_loop l1 a stack = frame_loop l2 a stack.
Proof.
  intros H. induction stack as [|t stack IH]; intros a; cbn [frame_loop]; unfold is_complete, is_invalid;
    rewrite (same_existsb _ l1 l2 H), (same_existsb _ l1 l2 H); [reflexivity|]. now rewrite IH.
Qed.
Lemma select_frame_same l1 l2 : same l1 l2 -> same (select_frame l1) (select_frame l2).
Proof.
  intros H. unfold select_frame.
  rewrite (sorted_same _ (map extract_as_at (filter (contains $"as_at_") l2))) by (apply same_map, same_filter; auto).
  destruct (rev _) as [|a stack]; [auto|]. rewrite (frame_loop_same l1 l2 stack H).
  destruct (frame_loop l2 a stack); [apply same_filter; auto|intros b; tauto].
Qed.
Lemma cycle_same pf l1 l2 : same l1 l2 -> same_result (cycle_blobs_of pf l1) (cycle_blobs_of pf l2).
Proof.
  intros H0. unfold cycle_blobs_of.
  set (f1 := filter _ l1). set (f2 := filter _ l2). assert (H : same f1 f2) by (apply same_filter; auto).
  assert (HP : same (partitions_of f1) (partitions_of f2)).
  { apply same_dedup, same_flat; [apply same_filter; auto|intros x b; tauto]. }
  assert (HA : match apply_partition_filter pf f1 (partitions_of f1), apply_partition_filter pf f2 (partitions_of f2) with
               | Ok (c1, p1), Ok (c2, p2) => same c1 c2 /\ sorted_str p1 = sorted_str p2
               | Raise e1, Raise e2 => e1 = e2
               | _, _ => False
               end).
  { assert (HS : sorted_str (partitions_of f1) = sorted_str (partitions_of f2)).
    { apply sorted_same, same_flat; [apply same_filter; auto|intros x b; tauto]. }
    unfold apply_partition_filter. destruct pf as [[[field op] v]|]; [|auto].
    destruct (negb (str_mem op [$"="; $"=="])); [reflexivity|]. cbv zeta.
    rewrite (same_existsb _ _ _ HP). destruct (existsb _ (partitions_of f2)); [|auto].
    split; [apply same_filter; auto|reflexivity]. }
  destruct (apply_partition_filter pf f1 _) as [[c1 p1]|e1], (apply_partition_filter pf f2 _) as [[c2 p2]|e2]; try contradiction; [|exact HA].
  destruct HA as [HC HS]. cbn [bind]. unfold choose_partition. rewrite HS. destruct (rev (sorted_str p2)) as [|ch rest].
  - cbn [same_result]. unfold read_folders, partitioned_folders. apply same_flat; [intros b; tauto|].
    intros x. apply select_frame_same, same_filter. auto.
  - cbn [same_result]. unfold read_folders. apply same_flat.
    + unfold partitioned_folders. destruct ch; [intros b; tauto|]. apply same_dedup, same_map, same_filter. auto.
    + intros x. apply select_frame_same, same_filter, same_filter. auto.
Qed.
Lemma get_list_same pf store1 store2 paths : (forall p, In p paths -> same (store1 p) (store2 p)) ->
  same_result (get_list_of_blobs pf store1 paths) (get_list_of_blobs pf store2 paths).
Proof.
  intros H. unfold get_list_of_blobs.
  assert (G : forall ps, (forall p, In p ps -> In p paths) ->
    match mapM (fun p => cycle_blobs_of pf (store1 p)) ps, mapM (fun p => cycle_blobs_of pf (store2 p)) ps with
    | Ok f1, Ok f2 => same (concat f1) (concat f2) | Raise e1, Raise e2 => e1 = e2 | _, _ => False end).
  { induction ps as [|p ps IH]; intros Hp; cbn [mapM]; [intros b; tauto|].
    pose proof (cycle_same pf _ _ (H p (Hp p (or_introl eq_refl)))) as C. specialize (IH (fun q Hq => Hp q (or_intror Hq))).
    destruct (cycle_blobs_of pf (store1 p)), (cycle_blobs_of pf (store2 p)); try contradiction; cbn [bind]; [|exact C].
    destruct (mapM _ ps), (mapM _ ps); try contradiction; cbn [bind]; [|exact IH].
    cbn [concat]. intros b. rewrite !in_app_iff, (C b), (IH b). tauto. }
  specialize (G (dedup str_eqb paths)).
  assert (Hd : forall p, In p (dedup str_eqb paths) -> In p paths) by (intros p; apply (dedup_In str_eqb str_eqb_eq)).
  specialize (G Hd). destruct (mapM _ _), (mapM _ _); try contradiction; cbn [bind]; [|exact G].
  cbn [same_result]. intros b. rewrite !sorted_str_In. apply G.
Qed.

(** ** records *)
Section Read.
  Context (hash : str -> Z) (loads : str -> result cdict) (records : str -> list value).
  Lemma session_set l1 l2 n : same l1 l2 -> ~ In [] l1 ->
    records_read (session hash loads records l1 NoCursor n) = records_read (session hash loads records l2 NoCursor n).
  Proof.
    intros H N. destruct (Cursor.full_read_exists records l1) as (out & F).
    assert (F2 : full_read records l2 out).
    { destruct F as (names & [S I] & ->). exists names. split; auto. split; auto. intros b. rewrite I. apply H. }
    assert (N2 : ~ In [] l2) by (intros X; apply N, H; auto).
    destruct (Cursor.read_once hash loads records l1 N out n F) as (s1 & ->).
    destruct (Cursor.read_once hash loads records l2 N2 out n F2) as (s2 & ->). reflexivity.
  Qed.
  Lemma read_set r1 r2 n : same_result r1 r2 ->
    records_read (read_records hash loads (fun _ => r1) 0 records NoCursor n)
    = records_read (read_records hash loads (fun _ => r2) 0 records NoCursor n).
  Proof.
    intros H. unfold read_records, find_blobs. change (1 <? 0)%Z with false. cbn iota.
    destruct r1 as [l1|e1], r2 as [l2|e2]; cbn [same_result] in H; try contradiction; cbn [bind]; [|subst; reflexivity].
    pose proof (same_filter is_readable l1 l2 H) as HF.
    assert (N : ~ In [] (filter is_readable l1)) by (rewrite filter_In; intros [_ C]; discriminate C).
    destruct (filter is_readable l1) as [|x1 q1] eqn:E1, (filter is_readable l2) as [|x2 q2] eqn:E2; auto.
    - destruct (proj2 (HF x2)). left. auto.
    - destruct (proj1 (HF x1)). left. auto.
    - rewrite <- E1, <- E2 in *. apply session_set; auto.
  Qed.
End Read.
Lemma repetitions hash loads records pf store1 store2 paths n :
  (forall p name, In p paths -> (In name (store1 p) <-> In name (store2 p))) ->
  records_read (read_records hash loads (fun _ => get_list_of_blobs pf store1 paths) 0 records NoCursor n) =
  records_read (read_records hash loads (fun _ => get_list_of_blobs pf store2 paths) 0 records NoCursor n).
Proof. intros H. apply read_set, get_list_same. intros p Hp name. apply H. auto. Qed.
