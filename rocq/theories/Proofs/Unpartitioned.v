(** Reading a dataset without partitions. *)
From Coq Require Import Lia Sorted Permutation.
From Verif.Base Require Import Py PyFacts Value.
From Verif.Model Require Import Paths Dates Frames ReadRange Cursor Storage Adapters Reader.
From Verif.Spec Require Import Paths Dates Reader Cursor.
From Verif.Spec Require Adapters.
From Verif.Spec Require Import System Unpartitioned.
From Verif.Proofs Require Import Paths Dates.
From Verif.Proofs Require Cursor Repeats ReadRange AdaptersUse ReaderDataset.

Section Folder.
  Context (names : list str) (HN : folder_names names).
  Notation dir := (join $"/" names).

  Lemma no_slash_end : endswith $"/" dir = false.
  Proof.
    destruct (endswith _ _) eqn:Q; [|reflexivity]. exfalso. apply endswith_iff in Q as [z Hz]. destruct HN as [N C].
    destruct (exists_last N) as (l & c & El).
    assert (K : exists p, dir = p ++ c).
    { rewrite El. destruct l as [|a l]; [exists []; reflexivity|]. exists (join $"/" (a :: l) ++ $"/"). rewrite join_app by discriminate. rewrite <- app_assoc. reflexivity. }
    destruct K as [p K]. destruct (C c) as [(C1 & _ & C3) _]; [rewrite El; apply in_app_iff; right; now left|].
    destruct (exists_last C1) as (c' & ch & Ec). subst c. rewrite K, app_assoc in Hz. apply app_inj_tail in Hz as [_ ->].
    apply C3. apply in_app_iff. right. now left.
  Qed.
  Lemma dataset_alone slash : slash = [] \/ slash = $"/" -> reader_dataset (dir ++ slash) [] = dir ++ $"/".
  Proof.
    intros [->| ->]; unfold reader_dataset; [rewrite app_nil_r, no_slash_end; reflexivity|].
    assert (Q : endswith $"/" (dir ++ $"/") = true) by (apply endswith_iff; eauto). rewrite Q. reflexivity.
  Qed.
  Lemma braces : no_braces dir.
  Proof.
    destruct HN as [N C]. revert N C. generalize names. intros l. induction l as [|c l IH]; [congruence|]. intros _ C.
    destruct (C c (or_introl eq_refl)) as (_ & B1 & B2). destruct l as [|c' l]; [split; assumption|].
    destruct IH as [I1 I2]; [discriminate|intros x Hx; apply C; now right|].
    change (join $"/" (c :: c' :: l)) with (c ++ $"/" ++ join $"/" (c' :: l)).
    split; intros H; apply in_app_iff in H as [H|H]; auto; apply in_app_iff in H as [[H|[]]|H]; auto; discriminate H.
  Qed.
  Lemma every_hour rnd d : cycle_path rnd (dir ++ $"/") d = Ok dir.
  Proof.
    destruct HN as [N C].
    pose proof (cycle_path_template rnd [Lit dir] d) as H. unfold template_text, fill in H. cbn [map concat seg_text seg_value] in H.
    rewrite app_nil_r in H. rewrite H; [|intros s [E|[]]; injection E as <-; apply braces]. f_equal.
    assert (E : pp_parse (dir ++ $"/") = ([], names)).
    { rewrite <- (parse_join names) by (intros c Hc; apply C; auto). unfold pp_parse. f_equal.
      - destruct names as [|[|x c] l]; [congruence|destruct (C [] (or_introl eq_refl)) as ((X & _) & _); congruence|].
        destruct (C (x :: c) (or_introl eq_refl)) as ((_ & _ & X) & _).
        assert (X' : x <> "/"%char) by (intros ->; apply X; now left).
        assert (PR : forall w, pp_root (x :: w) = []).
        { intros w. apply relative_root. intros r E. injection E as E _. auto. }
        destruct l as [|c' l]; cbn [join app]; rewrite !PR; reflexivity.
      - rewrite split_snoc_slash, filter_app. cbn [filter real_part str_eqb list_eqb negb andb]. now rewrite app_nil_r. }
    rewrite E. apply pp_str_join. auto.
  Qed.
  Lemma one_path (l : list datetime) : l <> [] -> dedup str_eqb (map (fun _ => dir) l) = [dir].
  Proof.
    assert (G : forall l : list datetime, filter (fun y => negb (str_eqb dir y)) (dedup str_eqb (map (fun _ => dir) l)) = []).
    { intros q. assert (I : forall x, In x (dedup str_eqb (map (fun _ => dir) q)) -> x = dir).
      { intros x Hx. apply (proj1 (dedup_In str_eqb str_eqb_eq _ _)) in Hx. now apply in_map_iff in Hx as (? & <- & _). }
      revert I. generalize (dedup str_eqb (map (fun _ => dir) q)). intros l0. induction l0 as [|x q' IH]; intros I; [reflexivity|]. cbn [filter].
      rewrite (I x (or_introl eq_refl)), str_eqb_refl. cbn [negb]. apply IH. intros y Hy. apply I. now right. }
    destruct l as [|x l]; [congruence|]. intros _. cbn [map dedup]. now rewrite G.
  Qed.
  Lemma hours_some now a b : (a <= b)%Z -> exists hs, date_range now (BDatetime a) (BDatetime b) = Ok hs /\ hs <> [].
  Proof.
    intros L. rewrite (date_range_eq now (BDatetime a) (BDatetime b) a b eq_refl eq_refl).
    destruct (Z.ltb_spec (floor_hour b) (floor_hour a)); [unfold floor_hour in *; lia|]. eexists. split; [reflexivity|]. discriminate.
  Qed.
  Lemma listed_once pf store now rnd slash a b : slash = [] \/ slash = $"/" -> (a <= b)%Z ->
    list_range pf store now rnd (reader_dataset (dir ++ slash) []) a b = get_list_of_blobs pf store [dir].
  Proof.
    intros S L. rewrite (dataset_alone slash S). unfold list_range. destruct (hours_some now a b L) as (hs & -> & N). cbn [bind].
    rewrite (ReadRange.mapM_Ok_in _ (fun _ => dir)) by (intros; apply every_hour). cbn [bind].
    rewrite <- ReadRange.get_list_dedup, (one_path hs N). reflexivity.
  Qed.

  (** loose blobs are all taken *)
  Lemma filter_id {A} (f : A -> bool) l : (forall x, In x l -> f x = true) -> filter f l = l.
  Proof. induction l as [|x l IH]; intros H; [reflexivity|]. cbn [filter]. rewrite H by (now left). f_equal. apply IH. intros y Hy. apply H. now right. Qed.
  Lemma filter_none {A} (f : A -> bool) l : (forall x, In x l -> f x = false) -> filter f l = [].
  Proof. induction l as [|x l IH]; intros H; [reflexivity|]. cbn [filter]. rewrite H by (now left). apply IH. intros y Hy. apply H. now right. Qed.
  Lemma loose_taken l : (forall b, In b l -> loose b /\ In "/"%char b) -> cycle_blobs_of None l = Ok l.
  Proof.
    intros H. unfold cycle_blobs_of. rewrite filter_id by (intros b Hb; apply H in Hb as [(-> & _) _]; reflexivity).
    unfold partitions_of. rewrite (filter_none (contains $"/by_")) by (intros b Hb; apply H in Hb; apply Hb).
    cbn [flat_map dedup apply_partition_filter bind choose_partition sorted_str]. cbn [rev].
    unfold choose_partition. cbn. unfold read_folders, partitioned_folders. cbn [flat_map app]. rewrite app_nil_r.
    rewrite filter_id.
    - unfold select_frame. rewrite (filter_none (contains $"as_at_")) by (intros b Hb; apply H in Hb; apply Hb). reflexivity.
    - intros b Hb. apply H in Hb as [_ Hb]. apply in_split in Hb as (x & y & ->). apply contains_iff. exists x, y. reflexivity.
  Qed.
End Folder.

Section Stored.
  Context (parse : str -> result value) (unzstd : str -> result str) (other : str -> str -> generator value)
    (columns : value -> result value) (filters : value -> result bool) (hash : str -> Z) (loads : str -> result cdict) (k : kind).
  Notation records s := (blob_records parse unzstd other (fun name => get_blob_bytes k name s) columns filters None).

  Lemma folder_named cs : Adapters.folder cs -> folder_names cs.
  Proof. intros (L & C & _). split; auto. destruct cs; [cbn in L; lia|discriminate]. Qed.
  Lemma hours_of_range now a b : (a <= b)%Z -> range_hours now a b <> [].
  Proof. intros L. unfold range_hours. destruct (hours_some now a b L) as (hs & -> & N). destruct hs; [congruence|discriminate]. Qed.
  Lemma listing_folder cs s now rnd a b name : Adapters.folder cs -> Adapters.proper k s -> (a <= b)%Z ->
    In name (listing k rnd (range_hours now a b) (join $"/" cs) s) <-> stored_below k s (join $"/" cs) name.
  Proof.
    intros F P L. destruct (AdaptersUse.listed_folder k rnd (range_hours now a b) cs s F P) as (out & E & I & _); [intros _; apply hours_of_range; auto|].
    unfold listing. rewrite E. apply I.
  Qed.

  Lemma dates_ignored cs s slash slash' now rnd a b now' rnd' a' b' n : Adapters.folder cs -> Adapters.proper k s ->
    slash = [] \/ slash = $"/" -> slash' = [] \/ slash' = $"/" -> (a <= b)%Z -> (a' <= b')%Z ->
    read_folder parse unzstd other columns filters hash loads k now rnd (join $"/" cs ++ slash) a b n s
    = read_folder parse unzstd other columns filters hash loads k now' rnd' (join $"/" cs ++ slash') a' b' n s.
  Proof.
    intros F P S S' L L'. unfold read_folder.
    rewrite (listed_once cs (folder_named cs F) None (fun p => listing k rnd (range_hours now a b) p s) now rnd slash a b S L),
            (listed_once cs (folder_named cs F) None (fun p => listing k rnd' (range_hours now' a' b') p s) now' rnd' slash' a' b' S' L').
    apply Repeats.read_set, Repeats.get_list_same. intros p [<-|[]] name.
    rewrite !(listing_folder cs) by auto. tauto.
  Qed.

  Lemma whole_folder cs s slash now rnd a b n : Adapters.folder cs -> Adapters.proper k s ->
    slash = [] \/ slash = $"/" -> (a <= b)%Z -> (forall name, stored_below k s (join $"/" cs) name -> loose name) ->
    exists names, StronglySorted (fun x y => str_ltb x y = true) names /\
      (forall name, In name names <-> stored_below k s (join $"/" cs) name /\ is_readable name = true) /\
      read_folder parse unzstd other columns filters hash loads k now rnd (join $"/" cs ++ slash) a b n s
      = match names with [] => Raise DataNotFoundError | _ => Ok (firstn n (flat_map (records s) names)) end.
  Proof.
    intros F P S L H. set (l := listing k rnd (range_hours now a b) (join $"/" cs) s).
    pose proof (fun name => listing_folder cs s now rnd a b name F P L) as I. fold l in I.
    assert (E : list_range None (fun p => listing k rnd (range_hours now a b) p s) now rnd (reader_dataset (join $"/" cs ++ slash) []) a b
                = Ok (sorted_str l)).
    { rewrite (listed_once cs (folder_named cs F) None (fun p => listing k rnd (range_hours now a b) p s) now rnd slash a b S L).
      unfold get_list_of_blobs. cbn [dedup filter mapM]. fold l. rewrite loose_taken.
      - cbn [bind concat]. now rewrite app_nil_r.
      - intros name Hb. apply I in Hb. split; [apply H; auto|]. destruct Hb as (Hb & _). apply startswith_iff in Hb as [r ->].
        apply in_app_iff. left. apply in_app_iff. right. now left. }
    exists (dedup str_eqb (sorted_str (filter is_readable l))).
    destruct (Cursor.ascending_exists (filter is_readable l)) as [A1 A2]. split; [exact A1|]. split.
    - intros name. rewrite A2, filter_In, I. tauto.
    - unfold read_folder. rewrite E. unfold read_records, find_blobs. change (1 <? 0)%Z with false. cbn [bind].
      assert (FE : forall name, In name (filter is_readable (sorted_str l)) <-> In name (filter is_readable l)).
      { intros name. rewrite !filter_In, sorted_str_In. tauto. }
      destruct (filter is_readable (sorted_str l)) as [|x q] eqn:Q.
      + destruct (dedup _ _) as [|y z] eqn:D; [reflexivity|]. exfalso.
        assert (Y : In y (filter is_readable l)) by (apply A2; now left). apply FE in Y. destruct Y.
      + destruct (dedup str_eqb (sorted_str (filter is_readable l))) as [|y z] eqn:D; [exfalso; assert (Y : In x []) by (apply A2, FE; now left); destruct Y|].
        assert (NE : ~ In [] (x :: q)) by (rewrite <- Q, filter_In; intros [_ C]; discriminate C).
        assert (FR : full_read (records s) (x :: q) (flat_map (records s) (y :: z))).
        { exists (y :: z). split; [|reflexivity]. split; [exact A1|]. intros w. rewrite A2. symmetry. apply FE. }
        destruct (Cursor.read_once hash loads (records s) (x :: q) NE _ n FR) as (sv & ->). reflexivity.
  Qed.
End Stored.
