(** Reading on in a folder to which blobs were added. *)
From Coq Require Import Lia Sorted Permutation PeanoNat.
From Verif.Base Require Import Py PyFacts Value.
From Verif.Model Require Import Paths Dates Frames ReadRange Cursor Storage Adapters Reader.
From Verif.Spec Require Import Paths Dates Reader Cursor.
From Verif.Spec Require Adapters.
From Verif.Spec Require Import System Unpartitioned.
From Verif.Proofs Require Import Cursor CursorGrowth.
From Verif.Proofs Require Unpartitioned AdaptersUse.

(** the contents of the old blobs may be told by another function *)
Lemma good_ext {R} (c0 c1 : str -> list R) blobs c l : (forall b, In b blobs -> c1 b = c0 b) -> Good c0 blobs c l -> Good c1 blobs c l.
Proof.
  intros H (Hr & Hcase).
  assert (U : forall r, flat_map c1 (unread blobs r) = flat_map c0 (unread blobs r)).
  { intros r. assert (I : forall b, In b (unread blobs r) -> In b blobs) by (intros b Hb; unfold unread in Hb; rewrite filter_In, (dedup_In str_eqb str_eqb_eq), sorted_str_In in Hb; tauto).
    revert I. generalize (unread blobs r). intros q. induction q as [|x q IH]; intros I; [reflexivity|]. cbn [flat_map].
    rewrite H by (apply I; now left). f_equal. apply IH. intros b Hb. apply I. now right. }
  split; [exact Hr|]. destruct Hcase as [[A ->]|(A & B & ->)]; [left|right]; rewrite ?U; auto. rewrite H by auto. auto.
Qed.

Section Resume.
  Context {R : Type}.
  Variables (hash : str -> Z) (dumps : cdict -> str) (loads : str -> result cdict).
  Variables (c0 c1 : str -> list R) (blobs news : list str).
  Hypothesis Hcodec : forall d, loads (dumps d) = Ok d.
  Hypothesis Hdumps : forall d, dumps d <> [].
  Notation all := (blobs ++ news).
  Hypothesis Same : forall b, In b blobs -> c1 b = c0 b.
  Hypothesis Hne : ~ In [] all.
  Hypothesis HND : NoDup all.
  Hypothesis Hhash : forall a b, In a ([] :: all) -> In b ([] :: all) -> hash a = hash b -> a = b.
  Hypothesis Later : forall old new, In old blobs -> In new news -> str_ltb old new = true.
  Hypothesis Fits : (length all <= 8 * ((length blobs + 7) / 8))%nat.

  Lemma resume_told out outN k t : full_read c0 blobs out -> full_read c1 news outN -> t <> KeepObject ->
    exists s, session hash loads c0 blobs NoCursor k = Ok (firstn k out, s) /\
      forall j, exists s', session hash loads c1 all (keep hash dumps t s) j = Ok (firstn j (skipn k out ++ outN), s').
  Proof.
    intros H HN T. apply full_read_flat in H, HN. subst out outN.
    assert (Hne' : ~ In [] blobs) by (intros Q; apply Hne, in_app_iff; auto).
    destruct (session_spec hash loads c0 blobs Hne' NoCursor _ k (SInv_start hash loads c0 blobs)) as (s & E & HS).
    exists s. split; auto. intros j.
    rewrite (dedup_NoDup_id str_eqb str_eqb_eq (sorted_str news)) by (apply isort_NoDup; apply (parts_nodup _ _ HND)).
    assert (G : SInv hash loads c1 all (keep hash dumps t s) (skipn k (flat_map c0 (dedup str_eqb (sorted_str blobs))) ++ flat_map c1 (sorted_str news))).
    { pose proof (session_plain hash loads c0 _ _ _ _ _ (or_introl eq_refl) E) as [->|[c ->]].
      - destruct HS as (c & C & Gd). cbn in C. injection C as <-. apply (good_ext c0 c1 blobs _ _ Same) in Gd.
        exists (mkCursor (sorted_str all) [] [] (-1)). split; [reflexivity|].
        split; [reflexivity|]. left. split; [left; cbn; lia|]. cbn [read_blobs]. destruct Gd as (_ & [[_ Q]|(_ & Q & _)]); [|cbn in Q; lia].
        cbn [read_blobs] in Q. rewrite Q, (unread_all c1 blobs news HND Later) by (intros ? ? []). now rewrite flat_map_app.
      - destruct HS as (x & C & Gd). cbn in C. injection C as <-. apply (good_ext c0 c1 blobs _ _ Same) in Gd.
        destruct (load_more hash c1 blobs news Hne HND Hhash Later Fits c _ Gd) as (c' & L & Gd').
        exists c'. split; [|exact Gd']. rewrite (kept_loaded hash dumps loads); auto. }
    destruct (session_spec hash loads c1 all Hne _ _ j G) as (s' & E' & _). eauto.
  Qed.
End Resume.

Lemma sorted_of (l l' : list str) : NoDup l -> NoDup l' -> (forall x, In x l <-> In x l') ->
  StronglySorted (fun a b => str_leb a b = true) l -> l = sorted_str l'.
Proof.
  intros N N' I S. apply (sorted_perm_unique (fun a b => str_leb a b = true) str_leb_antisym); [exact S|apply sorted_str_sorted|].
  eapply perm_trans; [|symmetry; apply isort_perm]. apply NoDup_Permutation; auto.
Qed.

Section Tail.
  Context (parse : str -> result value) (unzstd : str -> result str) (other : str -> str -> generator value)
    (columns : value -> result value) (filters : value -> result bool) (hash : str -> Z) (dumps : cdict -> str) (loads : str -> result cdict) (k : kind).
  Notation records s := (blob_records parse unzstd other (fun name => get_blob_bytes k name s) columns filters None).

  (** MinIO lists a blob once when the range is within one hour *)
  Lemma hours_one now a b : (a / 3600 = b / 3600)%Z -> length (range_hours now a b) = 1%nat.
  Proof.
    intros H. unfold range_hours, date_range. cbn [full_day parse_bound bind].
    assert (E : floor_hour a = floor_hour b).
    { unfold floor_hour. pose proof (Z.div_mod a 3600 ltac:(discriminate)). pose proof (Z.div_mod b 3600 ltac:(discriminate)). lia. }
    rewrite E, Z.ltb_irrefl, Z.sub_diag. reflexivity.
  Qed.
  Lemma listing_nodup cs s now rnd a b : (k = MinIo -> (a / 3600 = b / 3600)%Z) -> Adapters.folder cs -> Adapters.proper k s ->
    NoDup (listing k rnd (range_hours now a b) (join $"/" cs) s).
  Proof.
    intros NM F P. unfold listing.
    assert (G : forall k', k' <> MinIo -> Adapters.proper k' s ->
      NoDup (match get_blobs_at_path k' rnd (range_hours now a b) (join $"/" cs) s with Ok l => l | Raise _ => [] end)).
    { intros k' N P'. destruct (AdaptersUse.listed_folder k' rnd (range_hours now a b) cs s F P') as (out & E & _ & D); [congruence|]. rewrite E. auto. }
    destruct k; try (apply G; [discriminate|exact P]).
    destruct (AdaptersUse.minio_repeats rnd cs (range_hours now a b) s F) as (once & E1 & E2).
    assert (D : NoDup once).
    { specialize (G Gcs ltac:(discriminate) P). rewrite E1 in G. exact G. }
    rewrite E2, (hours_one now a b (NM eq_refl)). cbn [repeat concat]. now rewrite app_nil_r.
  Qed.

  (** a read with a cursor is a session over the readable blobs below the folder *)
  Lemma folder_session cs s names slash now rnd a b cur n : (k = MinIo -> (a / 3600 = b / 3600)%Z) -> Adapters.folder cs -> Adapters.proper k s ->
    slash = [] \/ slash = $"/" -> (a <= b)%Z -> (forall name, stored_below k s (join $"/" cs) name -> loose name) ->
    NoDup names -> (forall name, In name names <-> stored_below k s (join $"/" cs) name /\ is_readable name = true) -> names <> [] ->
    read_folder_from parse unzstd other columns filters hash loads k now rnd (join $"/" cs ++ slash) a b cur n s
    = session hash loads (records s) (sorted_str names) cur n.
  Proof.
    intros NM F P S L H ND I NE. set (l := listing k rnd (range_hours now a b) (join $"/" cs) s).
    pose proof (fun name => Unpartitioned.listing_folder k cs s now rnd a b name F P L) as J. fold l in J.
    assert (NL : NoDup l).
    { apply listing_nodup; auto. }
    assert (E : list_range None (fun p => listing k rnd (range_hours now a b) p s) now rnd (reader_dataset (join $"/" cs ++ slash) []) a b
                = Ok (sorted_str l)).
    { rewrite (Unpartitioned.listed_once cs (Unpartitioned.folder_named cs F) None (fun p => listing k rnd (range_hours now a b) p s) now rnd slash a b S L).
      unfold get_list_of_blobs. cbn [dedup filter mapM]. fold l. rewrite Unpartitioned.loose_taken.
      - cbn [bind concat]. now rewrite app_nil_r.
      - intros name Hb. apply J in Hb. split; [apply H; auto|]. destruct Hb as (Hb & _). apply startswith_iff in Hb as [r ->].
        apply in_app_iff. left. apply in_app_iff. right. now left. }
    assert (Q : filter is_readable (sorted_str l) = sorted_str names).
    { apply sorted_of.
      - apply NoDup_filter, isort_NoDup. exact NL.
      - exact ND.
      - intros x. rewrite filter_In, sorted_str_In, J, I. tauto.
      - apply strongly_sorted_filter, sorted_str_sorted. }
    unfold read_folder_from. rewrite E. unfold read_records, find_blobs. change (1 <? 0)%Z with false. cbn [bind]. rewrite Q.
    destruct (sorted_str names) as [|x q] eqn:Z; [|reflexivity]. exfalso. destruct names as [|y r]; [congruence|].
    assert (Y : In y []) by (rewrite <- Z; apply sorted_str_In; now left). destruct Y.
  Qed.

  Lemma followed cs s0 s1 olds news slash now rnd a b now' rnd' a' b' t i : (k = MinIo -> (a / 3600 = b / 3600)%Z /\ (a' / 3600 = b' / 3600)%Z) -> Adapters.folder cs ->
    Adapters.proper k s0 -> Adapters.proper k s1 -> slash = [] \/ slash = $"/" -> (a <= b)%Z -> (a' <= b')%Z ->
    (forall name, stored_below k s0 (join $"/" cs) name \/ stored_below k s1 (join $"/" cs) name -> loose name) ->
    NoDup (olds ++ news) -> olds <> [] ->
    (forall name, In name olds <-> stored_below k s0 (join $"/" cs) name /\ is_readable name = true) ->
    (forall name, In name (olds ++ news) <-> stored_below k s1 (join $"/" cs) name /\ is_readable name = true) ->
    (forall name, In name olds -> get_blob_bytes k name s1 = get_blob_bytes k name s0) ->
    (forall old new, In old olds -> In new news -> str_ltb old new = true) ->
    (length (olds ++ news) <= 8 * ((length olds + 7) / 8))%nat ->
    (forall x y, In x ([] :: olds ++ news) -> In y ([] :: olds ++ news) -> hash x = hash y -> x = y) ->
    (forall d, loads (dumps d) = Ok d) -> (forall d, dumps d <> []) -> t <> KeepObject ->
    exists out more, full_read (records s0) olds out /\ full_read (records s1) news more /\
    exists saved, read_folder_from parse unzstd other columns filters hash loads k now rnd (join $"/" cs ++ slash) a b NoCursor i s0 = Ok (firstn i out, saved) /\
      forall j, exists saved',
        read_folder_from parse unzstd other columns filters hash loads k now' rnd' (join $"/" cs ++ slash) a' b' (keep hash dumps t saved) j s1
        = Ok (firstn j (skipn i out ++ more), saved').
  Proof.
    intros NM F P0 P1 S L L' LO ND NE I0 I1 SB LT FT HH HC HD HT.
    destruct (full_read_exists (records s0) olds) as (out & FO). destruct (full_read_exists (records s1) news) as (more & FN).
    exists out, more. split; [exact FO|]. split; [exact FN|].
    destruct (parts_nodup _ _ ND) as [N0 N1].
    assert (SA : sorted_str (olds ++ news) = sorted_str olds ++ sorted_str news) by (apply (sorted_all (records s0)); auto).
    assert (IN : forall x, In x (sorted_str olds ++ sorted_str news) <-> In x (olds ++ news)) by (intros x; rewrite !in_app_iff, !sorted_str_In; tauto).
    assert (FO' : full_read (records s0) (sorted_str olds) out).
    { destruct FO as (ns & [A1 A2] & ->). exists ns. split; [|reflexivity]. split; [exact A1|]. intros x. rewrite A2. symmetry. apply sorted_str_In. }
    assert (FN' : full_read (records s1) (sorted_str news) more).
    { destruct FN as (ns & [A1 A2] & ->). exists ns. split; [|reflexivity]. split; [exact A1|]. intros x. rewrite A2. symmetry. apply sorted_str_In. }
    destruct (resume_told hash dumps loads (records s0) (records s1) (sorted_str olds) (sorted_str news) HC HD) with (out := out) (outN := more) (k := i) (t := t)
      as (sv & E & G); auto.
    - intros x Hx. rewrite sorted_str_In in Hx. unfold blob_records. now rewrite (SB x Hx).
    - intros Q. apply IN, I1 in Q as [_ Q]. discriminate Q.
    - rewrite <- SA. apply isort_NoDup. exact ND.
    - intros x y Hx Hy. apply HH; [destruct Hx as [<-|Hx]; [now left|right; now apply IN]|destruct Hy as [<-|Hy]; [now left|right; now apply IN]].
    - intros o w Ho Hw. rewrite sorted_str_In in Ho, Hw. auto.
    - rewrite <- SA, !sorted_length. exact FT.
    - exists sv. split.
      + rewrite (folder_session cs s0 olds slash now rnd a b NoCursor i); auto. intros Q. apply (NM Q).
      + intros j. destruct (G j) as (sv' & E'). exists sv'. rewrite (folder_session cs s1 (olds ++ news) slash now' rnd' a' b'); auto; [|intros Q; apply (NM Q)|destruct olds; [congruence|discriminate]].
        rewrite SA. exact E'.
  Qed.
End Tail.
