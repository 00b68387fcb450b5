(** What the blobs of a dataset give to a query (C83). *)
From Verif.Base Require Import Py PyFacts Value.
From Verif.Model Require Import Cursor Storage Reader.
From Verif.Spec Require Import Cursor Reader System Query QueryUntil.
From Verif.Proofs Require Import Cursor Reader RoundTrip.

Lemma until_selected columns filters rows fin : until_error columns filters rows (fst (select_and_filter columns filters rows fin)).
Proof.
  induction rows as [|r rows IH]; cbn [select_and_filter]; [constructor|].
  destruct (columns r) as [v|e] eqn:C; [|eapply column_raises; exact C].
  destruct (filters v) as [[|]|e] eqn:F; [| |eapply filter_raises; eauto].
  - destruct (select_and_filter columns filters rows fin) as [ys e]. cbn [fst] in *. eapply one_kept; eauto.
  - destruct (select_and_filter columns filters rows fin) as [ys e]. cbn [fst] in *. eapply one_left; eauto.
Qed.

Lemma blobs_are_given parse unzstd other read_blob hash loads blobs (content : str -> option (list str)) (rs : str -> list value) names :
  (forall b, In b blobs ->
     match content b with
     | Some lines => Forall one_line lines /\ until_damage parse lines (rs b) /\
         ((file_with_extension $".jsonl" b /\ read_blob b = Ok (lines_text lines)) \/
          (file_with_extension $".zstd" b /\ exists data, read_blob b = Ok data /\ unzstd data = Ok (lines_text lines)))
     | None => (file_with_extension $".jsonl" b \/ file_with_extension $".zstd" b) /\ (exists e, read_blob b = Raise e) /\ rs b = []
     end) ->
  blobs <> [] -> ascending_names blobs names ->
  gives_blobs (fun columns filters n => records_read (read_records hash loads (fun _ => Ok blobs) 0
      (blob_records parse unzstd other read_blob columns filters None) NoCursor n)) (map rs names).
Proof.
  intros HB Hne HN columns filters n. set (recs := blob_records parse unzstd other read_blob columns filters None).
  exists (map recs names). split.
  - assert (HB' : forall b, In b names -> In b blobs) by (intros b H; now apply HN).
    clear HN Hne. induction names as [|b names IH]; cbn [map]; constructor; [|apply IH; intros; apply HB'; now right].
    specialize (HB b (HB' b (or_introl eq_refl))). destruct (content b) as [lines|].
    + destruct HB as (Ho & Hd & [[Hx Hr]|(Hx & data & Hr & Hz)]); unfold recs.
      * rewrite (jsonl_blob parse unzstd other read_blob columns filters b lines Hx Hr Ho).
        rewrite (map_gen_until _ _ _ _ Hd). apply until_selected.
      * rewrite (zstd_blob parse unzstd other read_blob columns filters b data lines Hx Hr Hz Ho).
        rewrite (map_gen_until _ _ _ _ Hd). apply until_selected.
    + destruct HB as (Hx & (e & Hr) & ->). replace (recs b) with (@nil value); [constructor|]. symmetry. unfold recs, blob_records.
      destruct Hx as [Hx|Hx]; rewrite (extension_of_file _ _ Hx), Hr; destruct (dget str_eqb _ KNOWN_EXTENSIONS); reflexivity.
  - assert (Hread : filter is_readable blobs = blobs).
    { apply filter_true. intros b Hb. specialize (HB b Hb). unfold is_readable.
      assert (X : file_with_extension $".jsonl" b \/ file_with_extension $".zstd" b).
      { destruct (content b); [destruct HB as (_ & _ & [[Hx _]|[Hx _]])|destruct HB as [Hx _]]; auto. }
      destruct X as [X|X]; rewrite (last_extension_eq _ _ X); reflexivity. }
    assert (FR : full_read recs blobs (concat (map recs names))).
    { exists names. split; [exact HN|]. now rewrite flat_map_concat_map. }
    unfold read_records. rewrite no_limit by lia. cbn [bind]. rewrite Hread.
    destruct blobs as [|b0 bs] eqn:E; [congruence|]. rewrite <- E in *.
    destruct (read_once hash loads recs blobs) with (out := concat (map recs names)) (k := n) as [c Hc]; auto.
    + rewrite <- Hread. apply readable_not_empty.
    + rewrite Hc. reflexivity.
Qed.
