(** Lemmas about format overrides, the null reader and schemas. *)
From Verif.Base Require Import Py PyFacts Value ValueFacts.
From Verif.Model Require Import Frames Cursor Storage Reader Sources.
From Verif.Spec Require Import Frames Cursor Json Reader Sources.
From Verif.Proofs Require Import Frames Cursor Reader RoundTrip.

(** ** Format overrides *)
Lemma format_of_names f ext : names_format f ext -> format_of (Some f) = Some ext.
Proof.
  intros (e & -> & He & Hd & Hf). assert (Hn : f <> []) by (intros ->; destruct Hf as [<-|C]; [now elim He|discriminate]).
  destruct f as [|c f]; [contradiction|]. cbn [format_of]. destruct Hf as [E|E]; rewrite E.
  - destruct e as [|d e]; [contradiction|]. destruct (Ascii.eqb_spec d "."%char) as [->|N].
    + elim Hd. now left.
    + f_equal. destruct d as [[] [] [] [] [] [] [] []]; try reflexivity. now elim N.
  - reflexivity.
Qed.
Lemma override_same parse unzstd other read_blob columns filters f ext name name' data :
  names_format f ext -> file_with_extension ext name' -> read_blob name = Ok data -> read_blob name' = Ok data ->
  blob_records parse unzstd other read_blob columns filters (Some f) name
  = blob_records parse unzstd other read_blob columns filters None name'.
Proof.
  intros Hf Hx H1 H2. unfold blob_records, extension_of at 1. rewrite (format_of_names f ext Hf), (extension_of_file _ _ Hx), H1, H2.
  reflexivity.
Qed.
Lemma no_readable hash loads blobs records cursor n :
  Forall (fun b => is_readable b = false) blobs ->
  read_records hash loads (fun _ => Ok blobs) 0 records cursor n = Raise DataNotFoundError.
Proof.
  intros H. unfold read_records. rewrite no_limit by lia. cbn [bind].
  replace (filter is_readable blobs) with (@nil str); [reflexivity|].
  symmetry. induction H as [|b bs E _ IH]; [reflexivity|]. cbn [filter]. now rewrite E.
Qed.

(** ** NullReader *)
Lemma splitlines_join acc lines : Forall one_line lines -> Forall (fun l => l <> []) lines -> lines <> [] ->
  splitlines_from acc (join [LF] lines) = match lines with l :: ls => (acc ++ l) :: ls | [] => [] end.
Proof.
  intros H Hn. revert acc. induction H as [|l lines Hl Hls IH]; intros acc Hne; [now elim Hne|].
  apply Forall_cons_iff in Hn as [Hnl Hn]. destruct lines as [|l' lines].
  - cbn [join]. clear -Hl Hnl.
    assert (G : forall a, splitlines_from a l = match a ++ l with [] => [] | x => [x] end).
    { clear Hnl. induction l as [|c l IH]; intros a.
      - cbn. rewrite app_nil_r. now destruct a.
      - assert (E : line_end c = false) by (apply Hl; now left). unfold line_end in E. apply orb_false_iff in E as [E1 E2].
        cbn [splitlines_from]. change LF with "010"%char. change CR with "013"%char. rewrite E1, E2.
        rewrite IH by (intros x Hx; apply Hl; now right). rewrite <- app_assoc. reflexivity. }
    rewrite G. destruct (acc ++ l) eqn:E; [|reflexivity]. apply app_eq_nil in E as [_ E]. contradiction.
  - change (join [LF] (l :: l' :: lines)) with (l ++ [LF] ++ join [LF] (l' :: lines)).
    rewrite splitlines_line by exact Hl. f_equal. unfold splitlines.
    rewrite (IH Hn []) by discriminate. reflexivity.
Qed.
Section Null.
  Context (dump : value -> str) (parse : str -> result value) (unzstd : str -> result str)
          (other : str -> str -> generator value) (hash : str -> Z) (loads : str -> result cdict).
  Definition an_entry : entry := mkEntry None None $"null.jsonl".
  Lemma null_name p : null_blobs_at_path p = map (name_in p) [an_entry].
  Proof. reflexivity. Qed.
  Lemma null_live p : plain_folder p -> live p [an_entry] an_entry.
  Proof.
    intros (_ & _ & H). split; [now left|].
    destruct (contains $"BACKOUT" (name_in p an_entry)) eqn:E; [|reflexivity]. exfalso.
    assert (J : name_in p an_entry = join ["/"%char] (split "/"%char p ++ [$"null.jsonl"])).
    { rewrite join_app by (apply split_nonempty || discriminate). now rewrite join_split. }
    rewrite J in E. apply contains_join_in in E.
    - destruct E as (w & Hw & E). apply in_app_iff in Hw as [Hw|[<-|[]]].
      + destruct (H w Hw) as (_ & _ & _ & B). congruence.
      + discriminate.
    - cbn. intuition discriminate.
    - intros C. apply app_eq_nil in C as [_ C]. discriminate.
    - intros w Hw. apply in_app_iff in Hw as [Hw|[<-|[]]]; [now apply split_no_sep in Hw|cbn; intuition discriminate].
  Qed.
  Lemma null_tidy p : plain_folder p -> tidy p (live p [an_entry]).
  Proof.
    intros (_ & _ & H). split.
    - intros c Hc. destruct (H c Hc) as (H1 & H2 & H3 & _). repeat split; auto.
      intros e b f [[<-|[]] _] C. discriminate.
    - intros e b f [[<-|[]] _] C. discriminate.
    - intros e f [[<-|[]] _] C. discriminate.
    - intros e e' f f' [[<-|[]] _] _ C. discriminate.
    - intros e [[<-|[]] _]. cbn [e_file an_entry]. split; [cbn; unfold part_ok; cbn; intuition discriminate|].
      repeat split; try reflexivity; discriminate.
  Qed.
  Lemma null_served p e : plain_folder p -> served (live p [an_entry]) e <-> e = an_entry.
  Proof.
    intros Hp. split.
    - now intros [[[<-|[]] _] _].
    - intros ->. split; [now apply null_live|]. split.
      + intros e [[<-|[]] _]. reflexivity.
      + intros (e & f & [[<-|[]] _] & _ & C). discriminate.
  Qed.
  Lemma null_inj p q : p ++ $"/null.jsonl" = q ++ $"/null.jsonl" -> p = q.
  Proof. apply app_inv_tail. Qed.
  Lemma null_file p : plain_folder p -> file_with_extension $".jsonl" (p ++ $"/null.jsonl").
  Proof.
    intros (H1 & H2 & _). exists p, $"null", $"jsonl". repeat split; try discriminate; auto; cbn; intuition discriminate.
  Qed.
  Lemma null_reads paths days data n :
    one_line_json dump parse -> (forall v, dump v <> []) ->
    (forall r, In r data -> distinct_keys r /\ truthy r = true) ->
    paths <> [] -> (forall p, In p paths -> plain_folder p) -> different paths days ->
    exists blobs c,
      get_list_of_blobs None null_blobs_at_path paths = Ok blobs /\
      read_records hash loads (fun _ => Ok blobs) 0
        (blob_records parse unzstd other (null_blob_bytes dump data) pass_thru pass_thru_filter None) NoCursor n
      = Ok (firstn n (concat (repeat data (length days))), c).
  Proof.
    intros Hj Hd Hr Hne Hp (Nd & Hdays).
    destruct (many_folders (fun _ => [an_entry]) paths) as (out & E & Hs & HI & HN).
    { intros p Hin. split; [repeat constructor; intros []|]. split; [now apply null_tidy, Hp|].
      intros e e' b f f' [[<-|[]] _] _ C. discriminate. }
    assert (NO : NoDup out).
    { apply HN. intros p q e e' _ _ [<-|[]] [<-|[]] C. now apply null_inj. }
    assert (Ho : forall b, In b out <-> exists p, In p days /\ b = p ++ $"/null.jsonl").
    { intros b. rewrite HI. split.
      - intros (p & e & Hin & Hse & ->). apply null_served in Hse; [|now apply Hp]. subst e. exists p. split; [now apply Hdays|reflexivity].
      - intros (p & Hin & ->). apply Hdays in Hin. exists p, an_entry. split; [exact Hin|].
        split; [apply null_served; [now apply Hp|reflexivity]|reflexivity]. }
    exists out.
    set (recs := blob_records parse unzstd other (null_blob_bytes dump data) pass_thru pass_thru_filter None).
    assert (One : Forall one_line (map dump data) /\ Forall (fun l => l <> []) (map dump data)).
    { split; apply Forall_forall; intros l Hl; apply in_map_iff in Hl as (r & <- & Hin); [|apply Hd].
      apply Hj. now apply Hr. }
    assert (SL : splitlines (join [LF] (map dump data)) = map dump data).
    { destruct data as [|r data']; [reflexivity|]. unfold splitlines.
      rewrite splitlines_join by (solve [apply One|discriminate]). reflexivity. }
    assert (MG : map_gen parse (map dump data) None = (data, None)).
    { clear -Hj Hr. induction data as [|r data IH]; [reflexivity|]. cbn [map map_gen].
      destruct (Hj r) as [-> _]; [now apply Hr; left|]. rewrite IH by (intros; apply Hr; now right). reflexivity. }
    assert (RB : forall b, In b out -> recs b = data).
    { intros b Hb. apply Ho in Hb as (p & Hin & ->). apply Hdays, Hp in Hin.
      unfold recs, blob_records. rewrite (extension_of_file _ _ (null_file p Hin)).
      replace (dget str_eqb $".jsonl" KNOWN_EXTENSIONS) with (Some DATA) by (vm_compute; reflexivity).
      unfold null_blob_bytes at 1.
      replace (decode parse unzstd other $".jsonl" (join [LF] (map dump data))) with
        (Some (map_gen parse (splitlines (join [LF] (map dump data))) None)) by (vm_compute; reflexivity).
      rewrite SL, MG, pass_all. cbn [fst]. apply filter_true. intros r Hin2. now apply Hr. }
    assert (Rd : filter is_readable out = out).
    { apply filter_true. intros b Hb. apply Ho in Hb as (p & Hin & ->). unfold is_readable.
      apply Hdays, Hp in Hin. rewrite (last_extension_eq _ _ (null_file p Hin)). reflexivity. }
    assert (FR : full_read recs out (flat_map recs out)).
    { exists out. split; [|reflexivity]. split; [now apply strictly_sorted|]. reflexivity. }
    assert (L : length out = length days).
    { assert (HM : forall b, In b out <-> In b (map (fun p => p ++ $"/null.jsonl") days)).
      { intros b. rewrite Ho, in_map_iff. split; intros (p & H1 & H2); exists p; auto. }
      assert (NM : NoDup (map (fun p => p ++ $"/null.jsonl") days)).
      { apply FinFun.Injective_map_NoDup; [|exact Nd]. intros p q C. now apply null_inj. }
      rewrite <- (map_length (fun p => p ++ $"/null.jsonl") days). apply Nat.le_antisymm; apply NoDup_incl_length; auto;
        intros b Hb; now apply HM. }
    assert (FM : flat_map recs out = concat (repeat data (length days))).
    { rewrite <- L. clear -RB. induction out as [|b out IH]; [reflexivity|]. cbn [flat_map length repeat concat].
      rewrite RB by (now left). rewrite IH by (intros; apply RB; now right). reflexivity. }
    assert (ON : out <> []).
    { destruct paths as [|p paths]; [now elim Hne|]. intros C.
      assert (In (p ++ $"/null.jsonl") out) as Hin by (apply Ho; exists p; split; [apply Hdays; now left|reflexivity]).
      rewrite C in Hin. destruct Hin. }
    rewrite FM in FR. unfold read_records. rewrite no_limit by lia. cbn [bind]. rewrite Rd.
    destruct (read_once hash loads recs out) with (out := concat (repeat data (length days))) (k := n) as (c & Ec).
    - rewrite <- Rd. apply readable_not_empty.
    - exact FR.
    - exists c. split; [exact E|]. destruct out; [now elim ON|exact Ec].
  Qed.
End Null.

(** ** Schemas *)
Section Schemas.
  Context {S : Type} (loads : str -> result value) (file_at : str -> option str) (from_dict : record -> result S).
  Notation load := (schema_loader loads file_at from_dict).
  Lemma schema_given l : l <> [] ->
    load (DValue (VList l)) = (let* s := from_dict [($"columns", VList l); ($"name", VStr $"wal")] in Ok (Schema s)) /\
    load (DValue (VDict [($"columns", VList l)])) = load (DValue (VList l)) /\
    load (DValue (VDict [($"fields", VList l)])) = load (DValue (VList l)).
  Proof. intros H. destruct l; [now elim H|]. repeat split. Qed.
  Lemma schema_text text v :
    (file_at text = None /\ loads text = Ok v \/ exists content, file_at text = Some content /\ loads content = Ok v) ->
    load (DText text) = load (DValue v).
  Proof. intros [[E1 E2]|(c & E1 & E2)]; cbn [schema_loader]; now rewrite E1, E2. Qed.
  Lemma load_left d : load (DValue (VDict d)) = let* s := from_dict (left_to_caller d) in Ok (Schema s).
  Proof. reflexivity. Qed.
  Lemma ddel_other k k' (d : record) : k <> k' -> dget str_eqb k (ddel str_eqb k' d) = dget str_eqb k d.
  Proof.
    intros H. induction d as [|[j v] d IH]; [reflexivity|]. cbn [ddel dget]. destruct (str_eqb k' j) eqn:E.
    - apply str_eqb_eq in E. subst j. destruct (str_eqb k k') eqn:E2; [apply str_eqb_eq in E2; contradiction|reflexivity].
    - cbn [dget]. now rewrite IH.
  Qed.
  Lemma ddel_same k (d : record) : NoDup (map fst d) -> dget str_eqb k (ddel str_eqb k d) = None.
  Proof.
    induction d as [|[j v] d IH]; intros H; [reflexivity|]. cbn [map fst] in H. apply NoDup_cons_iff in H as [H1 H2].
    cbn [ddel]. destruct (str_eqb k j) eqn:E.
    - apply str_eqb_eq in E. subst j. apply dget_None; [now apply str_keqb|exact H1].
    - cbn [dget]. rewrite E. now apply IH.
  Qed.
  Lemma left_spec d : NoDup (map fst d) ->
    (forall k, k <> $"name" -> k <> $"columns" -> k <> $"fields" -> dget str_eqb k (left_to_caller d) = dget str_eqb k d) /\
    dget str_eqb $"name" (left_to_caller d)
    = Some (match dget str_eqb $"name" d with Some name => name | None => VStr $"wal" end) /\
    dget str_eqb $"columns" (left_to_caller d)
    = match dget str_eqb $"fields" d with
      | Some fields => if truthy fields then Some fields else dget str_eqb $"columns" d
      | None => dget str_eqb $"columns" d
      end /\
    (forall fields, dget str_eqb $"fields" (left_to_caller d) = Some fields -> truthy fields = false).
  Proof.
    intros Hd. unfold left_to_caller.
    assert (N : forall f, dget str_eqb $"name" (dset str_eqb $"columns" f (ddel str_eqb $"fields" d)) = dget str_eqb $"name" d).
    { intros f. rewrite dget_dset_other by (now apply str_keqb || discriminate). apply ddel_other. discriminate. }
    assert (K : forall (k : str) v (e : record), k <> $"name" -> dget str_eqb k (dset str_eqb $"name" v e) = dget str_eqb k e).
    { intros k v e Hk. apply dget_dset_other; [now apply str_keqb|exact Hk]. }
    split; [|split; [|split]].
    - intros k H1 H2 H3. rewrite K by exact H1.
      destruct (dget str_eqb $"fields" d) as [f|]; [|reflexivity]. destruct (truthy f); [|reflexivity].
      rewrite dget_dset_other by (auto; now apply str_keqb). now apply ddel_other.
    - rewrite dget_dset_same by (now apply str_keqb). f_equal.
      destruct (dget str_eqb $"fields" d) as [f|]; [|reflexivity]. destruct (truthy f); [|reflexivity]. now rewrite N.
    - rewrite K by discriminate. destruct (dget str_eqb $"fields" d) as [f|] eqn:E; [|reflexivity].
      destruct (truthy f); [|reflexivity]. apply dget_dset_same. now apply str_keqb.
    - intros fields. rewrite K by discriminate. destruct (dget str_eqb $"fields" d) as [f|] eqn:E; [|congruence].
      destruct (truthy f) eqn:T.
      + rewrite dget_dset_other by (now apply str_keqb || discriminate). rewrite ddel_same by exact Hd. discriminate.
      + rewrite E. congruence.
  Qed.
  Lemma dset_again (k : str) v (d : record) : dget str_eqb k d = Some v -> dset str_eqb k v d = d.
  Proof.
    induction d as [|[j w] d IH]; [discriminate|]. cbn [dget dset]. destruct (str_eqb k j); [congruence|].
    intros H. now rewrite IH.
  Qed.
  Lemma left_again d : NoDup (map fst d) -> left_to_caller (left_to_caller d) = left_to_caller d.
  Proof.
    intros Hd. destruct (left_spec d Hd) as (_ & Hn & _ & Hf). unfold left_to_caller at 1.
    destruct (dget str_eqb $"fields" (left_to_caller d)) as [f|].
    - rewrite (Hf f eq_refl), Hn. now apply dset_again.
    - rewrite Hn. now apply dset_again.
  Qed.
End Schemas.

Lemma no_schema : forall (S : Type) (loads : str -> result value) (file_at : str -> option str) (from_dict : record -> result S) (def : definition S),
    (schema_loader loads file_at from_dict def = Ok NoSchema <-> def = DFalse) /\
    (def = DNone -> schema_loader loads file_at from_dict def = Raise ValueError).
Proof.
  intros S loads file_at from_dict def. split; [|intros ->; reflexivity].
  assert (L : forall v, load_value from_dict v <> Ok NoSchema).
  { intros v. unfold load_value. destruct v; cbn; try discriminate; destruct (from_dict _); discriminate. }
  split; [|intros ->; reflexivity]. destruct def as [| | |s|t|v]; cbn; try discriminate; auto.
  - destruct (loads _) as [v|e]; cbn; [|discriminate]. intros H. now contradiction (L v).
  - intros H. now contradiction (L v).
Qed.
