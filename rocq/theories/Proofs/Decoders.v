(** Lemmas about the CSV, ZIP, LZMA and XML decoders. *)
From Verif.Base Require Import Py PyFacts Value ValueFacts.
From Verif.Model Require Import Storage Reader Decoders.
From Verif.Spec Require Import Reader Decoders Xml.
From Verif.Proofs Require Import Reader RoundTrip.

(** ** CSV *)
Lemma is_break_spec c : is_break c = true <-> breaks_line c.
Proof.
  unfold is_break, breaks_line, breaks. rewrite existsb_exists. cbn [In]. split.
  - intros (x & Hx & E). apply Ascii.eqb_eq in E. subst x. tauto.
  - intros H. exists c. split; [tauto|apply Ascii.eqb_refl].
Qed.
Lemma is_break_false c : is_break c = false <-> ~ breaks_line c.
Proof. rewrite <- is_break_spec. destruct (is_break c); intuition congruence. Qed.
Lemma unbroken_cons c s : unbroken (c :: s) = if is_break c then unbroken s else c :: unbroken s.
Proof.
  unfold unbroken. cbn [filter]. destruct (in_dec ascii_dec c breaks) as [H|H].
  - apply is_break_spec in H. now rewrite H.
  - apply is_break_false in H. now rewrite H.
Qed.
Lemma unbroken_id s : no_breaks s -> unbroken s = s.
Proof.
  unfold no_breaks. induction 1 as [|c s H _ IH]; [reflexivity|]. rewrite unbroken_cons.
  apply is_break_false in H. now rewrite H, IH.
Qed.

(** the records of a text, character by character; [p]: the line has begun *)
Definition end_line (s : csv_state) (k : csv_state -> list (list str)) : list (list str) :=
  match csv_eol s with
  | (StartRecord, _, fields) => fields :: k (StartRecord, [], [])
  | s' => k s'
  end.
Fixpoint rows_of (s : csv_state) (p : bool) (text : str) : list (list str) :=
  match text with
  | [] => if p then end_line s (fun s => csv_rows s []) else csv_rows s []
  | c :: rest =>
      if is_break c then
        end_line s (fun s' =>
          match rest with
          | d :: rest' => if Ascii.eqb c CR && Ascii.eqb d LF then rows_of s' false rest' else rows_of s' false rest
          | [] => rows_of s' false rest
          end)
      else rows_of (csv_char s c) true rest
  end.

Lemma end_line_ext s k k' : (forall x, k x = k' x) -> end_line s k = end_line s k'.
Proof.
  intros H. unfold end_line. destruct (csv_eol s) as [[m f] fs]. destruct m; rewrite ?H; reflexivity.
Qed.
Lemma rows_line s line lines :
  csv_rows s (line :: lines) = end_line (fold_left csv_char line s) (fun s' => csv_rows s' lines).
Proof. cbn [csv_rows]. unfold end_line. now destruct (csv_eol _) as [[[] f] fs]. Qed.

Lemma rows_of_lines n : forall text line s, length text <= n ->
  csv_rows s (str_splitlines_from line text)
  = rows_of (fold_left csv_char line s) (match line with [] => false | _ => true end) text.
Proof.
  induction n as [|n IH]; intros text line s Hn.
  - destruct text; [|cbn in Hn; lia]. destruct line as [|c line]; [reflexivity|apply rows_line].
  - destruct text as [|c rest]; [destruct line as [|c line]; [reflexivity|apply rows_line]|]. cbn [length] in Hn.
    cbn [str_splitlines_from rows_of]. destruct (is_break c) eqn:B.
    + rewrite rows_line. apply end_line_ext. intros s'. destruct rest as [|d rest'].
      * now rewrite (IH [] [] s') by (cbn; lia).
      * cbn [length] in Hn. destruct (Ascii.eqb c CR && Ascii.eqb d LF).
        -- now rewrite (IH rest' [] s') by lia.
        -- rewrite (IH (d :: rest') [] s') by (cbn [length]; lia). reflexivity.
    + rewrite (IH rest (line ++ [c]) s) by lia. rewrite fold_left_app. cbn [fold_left].
      destruct line; reflexivity.
Qed.

(** in quotes *)
Lemma rows_quoted n : forall g f fs p rest, length g <= n ->
  rows_of (InQuoted, f, fs) p (doubled g ++ QUOTE :: rest)
  = rows_of (QuoteInQuoted, f ++ unbroken g, fs) true rest.
Proof.
  induction n as [|n IH]; intros g f fs p rest Hn.
  - destruct g; [|cbn in Hn; lia]. cbn [doubled app unbroken filter]. rewrite app_nil_r. reflexivity.
  - destruct g as [|c g]; [cbn [doubled app unbroken filter]; rewrite app_nil_r; reflexivity|].
    cbn [length] in Hn. cbn [doubled]. rewrite unbroken_cons. destruct (ascii_dec c """"%char) as [->|Hq].
    + change (is_break """"%char) with false. cbn iota. cbn [app].
      change (rows_of (InQuoted, f, fs) p (""""%char :: """"%char :: doubled g ++ QUOTE :: rest))
        with (rows_of (InQuoted, f ++ [""""%char], fs) true (doubled g ++ QUOTE :: rest)).
      rewrite IH by lia. now rewrite <- app_assoc.
    + cbn [app rows_of]. destruct (is_break c) eqn:B.
      * unfold end_line. cbn [csv_eol].
        assert (G : rows_of (InQuoted, f, fs) false (doubled g ++ QUOTE :: rest)
                    = rows_of (QuoteInQuoted, f ++ unbroken g, fs) true rest) by (apply IH; lia).
        destruct g as [|d g].
        -- cbn [doubled app]. cbn [doubled app] in G. rewrite G.
           change (Ascii.eqb QUOTE LF) with false. now rewrite andb_false_r.
        -- cbn [length] in Hn. destruct (ascii_dec d """"%char) as [->|Hd].
           ++ rewrite <- G. cbn [doubled]. destruct (ascii_dec """"%char """"%char) as [_|C]; [|now elim C].
              cbn [app]. change (Ascii.eqb """"%char LF) with false. now rewrite andb_false_r.
           ++ rewrite <- G. cbn [doubled]. destruct (ascii_dec d """"%char) as [C|_]; [contradiction|].
              cbn [app]. destruct (Ascii.eqb c CR && Ascii.eqb d LF) eqn:E; [|reflexivity].
              apply andb_prop in E as [_ E]. apply Ascii.eqb_eq in E. subst d.
              assert (BL : is_break LF = true) by reflexivity.
              rewrite (IH g f fs false rest) by lia.
              transitivity (rows_of (QuoteInQuoted, f ++ unbroken (LF :: g), fs) true rest).
              ** now rewrite unbroken_cons, BL.
              ** rewrite <- (IH (LF :: g) f fs false rest) by (cbn [length]; lia).
                 cbn [doubled]. destruct (ascii_dec LF """"%char) as [C|_]; [discriminate|]. reflexivity.
      * assert (Q : Ascii.eqb c QUOTE = false) by (apply Ascii.eqb_neq; exact Hq).
        cbn [csv_char]. rewrite Q. rewrite IH by lia. now rewrite <- app_assoc.
Qed.

Definition ordinary (c : ascii) : Prop := c <> ","%char /\ c <> """"%char /\ ~ breaks_line c.
Lemma ordinary_char m f fs c : ordinary c -> m = StartRecord \/ m = StartField \/ m = InField ->
  csv_char (m, f, fs) c = (InField, f ++ [c], fs) /\ is_break c = false.
Proof.
  intros (H1 & H2 & H3) Hm. split; [|now apply is_break_false].
  assert (E1 : Ascii.eqb c COMMA = false) by (now apply Ascii.eqb_neq).
  assert (E2 : Ascii.eqb c QUOTE = false) by (now apply Ascii.eqb_neq).
  destruct Hm as [->|[->| ->]]; cbn [csv_char]; now rewrite ?E1, ?E2.
Qed.
Lemma rows_plain g : forall m f fs p rest, Forall ordinary g -> g <> [] ->
  m = StartRecord \/ m = StartField \/ m = InField ->
  rows_of (m, f, fs) p (g ++ rest) = rows_of (InField, f ++ g, fs) true rest.
Proof.
  induction g as [|c g IH]; intros m f fs p rest Hg Hn Hm; [now elim Hn|].
  apply Forall_cons_iff in Hg as [Hc Hg]. cbn [app rows_of].
  destruct (ordinary_char m f fs c Hc Hm) as [-> ->]. destruct g as [|d g].
  - reflexivity.
  - rewrite IH by (auto; discriminate). now rewrite <- app_assoc.
Qed.

(** a field which has been read, before its comma or the end of the line *)
Definition read_field (f : str) (fs : list str) (s : csv_state) : Prop :=
  csv_char s COMMA = (StartField, [], fs ++ [f]).
Lemma rows_field f text m fs p rest : csv_field f text -> m = StartRecord \/ m = StartField ->
  exists s, rows_of (m, [], fs) p (text ++ rest) = rows_of s (p || negb (str_eqb text [])) rest /\
            csv_char s COMMA = (StartField, [], fs ++ [unbroken f]) /\
            (m = StartField \/ text <> [] -> csv_eol s = (StartRecord, [], fs ++ [unbroken f])).
Proof.
  intros H Hm. destruct H as [f H|f].
  - rewrite unbroken_id by (eapply Forall_impl; [|exact H]; cbn; tauto).
    destruct f as [|c f].
    + exists (m, [], fs). cbn [app str_eqb negb]. rewrite orb_false_r. repeat split.
      * destruct Hm as [->| ->]; reflexivity.
      * intros [->|C]; [reflexivity|now elim C].
    + exists (InField, c :: f, fs). split; [|now split].
      rewrite (rows_plain (c :: f)) by (solve [assumption|discriminate|tauto]).
      cbn [str_eqb negb]. now rewrite orb_true_r.
  - exists (QuoteInQuoted, unbroken f, fs). split; [|now split].
    cbn [app]. cbn [rows_of]. change (is_break """"%char) with false. cbn iota.
    replace (csv_char (m, [], fs) """"%char) with (InQuoted, @nil ascii, fs) by (destruct Hm as [->| ->]; reflexivity).
    rewrite <- app_assoc. cbn [app]. rewrite (rows_quoted (length f)) by lia. cbn [app].
    cbn [str_eqb negb]. now rewrite orb_true_r.
Qed.
Lemma rows_fields fields texts : Forall2 csv_field fields texts -> forall m fs p rest,
  (m = StartRecord /\ p = false /\ join $"," texts <> [] \/ m = StartField /\ p = true) -> fields <> [] ->
  exists s, rows_of (m, [], fs) p (join $"," texts ++ rest) = rows_of s true rest /\
            csv_eol s = (StartRecord, [], fs ++ map unbroken fields).
Proof.
  induction 1 as [|f t fields texts H HF IH]; intros m fs p rest Hm Hn; [now elim Hn|].
  destruct HF as [|f' t' fields texts H' HF].
  - cbn [join]. cbn [join] in Hm.
    destruct (rows_field f t m fs p rest H) as (s & E1 & _ & E2); [tauto|].
    exists s. cbn [map]. split.
    + rewrite E1. f_equal. destruct Hm as [(-> & -> & Ht)|(-> & ->)]; [|reflexivity].
      destruct t; [now elim Ht|reflexivity].
    + apply E2. tauto.
  - change (join $"," (t :: t' :: texts)) with (t ++ $"," ++ join $"," (t' :: texts)).
    rewrite <- !app_assoc.
    destruct (rows_field f t m fs p ($"," ++ join $"," (t' :: texts) ++ rest) H) as (s & E1 & E2 & _); [tauto|].
    rewrite E1. change ($"," ++ join $"," (t' :: texts) ++ rest) with (COMMA :: join $"," (t' :: texts) ++ rest).
    cbn [rows_of]. change (is_break COMMA) with false. cbn iota. rewrite E2.
    destruct (IH StartField (fs ++ [unbroken f]) true rest) as (s' & E3 & E4); [now right|discriminate|].
    exists s'. split; [exact E3|]. rewrite E4. cbn [map]. now rewrite <- app_assoc.
Qed.

Lemma csv_line_fields fields line : csv_line fields line -> fields <> [].
Proof. intros (texts & H & -> & Hn). destruct H; [now elim Hn|discriminate]. Qed.
Lemma rows_file rows text : csv_file rows text ->
  rows_of (StartRecord, [], []) false text = map (map unbroken) rows.
Proof.
  induction 1 as [|fields line H|fields line e rows text H He HF IH].
  - reflexivity.
  - pose proof (csv_line_fields _ _ H) as Hn. destruct H as (texts & HF & -> & Hne).
    destruct (rows_fields fields texts HF StartRecord [] false [] ltac:(left; auto) Hn) as (s & E1 & E2).
    rewrite app_nil_r in E1. rewrite E1. cbn [rows_of]. unfold end_line. rewrite E2. reflexivity.
  - pose proof (csv_line_fields _ _ H) as Hn. destruct H as (texts & HF2 & -> & Hne).
    destruct (rows_fields fields texts HF2 StartRecord [] false (e ++ text) ltac:(left; auto) Hn) as (s & E1 & E2).
    rewrite E1. cbn [map]. rewrite <- IH. destruct He as [->| ->]; cbn [app rows_of].
    + change (is_break "010"%char) with true. cbn iota. unfold end_line. rewrite E2. cbn [app].
      f_equal. destruct text; reflexivity.
    + change (is_break "013"%char) with true. cbn iota. unfold end_line. rewrite E2. reflexivity.
Qed.
Lemma csv_reader_file rows text : csv_file rows text ->
  csv_reader (str_splitlines text) = map (map unbroken) rows.
Proof.
  intros H. unfold csv_reader, str_splitlines. rewrite (rows_of_lines (length text)) by lia. now apply rows_file.
Qed.

Lemma fold_values (kvs : list (str * str)) : forall d : record,
  NoDup (map fst d ++ map fst kvs) ->
  fold_left (fun d kv => dset str_eqb (fst kv) (VStr (snd kv)) d) kvs d
  = d ++ map (fun kv => (fst kv, VStr (snd kv))) kvs.
Proof.
  induction kvs as [|[k v] kvs IH]; intros d H; cbn [fold_left map fst snd]; [now rewrite app_nil_r|].
  cbn [map fst] in H. rewrite dset_notin; [|now apply str_keqb|].
  - rewrite IH; [now rewrite <- app_assoc|]. rewrite map_app, <- app_assoc. exact H.
  - apply NoDup_remove in H as [_ H]. intros C. apply H, in_or_app. now left.
Qed.
Lemma fold_nulls (ks : list str) : forall d : record,
  NoDup (map fst d ++ ks) ->
  fold_left (fun d k => dset str_eqb k VNull d) ks d = d ++ map (fun k => (k, VNull)) ks.
Proof.
  induction ks as [|k ks IH]; intros d H; cbn [fold_left map]; [now rewrite app_nil_r|].
  rewrite dset_notin; [|now apply str_keqb|].
  - rewrite IH; [now rewrite <- app_assoc|]. rewrite map_app, <- app_assoc. exact H.
  - apply NoDup_remove in H as [_ H]. intros C. apply H, in_or_app. now left.
Qed.
Lemma header_split (names : list str) : forall row n, length names <= n ->
  combine names (map VStr row ++ repeat VNull n)
  = map (fun kv => (fst kv, VStr (snd kv))) (combine names row)
    ++ map (fun k => (k, VNull)) (skipn (length row) names).
Proof.
  induction names as [|k names IH]; intros row n Hn; [now destruct row|].
  destruct row as [|v row].
  - destruct n as [|n]; cbn in Hn; [lia|]. cbn [map app repeat combine length skipn]. f_equal.
    specialize (IH [] n ltac:(lia)). cbn [map app] in IH. rewrite IH. cbn [length skipn]. now destruct names.
  - cbn [map app combine length skipn fst snd]. f_equal. apply IH. cbn in Hn; lia.
Qed.
Lemma map_fst_combine {A B} (l : list A) : forall l' : list B, map fst (combine l l') = firstn (length l') l.
Proof. induction l as [|x l IH]; intros [|y l']; cbn; f_equal; auto. Qed.
Lemma NoDup_first {A} (l : list A) : forall n, NoDup l -> NoDup (firstn n l).
Proof.
  induction l as [|x l IH]; intros [|n] H; cbn [firstn]; try constructor; apply NoDup_cons_iff in H as [H1 H2].
  - intros C. apply H1. rewrite <- (firstn_skipn n l). apply in_or_app. now left.
  - now apply IH.
Qed.
Lemma csv_record_under names row : NoDup names ->
  csv_record names row = (under_header names row, skipn (length names) row).
Proof.
  intros H. unfold csv_record, under_header. f_equal.
  rewrite header_split by lia. rewrite fold_values.
  - apply fold_nulls. cbn [app]. rewrite map_map. cbn [fst].
    change (map (fun x : str * str => fst x) (combine names row)) with (map fst (combine names row)).
    rewrite map_fst_combine, firstn_skipn. exact H.
  - cbn [map app]. rewrite map_fst_combine. now apply NoDup_first.
Qed.

Lemma csv_file_rows rows text : csv_file rows text -> Forall (fun row => row <> []) rows.
Proof. induction 1; constructor; eauto using csv_line_fields. Qed.
Lemma keep_rows (rows : list (list str)) : Forall (fun row => row <> []) rows ->
  filter (fun row : list str => match row with [] => false | _ => true end) (map (map unbroken) rows) = map (map unbroken) rows.
Proof. induction 1 as [|r rows H _ IH]; [reflexivity|]. cbn [map filter]. rewrite IH. destruct r; [now elim H|reflexivity]. Qed.
Lemma csv_spec names rows text : csv_file (names :: rows) text -> NoDup (map unbroken names) ->
  csv text = map (fun row => (under_header (map unbroken names) (map unbroken row),
                              map unbroken (skipn (length names) row))) rows.
Proof.
  intros H Hn. unfold csv, csv_records. rewrite (csv_reader_file _ _ H). cbn [map].
  apply csv_file_rows in H. apply Forall_cons_iff in H as [_ H].
  rewrite keep_rows by exact H. rewrite map_map. apply map_ext. intros row.
  rewrite csv_record_under by exact Hn. f_equal. rewrite map_length. apply skipn_map.
Qed.
Lemma map_unbroken row : Forall no_breaks row -> map unbroken row = row.
Proof. induction 1 as [|x row H _ IH]; [reflexivity|]. cbn [map]. now rewrite unbroken_id, IH. Qed.

(** ** Archives *)
Lemma member_extension_eq name ext : member_extension name ext -> last_extension name = ext.
Proof.
  intros (e & -> & He & [->|(stem & ->)]); unfold last_extension.
  - now rewrite split_single.
  - rewrite split_last_of by exact He. now rewrite last_last.
Qed.
Lemma known_dget ext : dget str_eqb ext KNOWN_EXTENSIONS = None <-> ~ known_extension ext.
Proof. exact (dget_None str_eqb str_keqb ext KNOWN_EXTENSIONS). Qed.

Section Archives.
  Context (parse_json : str -> result value) (unzstd : str -> result str)
          (unlzma : str -> str * option exn) (zip_members : str -> result (list (str * result str)))
          (XML : option (str -> result element)) (parquet : str -> generator value).
  Definition other := other_decoder parse_json unzstd unlzma zip_members XML parquet.
  Definition decoded (n : nat) := decode parse_json unzstd (other n).
  Definition leaf (ext data : str) (vs : list value) : Prop := decoded 0 ext data = Some (vs, None).

  Lemma decoded_depth n m ext data : ext <> $".zip" -> decoded n ext data = decoded m ext data.
  Proof.
    intros H. unfold decoded, decode. destruct (dget str_eqb ext KNOWN_EXTENSIONS) as [[]|]; try reflexivity.
    assert (E : other n ext data = other m ext data); [|now rewrite E].
    assert (Z : str_eqb ext $".zip" = false) by (destruct (str_eqb ext $".zip") eqn:C; [apply str_eqb_eq in C; contradiction|reflexivity]).
    unfold other. destruct n, m; cbn [other_decoder]; rewrite Z; reflexivity.
  Qed.
  Lemma decoded_zip n data :
    decoded n $".zip" data =
    Some (match n with
          | O => ([], Some RuntimeError)
          | S n => match zip_members data with
                   | Raise e => ([], Some e)
                   | Ok members => unzip (decoded n) members
                   end
          end).
  Proof. unfold decoded, decode. destruct n; reflexivity. Qed.

  Lemma unzip_app member ms1 ms2 vs : unzip member ms1 = (vs, None) ->
    unzip member (ms1 ++ ms2) = let '(ws, e) := unzip member ms2 in (vs ++ ws, e).
  Proof.
    revert vs. induction ms1 as [|[name f] ms1 IH]; intros vs H.
    - injection H as <-. cbn. now destruct (unzip member ms2).
    - cbn [app unzip] in *. destruct f as [f|e]; [|discriminate].
      destruct (member (last_extension name) f) as [[us [e|]]|]; [discriminate| |now apply IH].
      destruct (unzip member ms1) as [ws e] eqn:E. injection H as <- ->. rewrite (IH ws) by reflexivity.
      destruct (unzip member ms2). now rewrite app_assoc.
  Qed.

  Scheme holds_ind2 := Minimality for file_holds Sort Prop
    with all_hold_ind2 := Minimality for members_hold Sort Prop.
  Combined Scheme holds_mut from holds_ind2, all_hold_ind2.

  Lemma holds_both :
    (forall n ext data vs, file_holds leaf zip_members known_extension n ext data vs -> decoded n ext data = Some (vs, None)) /\
    (forall n members vs, members_hold leaf zip_members known_extension n members vs -> unzip (decoded n) members = (vs, None)).
  Proof.
    apply holds_mut.
    - intros n ext data vs H L. rewrite (decoded_depth n 0) by exact H. exact L.
    - intros n data members vs H _ IH. rewrite decoded_zip, H. now rewrite IH.
    - reflexivity.
    - intros n name ext file vs members ws He Hk _ IH _ IHm. cbn [unzip].
      rewrite (member_extension_eq _ _ He), IH, IHm. reflexivity.
    - intros n name ext file members ws He Hk _ IHm. cbn [unzip].
      rewrite (member_extension_eq _ _ He). unfold decoded at 1, decode.
      apply known_dget in Hk. rewrite Hk. exact IHm.
  Qed.
  Lemma archive_reads n data vs : file_holds leaf zip_members known_extension n $".zip" data vs ->
    decoded n $".zip" data = Some (vs, None).
  Proof. apply holds_both. Qed.
  Lemma archive_damage n data ms1 vs name ext file ws e ms2 :
    zip_members data = Ok (ms1 ++ (name, file) :: ms2) -> members_hold leaf zip_members known_extension n ms1 vs ->
    member_extension name ext ->
    (file = Raise e /\ ws = [] \/ exists d, file = Ok d /\ decoded n ext d = Some (ws, Some e)) ->
    decoded (S n) $".zip" data = Some (vs ++ ws, Some e).
  Proof.
    intros Hz Ha He Hf. rewrite decoded_zip, Hz. apply holds_both in Ha. rewrite (unzip_app _ _ _ _ Ha).
    cbn [unzip]. destruct Hf as [(-> & ->)|(d & -> & Hd)].
    - reflexivity.
    - rewrite (member_extension_eq _ _ He), Hd. reflexivity.
  Qed.
  Lemma archive_of_itself n data name :
    zip_members data = Ok [(name, Ok data)] -> member_extension name $".zip" ->
    decoded n $".zip" data = Some ([], Some RuntimeError).
  Proof.
    intros Hz He. induction n as [|n IH]; rewrite decoded_zip; [reflexivity|].
    rewrite Hz. cbn [unzip]. rewrite (member_extension_eq _ _ He), IH. reflexivity.
  Qed.
End Archives.

(** a blob read without selection or filter *)
Lemma blob_decoded parse unzstd other read_blob ext name data rs fin :
  file_with_extension ext name -> read_blob name = Ok data ->
  decode parse unzstd other ext data = Some (rs, fin) ->
  blob_records parse unzstd other read_blob pass_thru pass_thru_filter None name = filter truthy rs.
Proof.
  intros Hx Hr Hd. unfold blob_records. rewrite (extension_of_file _ _ Hx), Hr, Hd.
  assert (K : dget str_eqb ext KNOWN_EXTENSIONS <> None).
  { intros C. unfold decode in Hd. rewrite C in Hd. discriminate. }
  destruct (dget str_eqb ext KNOWN_EXTENSIONS); [|congruence]. now rewrite pass_all.
Qed.

(** ** XML *)
Definition element_ind2 (P : element -> Prop)
  (H : forall tag attrib text children, Forall P children -> P (Element tag attrib text children)) : forall t, P t :=
  fix go t := let 'Element tag attrib text children := t in
    H tag attrib text children
      ((fix all (l : list element) : Forall P l :=
          match l with [] => Forall_nil P | c :: l' => Forall_cons c (go c) (all l') end) children).

Definition values_at (k : str) (dd : list (str * list value)) : list value :=
  match dget str_eqb k dd with Some vs => vs | None => [] end.
Definition full (dd : list (str * list value)) : Prop := forall k, dget str_eqb k dd <> Some [].
Lemma append_full dd kv : full dd -> full (append_to dd kv).
Proof.
  intros H k. unfold append_to. destruct (str_eq_dec k (fst kv)) as [->|E].
  - rewrite dget_dset_same by (now apply str_keqb). destruct (dget str_eqb (fst kv) dd) as [[|]|]; discriminate.
  - rewrite dget_dset_other by (auto; now apply str_keqb). apply H.
Qed.
Lemma append_values dd kv k :
  values_at k (append_to dd kv) = values_at k dd ++ (if str_eq_dec (fst kv) k then [snd kv] else []).
Proof.
  unfold values_at, append_to. destruct (str_eq_dec (fst kv) k) as [<-|E].
  - rewrite dget_dset_same by (now apply str_keqb). now destruct (dget str_eqb (fst kv) dd).
  - rewrite dget_dset_other by (auto; now apply str_keqb). now rewrite app_nil_r.
Qed.
Lemma grouped_values kvs : forall dd k, full dd ->
  full (fold_left append_to kvs dd) /\
  values_at k (fold_left append_to kvs dd)
  = values_at k dd ++ map snd (filter (fun kv => if str_eq_dec (fst kv) k then true else false) kvs).
Proof.
  induction kvs as [|kv kvs IH]; intros dd k Hf; cbn [fold_left filter map].
  - rewrite app_nil_r. auto.
  - destruct (IH (append_to dd kv) k (append_full _ _ Hf)) as [G1 G2]. split; [exact G1|].
    rewrite G2, append_values. destruct (str_eq_dec (fst kv) k); cbn [map]; now rewrite <- app_assoc.
Qed.
Lemma dget_map_snd {A B} (f : A -> B) k (d : list (str * A)) :
  dget str_eqb k (map (fun kv => (fst kv, f (snd kv))) d) = option_map f (dget str_eqb k d).
Proof. induction d as [|[k' v] d IH]; [reflexivity|]. cbn [map dget fst snd]. destruct (str_eqb k k'); auto. Qed.
Definition grouped (children : list element) : list (str * value) :=
  map (fun kv : str * list value => (fst kv, one_or_all (snd kv)))
      (fold_left append_to (map (fun c => (tag_of c, etree_value c)) children) []).
Lemma grouped_named k children :
  dget str_eqb k (grouped children) = one_or_list (map etree_value (children_named k children)).
Proof.
  unfold grouped. rewrite (dget_map_snd one_or_all).
  destruct (grouped_values (map (fun c => (tag_of c, etree_value c)) children) [] k) as [Hf Hv].
  { intros j. discriminate. }
  assert (E : map snd (filter (fun kv : str * value => if str_eq_dec (fst kv) k then true else false)
                (map (fun c => (tag_of c, etree_value c)) children)) = map etree_value (children_named k children)).
  { clear. unfold children_named. induction children as [|c cs IH]; [reflexivity|]. cbn [map filter fst].
    destruct (str_eq_dec (tag_of c) k), (list_eq_dec ascii_dec (tag_of c) k); try contradiction; cbn [map snd];
      now rewrite ?IH. }
  rewrite E in Hv. clear E. cbn [app] in Hv. unfold values_at at 1 in Hv. specialize (Hf k).
  change (values_at k [] ++ map etree_value (children_named k children)) with (map etree_value (children_named k children)) in Hv.
  destruct (dget str_eqb k _) as [vs|].
  - rewrite <- Hv. destruct vs as [|v [|]]; [congruence|reflexivity|reflexivity].
  - now rewrite <- Hv.
Qed.

Definition with_attributes (attrib : list (str * str)) (d : list (str * value)) : list (str * value) :=
  fold_left (fun d (kv : str * str) => dset str_eqb ("@"%char :: fst kv) (VStr (snd kv)) d) attrib d.
Lemma attributes_other k attrib : forall d, (forall s, k <> "@"%char :: s) ->
  dget str_eqb k (with_attributes attrib d) = dget str_eqb k d.
Proof.
  induction attrib as [|[a v] attrib IH]; intros d H; [reflexivity|]. unfold with_attributes. cbn [fold_left].
  fold (with_attributes attrib (dset str_eqb ("@"%char :: fst (a, v)) (VStr (snd (a, v))) d)). rewrite IH by exact H.
  apply dget_dset_other; [now apply str_keqb|apply H].
Qed.
Lemma attributes_at k attrib : forall d, NoDup (map fst attrib) ->
  dget str_eqb ("@"%char :: k) (with_attributes attrib d)
  = match dget str_eqb k attrib with Some v => Some (VStr v) | None => dget str_eqb ("@"%char :: k) d end.
Proof.
  induction attrib as [|[a v] attrib IH]; intros d H; [reflexivity|]. cbn [map fst] in H. apply NoDup_cons_iff in H as [Ha H].
  unfold with_attributes. cbn [fold_left dget fst snd].
  fold (with_attributes attrib (dset str_eqb ("@"%char :: a) (VStr v) d)). rewrite IH by exact H.
  destruct (str_eqb k a) eqn:E.
  - apply str_eqb_eq in E. subst a.
    replace (dget str_eqb k attrib) with (@None str) by (symmetry; apply dget_None; [now apply str_keqb|exact Ha]).
    apply dget_dset_same. now apply str_keqb.
  - destruct (dget str_eqb k attrib); [reflexivity|]. apply dget_dset_other; [now apply str_keqb|].
    intros C. injection C as ->. rewrite str_eqb_refl in E. discriminate.
Qed.

Lemma xml_leaf tag text :
  etree_value (Element tag [] text []) = match text with None | Some [] => VNull | Some s => VStr (strip s) end.
Proof. cbn [etree_value map fold_left]. destruct text as [[|]|]; reflexivity. Qed.
Lemma etree_shape tag attrib text children : ~ (attrib = [] /\ children = []) ->
  etree_value (Element tag attrib text children)
  = VDict (let d := with_attributes attrib (grouped children) in
           match text_value text with Some v => dset str_eqb $"#text" v d | None => d end).
Proof.
  intros H. cbn [etree_value]. fold (grouped children). fold (with_attributes attrib (grouped children)). cbv zeta.
  replace (match children, attrib with [], [] => true | _, _ => false end) with false
    by (destruct children, attrib; try reflexivity; now elim H).
  destruct text as [[|c s]|]; [reflexivity| |reflexivity]. unfold text_value.
  destruct (strip (c :: s)); reflexivity.
Qed.
Lemma xml_element tag attrib text children :
  ~ (attrib = [] /\ children = []) -> NoDup (map fst attrib) -> Forall (fun c => element_name (tag_of c)) children ->
  exists d, etree_value (Element tag attrib text children) = VDict d /\
    (forall k, element_name k -> dget str_eqb k d = one_or_list (map etree_value (children_named k children))) /\
    (forall k, dget str_eqb ("@"%char :: k) d = option_map VStr (dget str_eqb k attrib)) /\
    dget str_eqb $"#text" d = text_value text.
Proof.
  intros Hne Ha Hc. rewrite etree_shape by exact Hne. eexists. split; [reflexivity|]. cbv zeta.
  assert (X : forall k, ~ element_name k -> dget str_eqb k (grouped children) = None).
  { intros k Hk. rewrite grouped_named. replace (children_named k children) with (@nil element); [reflexivity|].
    symmetry. unfold children_named. clear Hne Ha. induction Hc as [|c cs Hc' _ IH]; [reflexivity|]. cbn [filter].
    rewrite IH. destruct (list_eq_dec ascii_dec (tag_of c) k); [subst; contradiction|reflexivity]. }
  assert (D : forall k v d, k <> $"#text" ->
    dget str_eqb k (match v with Some v => dset str_eqb $"#text" v d | None => d end) = dget str_eqb k (d : record)).
  { intros k [v|] d Hk; [|reflexivity]. apply dget_dset_other; [now apply str_keqb|exact Hk]. }
  split; [|split].
  - intros k Hk. rewrite D; [|intros ->; eapply (proj2 Hk); reflexivity].
    rewrite attributes_other by apply Hk. apply grouped_named.
  - intros k. rewrite D by discriminate. rewrite attributes_at by exact Ha.
    destruct (dget str_eqb k attrib); [reflexivity|]. apply X. intros [C _]. now elim (C k).
  - destruct (text_value text) eqn:E.
    + apply dget_dset_same. now apply str_keqb.
    + rewrite attributes_other by discriminate. apply X. intros [_ C]. eapply C. reflexivity.
Qed.

(** no namespaces: nothing to strip *)
Definition clean_key (k : str) : Prop := startswith $"{" k = false /\ startswith $"@{" k = false.
Definition kept (v : value) : Prop := strip_namespace v = Ok v.
Definition kept_entries (d : list (str * value)) : Prop := Forall (fun kv => clean_key (fst kv) /\ kept (snd kv)) d.
Lemma rename_keys_clean d : Forall clean_key (dkeys d) -> rename_keys d = Ok d.
Proof.
  intros H. unfold rename_keys.
  assert (F : forall p, (forall k, clean_key k -> p k = false) -> filter p (dkeys d) = []).
  { intros p Hp. induction H as [|k ks Hk _ IH]; [reflexivity|]. cbn [filter]. now rewrite Hp, IH. }
  rewrite F by (intros k Hk; apply Hk). cbn [rename bind].
  rewrite F by (intros k Hk; apply Hk). reflexivity.
Qed.
Lemma kept_dict d : kept_entries d -> kept (VDict d).
Proof.
  intros H. unfold kept. cbn [strip_namespace].
  match goal with |- (let* _ := ?g d in _) = _ => assert (E : g d = Ok d) end.
  { induction H as [|[k v] d [_ Hv] _ IH]; [reflexivity|]. cbn [snd] in Hv. unfold kept in Hv.
    cbv beta iota. rewrite Hv. cbn [bind]. rewrite IH. reflexivity. }
  rewrite E. cbn [bind]. rewrite rename_keys_clean; [reflexivity|]. clear E.
  unfold dkeys. apply Forall_map. eapply Forall_impl; [|exact H]. now intros ? [? _].
Qed.
Lemma kept_list l : Forall kept l -> kept (VList l).
Proof.
  intros H. unfold kept. cbn [strip_namespace].
  match goal with |- (let* _ := ?g l in _) = _ => assert (E : g l = Ok l) end.
  { induction H as [|v l Hv _ IH]; [reflexivity|]. unfold kept in Hv. cbv beta iota. rewrite Hv. cbn [bind]. now rewrite IH. }
  now rewrite E.
Qed.
Lemma dset_Forall {A} (P : str * A -> Prop) k v d : P (k, v) -> Forall P d -> Forall P (dset str_eqb k v d).
Proof.
  intros Hk. induction 1 as [|[k' v'] d H Hd IH]; cbn [dset]; [now constructor|].
  destruct (str_eqb k k') eqn:E; constructor; auto. apply str_eqb_eq in E. now subst.
Qed.
Lemma grouped_kept children : Forall (fun c => clean_key (tag_of c) /\ kept (etree_value c)) children ->
  kept_entries (grouped children).
Proof.
  intros H. unfold grouped, kept_entries. apply Forall_map. cbn [fst snd].
  assert (G : Forall (fun kv => clean_key (fst kv) /\ Forall kept (snd kv))
                (fold_left append_to (map (fun c => (tag_of c, etree_value c)) children) [])).
  { assert (B : Forall (fun kv : str * list value => clean_key (fst kv) /\ Forall kept (snd kv)) []) by constructor.
    revert B. generalize (@nil (str * list value)). induction H as [|c cs [Hc Hv] _ IH]; intros dd B; [exact B|].
    cbn [map fold_left]. apply IH. unfold append_to. cbn [fst snd]. apply dset_Forall; [|exact B]. cbn [fst snd].
    split; [exact Hc|]. destruct (dget str_eqb (tag_of c) dd) as [vs|] eqn:E; [|now repeat constructor].
    apply Forall_app. split; [|now repeat constructor].
    apply dget_Some_In in E; [|now apply str_keqb]. rewrite Forall_forall in B. apply (B _ E). }
  eapply Forall_impl; [|exact G]. intros [k vs] [Hk Hv]. split; [exact Hk|]. cbn [fst snd] in *. unfold one_or_all.
  destruct vs as [|v [|w vs]].
  - now apply kept_list.
  - now apply Forall_inv in Hv.
  - now apply kept_list.
Qed.
Lemma startswith_not c k : (forall s, k <> c :: s) -> startswith [c] k = false.
Proof.
  intros H. destruct k as [|d k]; [reflexivity|]. cbn. destruct (Ascii.eqb c d) eqn:E; [|reflexivity].
  apply Ascii.eqb_eq in E. subst d. now elim (H k).
Qed.
Lemma startswith2_not c d k : (forall s, k <> c :: d :: s) -> startswith [c; d] k = false.
Proof.
  intros H. destruct k as [|a [|b k]]; [reflexivity| |]; cbn.
  - now destruct (Ascii.eqb c a).
  - destruct (Ascii.eqb c a) eqn:E; [|reflexivity]. destruct (Ascii.eqb d b) eqn:E2; [|reflexivity].
    apply Ascii.eqb_eq in E, E2. subst. now elim (H k).
Qed.
Lemma no_namespace_kept t : no_namespace t -> clean_key (tag_of t) /\ kept (etree_value t).
Proof.
  induction t as [tag attrib text children IH] using element_ind2. intros H. inversion H as [? ? ? ? H1 H2 H3 H4]; subst.
  split; [split; [now apply startswith_not|now apply startswith2_not]|].
  assert (G : kept_entries (with_attributes attrib (grouped children))).
  { assert (K : kept_entries (grouped children)).
    { apply grouped_kept. rewrite Forall_forall in *. intros c Hc. apply IH; auto. }
    revert K. generalize (grouped children). clear -H3. induction attrib as [|[k v] attrib IHa]; intros d K; [exact K|].
    unfold with_attributes. cbn [fold_left fst snd].
    apply IHa; [intros; eapply H3; right; eassumption|]. apply dset_Forall; [|exact K]. cbn [fst snd]. split; [|reflexivity].
    split; [reflexivity|]. apply startswith2_not. intros s C. injection C as ->. eapply H3; [now left|reflexivity]. }
  assert (N : forall x, kept (VStr x)) by reflexivity.
  assert (D : attrib = [] \/ attrib <> []) by (destruct attrib; [now left|right; discriminate]). destruct D as [->|Ha].
  - destruct children as [|c cs].
    + rewrite xml_leaf. destruct text as [[|]|]; reflexivity.
    + rewrite etree_shape by (intros [_ C]; discriminate). apply kept_dict. cbv zeta.
      destruct (text_value text) as [v|] eqn:E; [|exact G]. apply dset_Forall; [|exact G]. cbn [fst snd].
      split; [now split|]. unfold text_value in E. destruct text as [s|]; [|discriminate].
      destruct (strip s); [discriminate|]. injection E as <-. reflexivity.
  - rewrite etree_shape by (intros [C _]; contradiction). apply kept_dict. cbv zeta.
    destruct (text_value text) as [v|] eqn:E; [|exact G]. apply dset_Forall; [|exact G]. cbn [fst snd].
    split; [now split|]. unfold text_value in E. destruct text as [s|]; [|discriminate].
    destruct (strip s); [discriminate|]. injection E as <-. reflexivity.
Qed.
Lemma xml_plain t : no_namespace t -> strip_namespace (etree_to_dict t) = Ok (VDict [(tag_of t, etree_value t)]).
Proof.
  intros H. apply no_namespace_kept in H as [H1 H2]. apply kept_dict. constructor; [|constructor]. now split.
Qed.

(** ** LZMA *)
Lemma file_lines_line l : forall line rest fin, ~ In LF l ->
  file_lines line (l ++ LF :: rest) fin = (line ++ l ++ [LF]) :: file_lines [] rest fin.
Proof.
  induction l as [|c l IH]; intros line rest fin H; cbn [app file_lines].
  - reflexivity.
  - assert (E : Ascii.eqb c LF = false) by (apply Ascii.eqb_neq; intros ->; apply H; now left).
    rewrite E, IH by (intros C; apply H; now right). now rewrite <- app_assoc.
Qed.
Lemma file_lines_cut l : forall line e, ~ In LF l -> file_lines line l (Some e) = [].
Proof.
  induction l as [|c l IH]; intros line e H; cbn [file_lines]; [now destruct line|].
  assert (E : Ascii.eqb c LF = false) by (apply Ascii.eqb_neq; intros ->; apply H; now left).
  rewrite E. apply IH. intros C. apply H. now right.
Qed.
Lemma file_lines_text lines cut fin : Forall (fun l => ~ In LF l) lines ->
  (fin = None /\ cut = [] \/ exists e, fin = Some e /\ ~ In LF cut) ->
  file_lines [] (lines_text lines ++ cut) fin = map (fun l => l ++ [LF]) lines.
Proof.
  intros H Hc. unfold lines_text. induction H as [|l lines Hl _ IH]; cbn [map concat].
  - destruct Hc as [[-> ->]|(e & -> & Hc)]; [reflexivity|]. now apply file_lines_cut.
  - rewrite <- !app_assoc. etransitivity; [apply (file_lines_line l [] _ fin Hl)|]. cbn [app]. now rewrite IH.
Qed.
Lemma map_gen_map {A B C} (f : B -> result C) (g : A -> B) (h : A -> result C) l fin :
  (forall x, f (g x) = h x) -> map_gen f (map g l) fin = map_gen h l fin.
Proof. intros H. induction l as [|x l IH]; [reflexivity|]. cbn [map map_gen]. now rewrite H, IH. Qed.
Lemma map_gen_fin {A B} (f : A -> result B) l fin fin' : fst (map_gen f l fin) = fst (map_gen f l fin').
Proof.
  induction l as [|x l IH]; [reflexivity|]. cbn [map_gen]. destruct (f x); [|reflexivity].
  destruct (map_gen f l fin), (map_gen f l fin'). cbn [fst] in *. now rewrite IH.
Qed.
Lemma lzma_blob parse unzstd unlzma zip XML parquet depth read_blob name data lines cut fin rs :
  file_with_extension $".lzma" name -> read_blob name = Ok data ->
  unlzma data = (lines_text lines ++ cut, fin) ->
  (fin = None /\ cut = [] \/ exists e, fin = Some e /\ ~ In LF cut) ->
  Forall one_line lines -> (forall l, parse (l ++ [LF]) = parse l) -> until_damage parse lines rs ->
  blob_records parse unzstd (other_decoder parse unzstd unlzma zip XML parquet depth) read_blob pass_thru pass_thru_filter
    None name = filter truthy rs.
Proof.
  intros Hx Hr Hu Hc Hl Hp Hd.
  assert (D : decode parse unzstd (other_decoder parse unzstd unlzma zip XML parquet depth) $".lzma" data
              = Some (map_gen parse lines fin)).
  { unfold decode.
    transitivity (Some (let '(text, fin) := unlzma data in map_gen parse (file_lines [] text fin) fin));
      [destruct depth; reflexivity|].
    rewrite Hu, file_lines_text; auto.
    - f_equal. now apply map_gen_map.
    - eapply Forall_impl; [|exact Hl]. intros l H C. apply H in C. discriminate. }
  destruct (map_gen parse lines fin) as [vs e] eqn:E.
  rewrite (blob_decoded _ _ _ _ _ _ _ _ _ Hx Hr D). f_equal.
  transitivity (fst (map_gen parse lines fin)); [now rewrite E|].
  rewrite (map_gen_fin _ _ _ None). now apply map_gen_until.
Qed.

(** ** The statements *)
Lemma csv_exact names rows text : csv_file (names :: rows) text -> NoDup names -> Forall no_breaks names ->
  Forall (Forall no_breaks) rows ->
  csv text = map (fun row => (under_header names row, skipn (length names) row)) rows.
Proof.
  intros H Hn Hb Hr. rewrite (csv_spec names rows text H) by (now rewrite map_unbroken).
  rewrite (map_unbroken names Hb). clear H. induction Hr as [|row rows Hrow _ IH]; [reflexivity|].
  cbn [map]. rewrite IH, (map_unbroken row Hrow). f_equal. f_equal. apply map_unbroken.
  rewrite <- (firstn_skipn (length names) row) in Hrow. now apply Forall_app in Hrow.
Qed.
Lemma csv_blob parse unzstd unlzma zip XML parquet depth read_blob name names rows text :
  file_with_extension $".csv" name -> read_blob name = Ok text ->
  csv_file (names :: rows) text -> NoDup (map unbroken names) ->
  blob_records parse unzstd (other_decoder parse unzstd unlzma zip XML parquet depth) read_blob pass_thru pass_thru_filter
    None name = map (fun row => VDict (under_header (map unbroken names) (map unbroken row))) rows.
Proof.
  intros Hx Hr Hf Hn.
  assert (D : decode parse unzstd (other_decoder parse unzstd unlzma zip XML parquet depth) $".csv" text
              = Some (map (fun r => VDict (fst r)) (csv text), None)) by (unfold decode; destruct depth; reflexivity).
  rewrite (blob_decoded _ _ _ _ _ _ _ _ _ Hx Hr D). rewrite (csv_spec names rows text Hf Hn), map_map. cbn [fst].
  apply csv_file_rows in Hf. apply Forall_inv in Hf. clear -Hf. induction rows as [|row rows IH]; [reflexivity|].
  cbn [map filter]. rewrite IH. destruct names as [|n names]; [now elim Hf|]. unfold under_header. cbn [map length repeat].
  destruct row; reflexivity.
Qed.
Lemma archive_blob parse unzstd unlzma zip XML parquet depth read_blob name data vs :
  file_with_extension $".zip" name -> read_blob name = Ok data ->
  file_holds (leaf parse unzstd unlzma zip XML parquet) zip known_extension depth $".zip" data vs ->
  blob_records parse unzstd (other_decoder parse unzstd unlzma zip XML parquet depth) read_blob pass_thru pass_thru_filter
    None name = filter truthy vs.
Proof.
  intros Hx Hr Hh. apply archive_reads in Hh. exact (blob_decoded _ _ _ _ _ _ _ _ _ Hx Hr Hh).
Qed.
Lemma archive_blob_damage parse unzstd unlzma zip XML parquet depth read_blob name data ms1 vs m ext file ws e ms2 :
  file_with_extension $".zip" name -> read_blob name = Ok data ->
  zip data = Ok (ms1 ++ (m, file) :: ms2) ->
  members_hold (leaf parse unzstd unlzma zip XML parquet) zip known_extension depth ms1 vs ->
  member_extension m ext ->
  (file = Raise e /\ ws = [] \/
   exists d, file = Ok d /\
     decode parse unzstd (other_decoder parse unzstd unlzma zip XML parquet depth) ext d = Some (ws, Some e)) ->
  blob_records parse unzstd (other_decoder parse unzstd unlzma zip XML parquet (S depth)) read_blob pass_thru pass_thru_filter
    None name = filter truthy (vs ++ ws).
Proof.
  intros Hx Hr Hz Hm He Hf.
  pose proof (archive_damage parse unzstd unlzma zip XML parquet depth data ms1 vs m ext file ws e ms2 Hz Hm He Hf) as D.
  exact (blob_decoded _ _ _ _ _ _ _ _ _ Hx Hr D).
Qed.
Lemma archive_blob_itself parse unzstd unlzma zip XML parquet depth read_blob name data m :
  file_with_extension $".zip" name -> read_blob name = Ok data ->
  zip data = Ok [(m, Ok data)] -> member_extension m $".zip" ->
  blob_records parse unzstd (other_decoder parse unzstd unlzma zip XML parquet depth) read_blob pass_thru pass_thru_filter
    None name = [].
Proof.
  intros Hx Hr Hz He.
  pose proof (archive_of_itself parse unzstd unlzma zip XML parquet depth data m Hz He) as D.
  exact (blob_decoded _ _ _ _ _ _ _ _ _ Hx Hr D).
Qed.
Lemma xml_blob parse unzstd unlzma zip XML parquet depth read_blob name data t :
  file_with_extension $".xml" name -> read_blob name = Ok data -> XML data = Ok t -> no_namespace t ->
  blob_records parse unzstd (other_decoder parse unzstd unlzma zip (Some XML) parquet depth) read_blob pass_thru pass_thru_filter
    None name = [VDict [(tag_of t, etree_value t)]].
Proof.
  intros Hx Hr Hp Ht.
  assert (D : decode parse unzstd (other_decoder parse unzstd unlzma zip (Some XML) parquet depth) $".xml" data
              = Some (map_gen (xml (Some XML)) [data] None)) by (unfold decode; destruct depth; reflexivity).
  cbn [map_gen xml] in D. rewrite Hp in D. cbn [bind] in D. rewrite (xml_plain t Ht) in D.
  exact (blob_decoded _ _ _ _ _ _ _ _ _ Hx Hr D).
Qed.
Lemma xml_missing parse unzstd unlzma zip parquet depth read_blob name data ext :
  ext = $".xml" \/ ext = $".lxml" -> file_with_extension ext name -> read_blob name = Ok data ->
  blob_records parse unzstd (other_decoder parse unzstd unlzma zip None parquet depth) read_blob pass_thru pass_thru_filter
    None name = [].
Proof.
  intros He Hx Hr.
  assert (D : exists e, decode parse unzstd (other_decoder parse unzstd unlzma zip None parquet depth) ext data
              = Some ([], e)).
  { destruct He as [->| ->].
    - exists (Some ImportError). unfold decode; destruct depth; reflexivity.
    - assert (E : decode parse unzstd (other_decoder parse unzstd unlzma zip None parquet depth) $".lxml" data
                  = Some (map_gen (xml None) (splitlines data) None)) by (unfold decode; destruct depth; reflexivity).
      rewrite E. destruct (splitlines data); eexists; reflexivity. }
  destruct D as (e & D). exact (blob_decoded _ _ _ _ _ _ _ _ _ Hx Hr D).
Qed.
