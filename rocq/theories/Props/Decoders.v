(** C74, C75, C76: CSV, compressed and XML blobs. *)
From Verif.Base Require Import Py Value.
From Verif.Model Require Import Storage Reader Decoders.
From Verif.Spec Require Import Reader Decoders Xml Namespaces.
From Verif.Proofs Require Decoders Namespaces.
From Verif.Proofs Require Import DecodersCases.

(** C74: whatever the fields hold besides line ends (commas, quotes, spaces, nothing), and however they are written, each
    row of a CSV text becomes one record, in order: its fields under the names of the first row, null for what it misses; what
    it has too much is kept apart. *)
Theorem csv_rows_read :
  forall (names : list str) (rows : list (list str)) (text : str),
    csv_file (names :: rows) text -> NoDup names ->
    Forall no_breaks names -> Forall (Forall no_breaks) rows ->
    csv text = map (fun row => (under_header names row, skipn (length names) row)) rows.
Proof. exact Decoders.csv_exact. Qed.
Print Assumptions csv_rows_read.

(** C74, fields with line ends in quotes: they are read without them.  Missing: the line ends
    ([csv_line_break_lost_refuted]). *)
Theorem csv_blob_read_partial :
  forall parse unzstd unlzma zip XML parquet depth (read_blob : str -> result str) (name : str)
         (names : list str) (rows : list (list str)) (text : str),
    file_with_extension $".csv" name -> read_blob name = Ok text ->
    csv_file (names :: rows) text -> NoDup (map unbroken names) ->
    blob_records parse unzstd (other_decoder parse unzstd unlzma zip XML parquet depth) read_blob pass_thru pass_thru_filter
      None name
    = map (fun row => VDict (under_header (map unbroken names) (map unbroken row))) rows.
Proof. exact Decoders.csv_blob. Qed.
Print Assumptions csv_blob_read_partial.

(** [a_csv] meets the hypotheses: [DecodersCases.ex_csv_file] *)
Example ex_csv_read :
  csv a_csv = [([($"a", VStr $"x, ""y"""); ($"b", VStr $"2")], []);
               ([($"a", VStr []); ($"b", VStr [])], []);
               ([($"a", VStr $"z"); ($"b", VNull)], [])].
Proof. vm_compute. reflexivity. Qed.

(** C74, refuted: the two lines of a quoted field become one word *)
Theorem csv_line_break_lost_refuted :
  exists names rows text,
    csv_file (names :: rows) text /\ NoDup names /\
    csv text <> map (fun row => (under_header names row, skipn (length names) row)) rows.
Proof.
  exists [$"a"], [[$"x" ++ ["010"%char] ++ $"y"]], ($"""a""" ++ ["010"%char] ++ $"""x" ++ ["010"%char] ++ $"y""").
  split; [|split].
  - apply (csv_row [$"a"] $"""a""" ["010"%char]).
    + exists [$"""a"""]. split; [|now split]. constructor; [exact (csv_quoted $"a")|constructor].
    + now left.
    + apply csv_last. exists [$"""x" ++ ["010"%char] ++ $"y"""]. split; [|now split].
      constructor; [exact (csv_quoted ($"x" ++ ["010"%char] ++ $"y"))|constructor].
  - repeat constructor. intros [].
  - vm_compute. discriminate.
Qed.
Print Assumptions csv_line_break_lost_refuted.

(** C75: an archive reads as its members with a known extension, one after the other in the order of the archive, archives in
    archives included, as deep as Python's recursion limit allows. *)
Theorem archive_read :
  forall parse unzstd unlzma zip XML parquet depth (read_blob : str -> result str) (name data : str) (vs : list value),
    file_with_extension $".zip" name -> read_blob name = Ok data ->
    (* what a file that is no archive holds is what is read from it *)
    let leaf ext d rs :=
      decode parse unzstd (other_decoder parse unzstd unlzma zip XML parquet 0) ext d = Some (rs, None) in
    file_holds leaf zip known_extension depth $".zip" data vs ->
    blob_records parse unzstd (other_decoder parse unzstd unlzma zip XML parquet depth) read_blob pass_thru pass_thru_filter
      None name = filter truthy vs.
Proof. exact Decoders.archive_blob. Qed.
Print Assumptions archive_read.

(** C75: a member which cannot be read, or whose content ends with an exception, ends the archive: what was read before it
    is kept, what follows is not read. *)
Theorem archive_damaged :
  forall parse unzstd unlzma zip XML parquet depth (read_blob : str -> result str) (name data : str)
         (before : list (str * result str)) (vs : list value) (m ext : str) (file : result str) (ws : list value) (e : exn)
         (after : list (str * result str)),
    file_with_extension $".zip" name -> read_blob name = Ok data ->
    zip data = Ok (before ++ (m, file) :: after) ->
    let leaf ext d rs :=
      decode parse unzstd (other_decoder parse unzstd unlzma zip XML parquet 0) ext d = Some (rs, None) in
    members_hold leaf zip known_extension depth before vs ->
    member_extension m ext ->
    (file = Raise e /\ ws = [] \/
     exists d, file = Ok d /\
       decode parse unzstd (other_decoder parse unzstd unlzma zip XML parquet depth) ext d = Some (ws, Some e)) ->
    blob_records parse unzstd (other_decoder parse unzstd unlzma zip XML parquet (S depth)) read_blob pass_thru pass_thru_filter
      None name = filter truthy (vs ++ ws).
Proof. exact Decoders.archive_blob_damage. Qed.
Print Assumptions archive_damaged.

(** C75: an archive which holds itself ends the reading of that blob, whatever the limit *)
Theorem archive_of_itself_ends :
  forall parse unzstd unlzma zip XML parquet depth (read_blob : str -> result str) (name data m : str),
    file_with_extension $".zip" name -> read_blob name = Ok data ->
    zip data = Ok [(m, Ok data)] -> member_extension m $".zip" ->
    blob_records parse unzstd (other_decoder parse unzstd unlzma zip XML parquet depth) read_blob pass_thru pass_thru_filter
      None name = [].
Proof. exact Decoders.archive_blob_itself. Qed.
Print Assumptions archive_of_itself_ends.

(** C75: an LZMA blob gives the records of its lines up to the first damaged one; if the blob itself is cut off, those of the
    lines which can still be decompressed in full. *)
Theorem lzma_read :
  forall parse unzstd unlzma zip XML parquet depth (read_blob : str -> result str) (name data : str)
         (lines : list str) (cut : str) (fin : option exn) (rs : list value),
    file_with_extension $".lzma" name -> read_blob name = Ok data ->
    unlzma data = (lines_text lines ++ cut, fin) ->
    (fin = None /\ cut = [] \/ exists e, fin = Some e /\ ~ In "010"%char cut) ->
    Forall one_line lines ->
    (* the parser does not mind the end of the line *)
    (forall l, parse (l ++ ["010"%char]) = parse l) ->
    until_damage parse lines rs ->
    blob_records parse unzstd (other_decoder parse unzstd unlzma zip XML parquet depth) read_blob pass_thru pass_thru_filter
      None name = filter truthy rs.
Proof. exact Decoders.lzma_blob. Qed.
Print Assumptions lzma_read.

(** [DecodersCases.a_zip]; the hypotheses are met: [DecodersCases.ex_archive_holds] *)
Example ex_archive :
  let reads depth data :=
    blob_records (fun _ => Raise ValueError) (fun _ => Raise ValueError)
      (other_decoder (fun _ => Raise ValueError) (fun _ => Raise ValueError) (fun _ => ([], None)) a_zip None
         (fun _ => ([], None)) depth)
      (fun _ => Ok data) pass_thru pass_thru_filter None $"bucket/x.zip" in
  reads 3 $"z" = [VDict [($"a", VStr $"x, ""y"""); ($"b", VStr $"2")]; VDict [($"a", VStr []); ($"b", VStr [])];
                  VDict [($"a", VStr $"z"); ($"b", VNull)]; VStr $"text"] /\
  reads 1 $"z" = [VDict [($"a", VStr $"x, ""y"""); ($"b", VStr $"2")]; VDict [($"a", VStr []); ($"b", VStr [])];
                  VDict [($"a", VStr $"z"); ($"b", VNull)]] /\
  reads 3 $"q" = [] /\ reads 3 $"w" = [].
Proof. vm_compute. repeat split. Qed.
(** C76: an element with attributes or children is the dictionary of its children by name (one, or the list of several in the
    order of the document), of its attributes under @ and of its text under #text; any other element is its text. *)
Theorem xml_element_read :
  forall (tag : str) (attrib : list (str * str)) (text : option str) (children : list element),
    NoDup (map fst attrib) -> Forall (fun c => element_name (tag_of c)) children ->
    (attrib = [] -> children = [] ->
       etree_value (Element tag attrib text children)
       = match text with None | Some [] => VNull | Some s => VStr (strip s) end) /\
    (~ (attrib = [] /\ children = []) ->
       exists d, etree_value (Element tag attrib text children) = VDict d /\
         (forall k, element_name k -> dget str_eqb k d = one_or_list (map etree_value (children_named k children))) /\
         (forall k, dget str_eqb ("@"%char :: k) d = option_map VStr (dget str_eqb k attrib)) /\
         dget str_eqb $"#text" d = text_value text).
Proof.
  intros tag attrib text children Ha Hc. split.
  - intros -> ->. exact (Decoders.xml_leaf tag text).
  - intros Hne. exact (Decoders.xml_element tag attrib text children Hne Ha Hc).
Qed.
Print Assumptions xml_element_read.

(** C76: a document without namespaces becomes one record, with the name of the root as its only key *)
Theorem xml_blob_read_partial :
  forall parse unzstd unlzma zip XML parquet depth (read_blob : str -> result str) (name data : str) (t : element),
    file_with_extension $".xml" name -> read_blob name = Ok data -> XML data = Ok t -> no_namespace t ->
    blob_records parse unzstd (other_decoder parse unzstd unlzma zip (Some XML) parquet depth) read_blob
      pass_thru pass_thru_filter None name = [VDict [(tag_of t, etree_value t)]].
Proof. exact Decoders.xml_blob. Qed.
Print Assumptions xml_blob_read_partial.

(** a document which meets the hypotheses: [DecodersCases.ex_xml] *)

(** C76: with namespaces, as long as no two names of the children or of the attributes of an element become the same, a
    document is read as the one without them, up to the order of keys *)
Theorem xml_namespaces_removed_partial :
  forall parse unzstd unlzma zip XML parquet depth (read_blob : str -> result str) (name data : str) (t u : element),
    file_with_extension $".xml" name -> read_blob name = Ok data -> XML data = Ok t -> without_namespaces t u ->
    exists v, blob_records parse unzstd (other_decoder parse unzstd unlzma zip (Some XML) parquet depth) read_blob
        pass_thru pass_thru_filter None name = [VDict [(tag_of u, v)]] /\ same_value v (etree_value u).
Proof. exact Namespaces.xml_blob_namespaces. Qed.
Print Assumptions xml_namespaces_removed_partial.

(** a document with namespaces which meets the hypotheses: [DecodersCases.ex_namespaces] *)

(** C76, refuted: of two elements with the same name in different namespaces only one is left *)
Theorem xml_namespaces_collide_refuted :
  exists t v, etree_value t = VDict [($"{u}x", VStr $"1"); ($"{w}x", VStr $"2")] /\
    strip_namespace (etree_to_dict t) = Ok v /\ v = VDict [(tag_of t, VDict [($"x", VStr $"2")])].
Proof.
  exists (Element $"a" [] None [Element $"{u}x" [] (Some $"1") []; Element $"{w}x" [] (Some $"2") []]).
  eexists. split; [|split]; vm_compute; reflexivity.
Qed.
Print Assumptions xml_namespaces_collide_refuted.

(** C76, refuted: without xml.etree.cElementTree (Python 3.9 and later) XML blobs are read as if they were empty *)
Theorem xml_blobs_empty_refuted :
  forall parse unzstd unlzma zip parquet depth (read_blob : str -> result str) (name data ext : str),
    ext = $".xml" \/ ext = $".lxml" -> file_with_extension ext name -> read_blob name = Ok data ->
    blob_records parse unzstd (other_decoder parse unzstd unlzma zip None parquet depth) read_blob pass_thru pass_thru_filter
      None name = [].
Proof. exact Decoders.xml_missing. Qed.
Print Assumptions xml_blobs_empty_refuted.
