(** mabel/data/readers/internals/decompressors.py 14-44, 74-77, parsers.py and mabel/data/internals/xmler.py: CSV, ZIP,
    LZMA and XML blobs.  JSON lines and zstandard are in Reader.v. *)
From Verif.Base Require Import Py Value.
From Verif.Model Require Import Storage Reader.

(** ** CSV: decompressors.py 74-77 *)
(** str.splitlines(), for ASCII texts: LF, CR, CR LF, VT, FF, FS, GS and RS end a line *)
Definition is_break (c : ascii) : bool :=
  existsb (Ascii.eqb c) ["010"%char; "013"%char; "011"%char; "012"%char; "028"%char; "029"%char; "030"%char].
Fixpoint str_splitlines_from (line : str) (text : str) : list str :=
  match text with
  | [] => match line with [] => [] | _ => [line] end
  | c :: rest =>
      if is_break c then
        line :: match rest with
                | d :: rest' => if Ascii.eqb c CR && Ascii.eqb d LF then str_splitlines_from [] rest'
                                else str_splitlines_from [] rest
                | [] => str_splitlines_from [] rest
                end
      else str_splitlines_from (line ++ [c]) rest
  end.
Definition str_splitlines (text : str) : list str := str_splitlines_from [] text.

(** csv.reader with its default dialect: delimiter [,], quotechar the double quote, doubled quotes, not strict (CPython, _csv.c
    parse_process_char).  The lines have no line ends, so the state EAT_CRNL is not needed; the limit of 131072
    characters for a field is left out. *)
Inductive csv_mode := StartRecord | StartField | InField | InQuoted | QuoteInQuoted.
(** the mode, the field so far, the fields before it *)
Definition csv_state : Type := csv_mode * str * list str.
Definition COMMA : ascii := ",".
Definition QUOTE : ascii := """".
Definition csv_char (s : csv_state) (c : ascii) : csv_state :=
  let '(mode, field, fields) := s in
  match mode with
  | StartRecord | StartField =>
      if Ascii.eqb c QUOTE then (InQuoted, field, fields)
      else if Ascii.eqb c COMMA then (StartField, [], fields ++ [field])
      else (InField, field ++ [c], fields)
  | InField =>
      if Ascii.eqb c COMMA then (StartField, [], fields ++ [field])
      else (InField, field ++ [c], fields)
  | InQuoted =>
      if Ascii.eqb c QUOTE then (QuoteInQuoted, field, fields) else (InQuoted, field ++ [c], fields)
  | QuoteInQuoted =>
      if Ascii.eqb c QUOTE then (InQuoted, field ++ [c], fields)
      else if Ascii.eqb c COMMA then (StartField, [], fields ++ [field])
      else (InField, field ++ [c], fields)
  end.
(** the end of a line; in quotes it is no end of the record *)
Definition csv_eol (s : csv_state) : csv_state :=
  let '(mode, field, fields) := s in
  match mode with
  | StartRecord => s
  | StartField | InField | QuoteInQuoted => (StartRecord, [], fields ++ [field])
  | InQuoted => s
  end.
(** Reader_iternext, until the lines end *)
Fixpoint csv_rows (s : csv_state) (lines : list str) : list (list str) :=
  match lines with
  | [] => match s with
          | (InQuoted, field, fields) => [fields ++ [field]]
          | _ => []
          end
  | line :: lines' =>
      let s' := csv_eol (fold_left csv_char line s) in
      match s' with
      | (StartRecord, _, fields) => fields :: csv_rows (StartRecord, [], []) lines'
      | _ => csv_rows s' lines'
      end
  end.
Definition csv_reader (lines : list str) : list (list str) := csv_rows (StartRecord, [], []) lines.

(** csv.DictReader.__next__ for one row: the fields by name, what a short row misses is None, what a long one has too much
    is kept apart (under the key None) *)
Definition csv_record (names row : list str) : record * list str :=
  let d := fold_left (fun d kv => dset str_eqb (fst kv) (VStr (snd kv)) d) (combine names row) [] in
  (fold_left (fun d k => dset str_eqb k VNull d) (skipn (length row) names) d, skipn (length names) row).
Definition csv_records (lines : list str) : list (record * list str) :=
  match csv_reader lines with
  | [] => []
  | names :: rows => map (csv_record names) (filter (fun row => match row with [] => false | _ => true end) rows)
  end.
(** decompressors.py 74-77, for ASCII contents *)
Definition csv (data : str) : list (record * list str) := csv_records (str_splitlines data).

(** ** XML: mabel/data/internals/xmler.py *)
(** xml.etree.ElementTree.Element: tag, attrib, text, children; the tail (text after the element) is not read *)
Inductive element := Element (tag : str) (attrib : list (str * str)) (text : option str) (children : list element).
Definition tag_of (t : element) : str := let 'Element tag _ _ _ := t in tag.

(** 31-33: the children's values by tag *)
Definition append_to (dd : list (str * list value)) (kv : str * value) : list (str * list value) :=
  dset str_eqb (fst kv) (match dget str_eqb (fst kv) dd with Some vs => vs ++ [snd kv] | None => [snd kv] end) dd.
(** 34: [v[0] if len(v) == 1 else v] *)
Definition one_or_all (vs : list value) : value := match vs with [v] => v | _ => VList vs end.
(** 26-45: the value of the one key [t.tag] of the dictionary *)
Fixpoint etree_value (t : element) : value :=
  let 'Element tag attrib text children := t in
  let dd := fold_left append_to (map (fun c => (tag_of c, etree_value c)) children) [] in
  let d := map (fun kv : str * list value => (fst kv, one_or_all (snd kv))) dd in
  let d := fold_left (fun d (kv : str * str) => dset str_eqb ("@"%char :: fst kv) (VStr (snd kv)) d) attrib d in
  let plain := match children, attrib with [], [] => true | _, _ => false end in
  match text with
  | None | Some [] => if plain then VNull else VDict d
  | Some text =>
      let text := strip text in
      if plain then VStr text
      else match text with [] => VDict d | _ => VDict (dset str_eqb $"#text" (VStr text) d) end
  end.
Definition etree_to_dict (t : element) : value := VDict [(tag_of t, etree_value t)].

(** [k.split("}", 1)[1]] *)
Fixpoint after_brace (k : str) : result str :=
  match k with
  | [] => Raise IndexError
  | c :: k' => if Ascii.eqb c "}" then Ok k' else after_brace k'
  end.
(** xmler.py 11-13 and 14-16: each of the [ks] renamed *)
Fixpoint rename (at_ : str) (ks : list str) (d : list (str * value)) : result (list (str * value)) :=
  match ks with
  | [] => Ok d
  | k :: ks' =>
      let* k2 := after_brace k in
      match dget str_eqb k d with
      | None => Raise KeyError
      | Some v => rename at_ ks' (dset str_eqb (at_ ++ k2) v (ddel str_eqb k d))
      end
  end.
Definition rename_keys (d : list (str * value)) : result (list (str * value)) :=
  let* d := rename [] (filter (startswith $"{") (dkeys d)) d in
  rename $"@" (filter (startswith $"@{") (dkeys d)) d.
(** xmler.py 9-23.  The values are done before the keys are renamed: renaming does not look at them. *)
Fixpoint strip_namespace (v : value) : result value :=
  match v with
  | VDict d =>
      let* d := (fix go (d : list (str * value)) : result (list (str * value)) :=
                   match d with
                   | [] => Ok []
                   | (k, x) :: d' => let* y := strip_namespace x in let* e := go d' in Ok ((k, y) :: e)
                   end) d in
      let* d := rename_keys d in Ok (VDict d)
  | VList l =>
      let* l := (fix go (l : list value) : result (list value) :=
                   match l with
                   | [] => Ok []
                   | x :: l' => let* y := strip_namespace x in let* e := go l' in Ok (y :: e)
                   end) l in
      Ok (VList l)
  | _ => Ok v
  end.

(** ** The decoders Reader.v takes as a parameter *)
Section OtherDecoders.
  (** orjson.loads; zstandard's decompression; what lzma's decompression gives, and how it ends; [zipfile]: the members of an archive with their names, each
      of which may be unreadable; xml.etree.cElementTree.XML, a module which is missing from Python 3.9 on
      ([None]); pyarrow's reading of Parquet *)
  Context (parse_json : str -> result value) (unzstd : str -> result str)
          (unlzma : str -> str * option exn) (zip_members : str -> result (list (str * result str)))
          (cElementTree_XML : option (str -> result element))
          (parquet : str -> generator value).

  (** parsers.py 15-18, xmler.py 6 and 48-52 *)
  Definition xml (ds : str) : result value :=
    match cElementTree_XML with
    | None => Raise ImportError
    | Some XML => let* tree := XML ds in strip_namespace (etree_to_dict tree)
    end.
  (** iterating over a binary file: lines end in "\n", which is kept; if the file ends with an exception, so does the line
      it interrupts *)
  Fixpoint file_lines (line : str) (text : str) (fin : option exn) : list str :=
    match text with
    | [] => match line, fin with [], _ | _, Some _ => [] | _, None => [line] end
    | c :: rest =>
        if Ascii.eqb c LF then (line ++ [c]) :: file_lines [] rest fin else file_lines (line ++ [c]) rest fin
    end.

  (** decompressors.py 36-44: the members one after the other *)
  Fixpoint unzip (member : str -> str -> option (generator value)) (members : list (str * result str))
    : generator value :=
    match members with
    | [] => ([], None)
    | (file_name, file) :: members' =>
        match file with
        | Raise e => ([], Some e)
        | Ok file =>
            match member (last_extension file_name) file with
            | None => unzip member members'
            | Some (vs, Some e) => (vs, Some e)
            | Some (vs, None) => let '(ws, e) := unzip member members' in (vs ++ ws, e)
            end
        end
    end.

  (** parallel_reader.py 50-65 with decompressors.py 14-22 (lzma), 25-44 (unzip), 47-59 (parquet), 74-77 (csv).
      [depth]: how many archives inside one another Python's recursion limit allows; RecursionError is a RuntimeError.
      What a CSV row has too much is left out here (its key is None). *)
  Fixpoint other_decoder (depth : nat) (ext : str) (data : str) : generator value :=
    if str_eqb ext $".lzma" then
      let '(text, fin) := unlzma data in map_gen parse_json (file_lines [] text fin) fin
    else if str_eqb ext $".zip" then
      match depth with
      | O => ([], Some RuntimeError)
      | S depth' =>
          match zip_members data with
          | Raise e => ([], Some e)
          | Ok members => unzip (decode parse_json unzstd (other_decoder depth')) members
          end
      end
    else if str_eqb ext $".xml" then map_gen xml [data] None
    else if str_eqb ext $".lxml" then map_gen xml (splitlines data) None
    else if str_eqb ext $".parquet" then parquet data
    else (map (fun r => VDict (fst r)) (csv data), None).
End OtherDecoders.
