(** What CSV texts, archives and XML documents hold. *)
From Verif.Base Require Import Py Value.

(** ** CSV *)
(** the characters which end a line *)
Definition breaks : list ascii :=
  ["010"%char; "011"%char; "012"%char; "013"%char; "028"%char; "029"%char; "030"%char].
Definition breaks_line (c : ascii) : Prop := In c breaks.
Definition no_breaks (s : str) : Prop := Forall (fun c => ~ breaks_line c) s.
(** a text without the characters which end a line *)
Definition unbroken (s : str) : str :=
  filter (fun c => if in_dec ascii_dec c breaks then false else true) s.

(** a text with each double quote written twice *)
Fixpoint doubled (s : str) : str :=
  match s with
  | [] => []
  | c :: s' => if ascii_dec c """"%char then c :: c :: doubled s' else c :: doubled s'
  end.
(** how a field can be written: as it is, if it has no comma, quote or line end, or in quotes *)
Inductive csv_field : str -> str -> Prop :=
| csv_plain f : Forall (fun c => c <> ","%char /\ c <> """"%char /\ ~ breaks_line c) f -> csv_field f f
| csv_quoted f : csv_field f (""""%char :: doubled f ++ [""""%char]).
Definition ends_line (e : str) : Prop := e = ["010"%char] \/ e = ["013"%char; "010"%char].
(** [csv_line fields line]: the fields written with commas between them, not as an empty line *)
Definition csv_line (fields : list str) (line : str) : Prop :=
  exists texts, Forall2 csv_field fields texts /\ line = join $"," texts /\ line <> [].
(** [csv_file rows text]: the rows written on lines; the last line may lack its end *)
Inductive csv_file : list (list str) -> str -> Prop :=
| csv_end : csv_file [] []
| csv_last fields line : csv_line fields line -> csv_file [fields] line
| csv_row fields line e rows text :
    csv_line fields line -> ends_line e -> csv_file rows text -> csv_file (fields :: rows) (line ++ e ++ text).

(** a row under its header: what it misses is null *)
Definition under_header (names row : list str) : record :=
  combine names (map VStr row ++ repeat VNull (length names)).

(** ** Archives *)
(** the extension of a member's name: what follows its last dot, or all of it *)
Definition member_extension (name ext : str) : Prop :=
  exists e, ext = "."%char :: e /\ ~ In "."%char e /\ (name = e \/ exists stem, name = stem ++ "."%char :: e).
Section Archives.
  (** what a file that is no archive file_holds; what the members of an archive are (a member may be unreadable); the
      extensions that are known *)
  Context (leaf : str -> str -> list value -> Prop) (members_of : str -> result (list (str * result str)))
          (known : str -> Prop).
  (** [file_holds n ext data vs]: the records of a file, with archives at most [n] deep, in the order of the members *)
  Inductive file_holds : nat -> str -> str -> list value -> Prop :=
  | holds_leaf n ext data vs : ext <> $".zip" -> leaf ext data vs -> file_holds n ext data vs
  | holds_archive n data members vs :
      members_of data = Ok members -> members_hold n members vs -> file_holds (S n) $".zip" data vs
  with members_hold : nat -> list (str * result str) -> list value -> Prop :=
  | hold_none n : members_hold n [] []
  | hold_known n name ext file vs members ws :
      member_extension name ext -> known ext -> file_holds n ext file vs -> members_hold n members ws ->
      members_hold n ((name, Ok file) :: members) (vs ++ ws)
  | hold_other n name ext file members ws :
      member_extension name ext -> ~ known ext -> members_hold n members ws -> members_hold n ((name, Ok file) :: members) ws.
End Archives.
(** the extensions a reader knows (parallel_reader.py 50-65) *)
Definition known_extension (ext : str) : Prop :=
  In ext [$".txt"; $".json"; $".zstd"; $".lzma"; $".zip"; $".jsonl"; $".xml"; $".lxml"; $".parquet"; $".csv"; $".ignore";
          $".complete"; $".manifest"; $".idx"].
(** those with records *)
Definition data_extensions : list str :=
  [$".txt"; $".json"; $".zstd"; $".lzma"; $".zip"; $".jsonl"; $".xml"; $".lxml"; $".parquet"; $".csv"].
Definition data_blob (name : str) : Prop := exists ext, member_extension name ext /\ In ext data_extensions.
