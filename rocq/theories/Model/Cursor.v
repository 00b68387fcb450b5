(** Model of mabel/data/readers/internals/cursor.py and of the serial branch of
    mabel/data/readers/reader.py:_LowLevelReader._create_line_reader. *)
From Verif.Base Require Import Py.

(** ** bitarray and bytes (third party [bitarray], Python [bytes.hex]/[bytes.fromhex]) *)

(** eight bits, most significant first (bitarray's default endianness is 'big') *)
Definition byte_of_bits (a b c d e f g h : bool) : N :=
  fold_left (fun acc (x : bool) => 2 * acc + (if x then 1 else 0))%N [a;b;c;d;e;f;g;h] 0%N.
Definition bits_of_byte (n : N) : list bool :=
  map (N.testbit n) [7;6;5;4;3;2;1;0]%N.

(** bitarray.tobytes(): groups of eight, the last one padded with zero bits (cursor.py:106) *)
Fixpoint tobytes (l : list bool) : list N :=
  match l with
  | [] => []
  | [a] => [byte_of_bits a false false false false false false false]
  | [a;b] => [byte_of_bits a b false false false false false false]
  | [a;b;c] => [byte_of_bits a b c false false false false false]
  | [a;b;c;d] => [byte_of_bits a b c d false false false false]
  | [a;b;c;d;e] => [byte_of_bits a b c d e false false false]
  | [a;b;c;d;e;f] => [byte_of_bits a b c d e f false false]
  | [a;b;c;d;e;f;g] => [byte_of_bits a b c d e f g false]
  | a :: b :: c :: d :: e :: f :: g :: h :: l' => byte_of_bits a b c d e f g h :: tobytes l'
  end.
(** bitarray().frombytes(...) (cursor.py:57-58) *)
Definition frombytes (l : list N) : list bool := flat_map bits_of_byte l.

Definition hex_digit (n : N) : ascii :=
  if (n <? 10)%N then ascii_of_N (48 + n) else ascii_of_N (87 + n).
(** bytes.hex() (cursor.py:106) *)
Definition to_hex (l : list N) : str :=
  flat_map (fun n => [hex_digit (n / 16); hex_digit (n mod 16)]) l.
Definition hex_val (c : ascii) : option N :=
  let n := N_of_ascii c in
  if is_digit c then Some (n - 48)%N
  else if ((97 <=? n) && (n <=? 102))%N then Some (n - 87)%N
  else if ((65 <=? n) && (n <=? 70))%N then Some (n - 55)%N
  else None.
(** bytes.fromhex(...) (cursor.py:56).  Simplification: blanks between bytes, which Python
    skips, are rejected here. *)
Fixpoint from_hex (s : str) : result (list N) :=
  match s with
  | [] => Ok []
  | a :: b :: s' =>
      match hex_val a, hex_val b with
      | Some x, Some y => let* r := from_hex s' in Ok ((16 * x + y)%N :: r)
      | _, _ => Raise ValueError
      end
  | _ => Raise ValueError
  end.

(** ** The cursor *)
(** cursor.py:21-27 *)
Record cursor := mkCursor {
  readable_blobs : list str;
  read_blobs : list str;
  partition : str;
  location : Z }.

(** the values occurring in a cursor dictionary *)
Inductive cval := CInt (z : Z) | CStr (s : str).
Definition cdict := list (str * cval).

(** what a client can pass as [cursor=] to a Reader (reader.py:61,217) *)
Inductive saved :=
| NoCursor               (* None *)
| AsText (s : str)       (* str(reader.cursor) *)
| AsDict (d : cdict)     (* reader.cursor.get() *)
| AsObject (c : cursor). (* reader.cursor itself *)

Section Cursor.
  (** [xxh3_64_intdigest(name, 0)], third party *)
  Variable hash : str -> Z.
  (** orjson.dumps / orjson.loads on cursor dictionaries, third party *)
  Variable dumps : cdict -> str.
  Variable loads : str -> result cdict.

  (** cursor.py:99-106, item == "map" *)
  Definition cursor_map (c : cursor) : str :=
    to_hex (tobytes (map (fun b => str_mem b (read_blobs c)) (readable_blobs c))).

  (** cursor.py:92-97 with 99-111 *)
  Definition cursor_get (c : cursor) : cdict :=
    [ ($"map", CStr (cursor_map c));
      ($"partition", CInt (hash (partition c)));
      ($"location", CInt (location c)) ].

  (** cursor.py:113-114, what [str(cursor)] gives *)
  Definition cursor_repr (c : cursor) : str := dumps (cursor_get c).

  (** cursor.py:59-61: [readable_blobs[i] for i in range(len) if blob_map[i]], IndexError when
      the map has too few bits *)
  Fixpoint pick (blobs : list str) (bits : list bool) : result (list str) :=
    match blobs, bits with
    | [], _ => Ok []
    | _ :: _, [] => Raise IndexError
    | b :: blobs', true :: bits' => let* r := pick blobs' bits' in Ok (b :: r)
    | _ :: blobs', false :: bits' => pick blobs' bits'
    end.

  (** cursor.py:41-61, after the text (if it is one) has been decoded.
      Simplification: a location or map of the wrong type raises here, Python raises at the
      first use. *)
  Definition load_dict (c : cursor) (d : cdict) : result cursor :=
    match dget str_eqb $"location" d, dget str_eqb $"map" d, dget str_eqb $"partition" d with
    | Some loc, Some m, Some p =>
        match loc with
        | CInt z =>
            let find_partition :=
              filter (fun b => match p with CInt h => Z.eqb (hash b) h | CStr _ => false end)
                     (readable_blobs c) in
            let part := match find_partition with [b] => b | _ => partition c end in
            match m with
            | CStr hex =>
                let* map_bytes := from_hex hex in
                let* rd := pick (readable_blobs c) (frombytes map_bytes) in
                Ok (mkCursor (readable_blobs c) rd part z)
            | CInt _ => Raise TypeError
            end
        | CStr _ => Raise TypeError
        end
    | _, _, _ => Raise InvalidCursor
    end.

  (** cursor.py:22-30 (__init__) and 32-39; [if cursor:] skips None, "" and {} *)
  Definition new_cursor (blobs : list str) (s : saved) : result cursor :=
    let c := mkCursor (sorted_str blobs) [] [] (-1) in
    match s with
    | NoCursor => Ok c
    | AsText [] => Ok c
    | AsText t => let* d := loads t in load_dict c d
    | AsDict [] => Ok c
    | AsDict d => load_dict c d
    | AsObject o => Ok o  (* reader.py:286: not wrapped again *)
    end.

  (** cursor.py:63-82 *)
  Definition next_blob (c : cursor) (previous : option str) : result (option str * cursor) :=
    let c :=
      match previous with
      | Some (x :: p) => mkCursor (readable_blobs c) (read_blobs c ++ [x :: p]) [] (-1)
      | _ => c                         (* None and "" are falsy *)
      end in
    if negb (str_eqb (partition c) []) && (0 <=? location c)%Z then
      if str_mem (partition c) (readable_blobs c) then Ok (Some (partition c), c)
      else
        (* compares a hash with the name of the partition: never equal (int == str) *)
        Raise ValueError
    else
      match filter (fun b => negb (str_mem b (read_blobs c))) (readable_blobs c) with
      | b :: _ => Ok (Some b, mkCursor (readable_blobs c) (read_blobs c) b (-1))
      | [] => Ok (None, c)
      end.

  (** cursor.py:84-90: the rest of the iterator and the index of its first element *)
  Definition skip_to_cursor {R} (c : cursor) (it : list R) : list R * Z :=
    if (location c <? 0)%Z then (it, 0%Z)
    else (skipn (Z.to_nat (location c + 1)) it, (location c + 1)%Z).

  (** ** The serial reading loop, reader.py:284-303, as a generator *)
  Context {R : Type}.
  (** what ParallelReader yields for a blob (reader.py:292-299) *)
  Variable contents : str -> list R.

  Inductive gen :=
  | NotStarted
  | InBlob (blob : str) (rest : list R) (next_location : Z)
  | Finished.
  Record reader := mkReader { rd_blobs : list str; rd_cursor : saved; rd_gen : gen }.

  Definition with_location (c : cursor) (z : Z) : cursor :=
    mkCursor (readable_blobs c) (read_blobs c) (partition c) z.

  (** the body of [while blob_to_read] (reader.py:291-303) up to the next [yield];
      fuel bounds the number of blobs passed without a record *)
  Fixpoint advance (fuel : nat) (c : cursor) (blob : str) (it : list R) (loc : Z)
    : result (option R * cursor * gen) :=
    match it with
    | r :: rest => Ok (Some r, with_location c loc, InBlob blob rest (loc + 1)%Z)
    | [] =>
        match fuel with
        | O => Raise OutOfFuel
        | S f =>
            let* (nb, c') := next_blob c (Some blob) in
            match nb with
            | Some (x :: b) =>
                let (it', loc') := skip_to_cursor c' (contents (x :: b)) in
                advance f c' (x :: b) it' loc'
            | _ => Ok (None, c', Finished)
            end
        end
    end.

  (** [next(reader)]: Some record, or None for StopIteration.  reader.py:284-303 *)
  Definition py_next (rd : reader) : result (option R * reader) :=
    let finish (x : result (option R * cursor * gen)) :=
      let* (rc, g) := x in let (r, c) := rc : option R * cursor in
      Ok (r, mkReader (rd_blobs rd) (AsObject c) g) in
    match rd_gen rd with
    | Finished => Ok (None, rd)
    | NotStarted =>
        let* c := new_cursor (rd_blobs rd) (rd_cursor rd) in
        let* (nb, c') := next_blob c None in
        match nb with
        | Some (x :: b) =>
            let (it, loc) := skip_to_cursor c' (contents (x :: b)) in
            finish (advance (S (length (readable_blobs c'))) c' (x :: b) it loc)
        | _ => finish (Ok (None, c', Finished))
        end
    | InBlob blob rest loc =>
        match rd_cursor rd with
        | AsObject c => finish (advance (S (length (readable_blobs c))) c blob rest loc)
        | _ => Raise AttributeError  (* not reachable: the cursor is an object once started *)
        end
    end.

  (** call next up to k times, stopping at StopIteration *)
  Fixpoint read_n (k : nat) (rd : reader) : result (list R * reader) :=
    match k with
    | O => Ok ([], rd)
    | S k' =>
        let* (r, rd') := py_next rd in
        match r with
        | None => Ok ([], rd')
        | Some x => let* (xs, rd'') := read_n k' rd' in Ok (x :: xs, rd'')
        end
    end.

  (** a client session: open a Reader with a saved cursor, read up to k records, and look at
      [reader.cursor] *)
  Definition session (blobs : list str) (s : saved) (k : nat) : result (list R * saved) :=
    let* (xs, rd) := read_n k (mkReader blobs s NotStarted) in
    Ok (xs, rd_cursor rd).

  (** the ways a client can keep a cursor for later *)
  Inductive transport := KeepObject | KeepDict | KeepText.
  Definition keep (t : transport) (s : saved) : saved :=
    match s with
    | AsObject c =>
        match t with
        | KeepObject => AsObject c
        | KeepDict => AsDict (cursor_get c)
        | KeepText => AsText (cursor_repr c)
        end
    | other => other
    end.

  (** any number of sessions, each resuming from what the one before kept *)
  Fixpoint sessions (blobs : list str) (s : saved) (plan : list (nat * transport))
    : result (list R * saved) :=
    match plan with
    | [] => Ok ([], s)
    | (k, t) :: plan' =>
        let* (xs, s') := session blobs s k in
        let* (ys, s'') := sessions blobs (keep t s') plan' in
        Ok (xs ++ ys, s'')
    end.
End Cursor.
