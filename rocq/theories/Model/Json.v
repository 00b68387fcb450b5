(** JSON texts: what stands for [orjson.dumps], [orjson.loads] and [simdjson.Parser().parse]
    (mabel/data/internals/storage_classes/base_storage_class.py 29-38, mabel/data/readers/internals/parallel_reader.py,
    mabel/data/writers/internals/blob_writer.py).  These are other libraries: this is JSON as the standard has it,
    written without spaces as orjson does.

    Simplifications: integers only, of any size; texts are their UTF-8 bytes; escapes [\uXXXX] for characters above
    7F are not read (the writer never writes them). *)
From Verif.Base Require Import Py Value.

Definition hex_digit (n : N) : ascii :=
  if (n <? 10)%N then ascii_of_N (48 + n) else ascii_of_N (87 + n).
Definition hex_value (c : ascii) : option N :=
  let n := N_of_ascii c in
  if is_digit c then Some (n - 48)%N
  else if (97 <=? n)%N && (n <=? 102)%N then Some (n - 87)%N
  else if (65 <=? n)%N && (n <=? 70)%N then Some (n - 55)%N
  else None.

(** ** Writing *)
Definition escape (c : ascii) : str :=
  let n := N_of_ascii c in
  if Ascii.eqb c """" then ["\"%char; """"%char]
  else if Ascii.eqb c "\" then ["\"%char; "\"%char]
  else if (n <? 32)%N then
    if (n =? 8)%N then ["\"%char; "b"%char]
    else if (n =? 9)%N then ["\"%char; "t"%char]
    else if (n =? 10)%N then ["\"%char; "n"%char]
    else if (n =? 12)%N then ["\"%char; "f"%char]
    else if (n =? 13)%N then ["\"%char; "r"%char]
    else ["\"%char; "u"%char; "0"%char; "0"%char; hex_digit (n / 16); hex_digit (n mod 16)]
  else [c].
Definition dump_text (s : str) : str := """"%char :: flat_map escape s ++ [""""%char].

Fixpoint dumps (v : value) : str :=
  match v with
  | VNull => $"null"
  | VBool true => $"true"
  | VBool false => $"false"
  | VInt z => decZ z
  | VStr s => dump_text s
  | VList l => "["%char :: join $"," (map dumps l) ++ ["]"%char]
  | VDict d => "{"%char :: join $"," (map (fun kv => dump_text (fst kv) ++ ":"%char :: dumps (snd kv)) d) ++ ["}"%char]
  end.

(** ** Reading *)
Definition json_space (c : ascii) : bool :=
  mem N.eqb (N_of_ascii c) [32; 9; 10; 13]%N.
Fixpoint skip_ws (s : str) : str :=
  match s with c :: s' => if json_space c then skip_ws s' else s | [] => [] end.

(** [s] without the text at its beginning *)
Fixpoint take_word (w s : str) : option str :=
  match w, s with
  | [], _ => Some s
  | a :: w', c :: s' => if Ascii.eqb a c then take_word w' s' else None
  | _, [] => None
  end.

Fixpoint span_digits (s : str) : str * str :=
  match s with
  | c :: s' => if is_digit c then let '(a, r) := span_digits s' in (c :: a, r) else ([], s)
  | [] => ([], [])
  end.

(** a number without leading zeros *)
Definition load_number (neg : bool) (s : str) : result (value * str) :=
  let '(digits, rest) := span_digits s in
  match undec digits with
  | Some n =>
      match digits with
      | "0"%char :: _ :: _ => Raise ValueError
      | _ => Ok (VInt (if neg then - Z.of_N n else Z.of_N n)%Z, rest)
      end
  | None => Raise ValueError
  end.

Definition unescape (c : ascii) : option ascii :=
  if Ascii.eqb c """" then Some """"%char
  else if Ascii.eqb c "\" then Some "\"%char
  else if Ascii.eqb c "/" then Some "/"%char
  else if Ascii.eqb c "b" then Some (ascii_of_N 8)
  else if Ascii.eqb c "t" then Some (ascii_of_N 9)
  else if Ascii.eqb c "n" then Some (ascii_of_N 10)
  else if Ascii.eqb c "f" then Some (ascii_of_N 12)
  else if Ascii.eqb c "r" then Some (ascii_of_N 13)
  else None.

(** the text up to the closing quotation mark; [acc] is reversed *)
Fixpoint load_text (acc : str) (s : str) : result (str * str) :=
  match s with
  | [] => Raise ValueError
  | c :: s1 =>
      if Ascii.eqb c """" then Ok (rev acc, s1)
      else if Ascii.eqb c "\" then
        match s1 with
        | "u"%char :: a :: b :: x :: y :: s2 =>
            match hex_value a, hex_value b, hex_value x, hex_value y with
            | Some a, Some b, Some x, Some y =>
                let n := (((a * 16 + b) * 16 + x) * 16 + y)%N in
                if (n <? 128)%N then load_text (ascii_of_N n :: acc) s2 else Raise ValueError
            | _, _, _, _ => Raise ValueError
            end
        | e :: s2 => match unescape e with Some d => load_text (d :: acc) s2 | None => Raise ValueError end
        | [] => Raise ValueError
        end
      else if (N_of_ascii c <? 32)%N then Raise ValueError
      else load_text (c :: acc) s1
  end.

(** a value, and what is left; [fuel] bounds the depth and the number of members *)
Fixpoint load_value (fuel : nat) (s : str) : result (value * str) :=
  match fuel with
  | O => Raise ValueError
  | S f =>
      match skip_ws s with
      | [] => Raise ValueError
      | c :: s1 =>
          if Ascii.eqb c """" then let* (t, r) := load_text [] s1 in Ok (VStr t, r)
          else if Ascii.eqb c "[" then
            match skip_ws s1 with
            | "]"%char :: r => Ok (VList [], r)
            | _ => load_members f [] s1
            end
          else if Ascii.eqb c "{" then
            match skip_ws s1 with
            | "}"%char :: r => Ok (VDict [], r)
            | _ => load_items f [] s1
            end
          else if Ascii.eqb c "-" then load_number true s1
          else if is_digit c then load_number false (c :: s1)
          else match take_word $"null" (c :: s1) with
          | Some r => Ok (VNull, r)
          | None =>
          match take_word $"true" (c :: s1) with
          | Some r => Ok (VBool true, r)
          | None =>
          match take_word $"false" (c :: s1) with
          | Some r => Ok (VBool false, r)
          | None => Raise ValueError
          end end end
      end
  end
with load_members (fuel : nat) (acc : list value) (s : str) : result (value * str) :=
  match fuel with
  | O => Raise ValueError
  | S f =>
      let* (v, r) := load_value f s in
      match skip_ws r with
      | ","%char :: r' => load_members f (acc ++ [v]) r'
      | "]"%char :: r' => Ok (VList (acc ++ [v]), r')
      | _ => Raise ValueError
      end
  end
with load_items (fuel : nat) (acc : record) (s : str) : result (value * str) :=
  match fuel with
  | O => Raise ValueError
  | S f =>
      match skip_ws s with
      | """"%char :: s1 =>
          let* (k, r) := load_text [] s1 in
          match skip_ws r with
          | ":"%char :: r1 =>
              let* (v, r2) := load_value f r1 in
              match skip_ws r2 with
              | ","%char :: r' => load_items f (dset str_eqb k v acc) r'
              | "}"%char :: r' => Ok (VDict (dset str_eqb k v acc), r')
              | _ => Raise ValueError
              end
          | _ => Raise ValueError
          end
      | _ => Raise ValueError
      end
  end.

(** a whole text *)
Definition loads (s : str) : result value :=
  let* (v, r) := load_value (length s) s in
  match skip_ws r with [] => Ok v | _ => Raise ValueError end.
