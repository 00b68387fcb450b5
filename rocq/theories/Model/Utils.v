(** mabel/utils/parameter_validator.py, mabel/utils/entropy.py, mabel/data/internals/histogram.py and
    mabel/data/internals/display.py. *)
From Verif.Base Require Import Py Value.

(** ** parameter_validator.py 9-34 [get_levenshtein_distance] *)
(** lines 26-32, one row [x] of the matrix after its first cell: [diag], [up] range over row [x - 1], [left] is the cell just filled *)
Fixpoint lev_cells (c : ascii) (word2 : str) (diag : nat) (above : list nat) (left : nat) : list nat :=
  match word2, above with
  | d :: word2', up :: above' =>
      let cell := if Ascii.eqb c d then Nat.min (up + 1) (Nat.min diag (left + 1))
                  else Nat.min (up + 1) (Nat.min (diag + 1) (left + 1)) in
      cell :: lev_cells c word2' up above' cell
  | _, _ => []
  end.
(** lines 18-32: the rows 1.. of the matrix, each from the one above; the last is returned *)
Fixpoint lev_rows (word1 word2 : str) (x : nat) (row : list nat) : list nat :=
  match word1 with
  | [] => row
  | c :: word1' =>
      lev_rows word1' word2 (S x)
               (match row with [] => [] | diag :: above => S x :: lev_cells c word2 diag above (S x) end)
  end.
(** lines 16-34 *)
Definition get_levenshtein_distance (word1 word2 : str) : nat :=
  let word1 := lower word1 in
  let word2 := lower word2 in
  last (lev_rows word1 word2 0 (seq 0 (length word2 + 1))) 0.

(** ** parameter_validator.py 37-140 [validate] *)
Record rule := mkRule { rule_name : str; rule_required : bool; rule_incompatible : list str }.
(** an argument: whether it counts as true, and the RULES of an object which has them *)
Record argument := mkArgument { arg_truthy : bool; arg_rules : option (list rule) }.

(** lines 52-55: the names of all arguments; too many positional arguments raise *)
Fixpoint entered (func_parameters : list str) (args : list argument) (kwargs : list (str * argument))
  : result (list (str * argument)) :=
  match args, func_parameters with
  | [], _ => Ok kwargs
  | a :: args', p :: ps => entered ps args' (dset str_eqb p a kwargs)
  | _ :: _, [] => Raise IndexError
  end.
(** lines 58-61: [self.rules] and the rules of the arguments *)
Definition all_rules (rules : list rule) (params : list (str * argument)) : list rule :=
  rules ++ flat_map (fun p => match arg_rules (snd p) with Some rs => rs | None => [] end) params.
(** lines 64-67 *)
Definition has_unknown (my_rules : list rule) (params : list (str * argument)) : bool :=
  existsb (fun p => negb (str_mem (fst p) (map rule_name my_rules))) params.
(** lines 93-97 *)
Definition has_missing (my_rules : list rule) (params : list (str * argument)) : bool :=
  existsb (fun r => rule_required r && negb (dhas str_eqb (rule_name r) params)) my_rules.
(** lines 115-133: only [self.rules] *)
Definition has_toxic (rules : list rule) (params : list (str * argument)) : bool :=
  existsb (fun r => match dget str_eqb (rule_name r) params with
                    | Some a => arg_truthy a && existsb (fun t => dhas str_eqb t params) (rule_incompatible r)
                    | None => false
                    end) rules.
(** lines 46-138: the decorated function, which acts on the state [S] of the program.  The log messages are left out. *)
Definition validated {S R} (rules : list rule) (func_parameters : list str)
           (func : list argument -> list (str * argument) -> S -> result R * S)
           (args : list argument) (kwargs : list (str * argument)) (s : S) : result R * S :=
  match entered func_parameters args kwargs with
  | Raise e => (Raise e, s)
  | Ok params =>
      let my_rules := all_rules rules params in
      if has_unknown my_rules params || has_missing my_rules params || has_toxic rules params
      then (Raise InvalidReaderConfigError, s)
      else func args kwargs s
  end.

(** ** display.py 29-36 [sanitize], for text *)
Definition sanitize (s : str) : str :=
  let s := replace $"&" $"&amp;" s in
  let s := replace ["034"%char] $"&quot;" s in
  let s := replace $"'" $"&#39;" s in
  let s := replace $"<" $"&lt;" s in
  let s := replace $">" $"&gt;" s in
  replace $"$" $"&#x24;" s.

(** lines 23-36: of any value; numbers and nulls stay as they are, [", ".join] accepts texts only *)
Definition as_text (v : value) : result str := match v with VStr s => Ok s | _ => Raise TypeError end.
Fixpoint sanitize_value (v : value) : result value :=
  match v with
  | VList l => let* parts := (fix each l := match l with
                                          | [] => Ok []
                                          | i :: l' => let* t := sanitize_value i in let* t := as_text t in
                                                       let* ts := each l' in Ok (t :: ts)
                                          end) l in
               Ok (VStr ($"[ " ++ join $", " parts ++ $" ]"))
  | VDict d => Ok (VStr (sanitize ($"{ " ++ join $", " (map (fun kv => ["034"%char] ++ fst kv ++ ["034"%char] ++ $": " ++ py_str (snd kv)) d) ++ $" }")))
  | VStr s => Ok (VStr (sanitize s))
  | _ => Ok v
  end.
(** lines 48-50: a cell, and lines 38-53: the table, for the set of columns in some order *)
Definition html_cell (column : str) (record : record) : result str :=
  let* sanitized := sanitize_value (match dget str_eqb column record with Some v => v | None => VStr [] end) in
  Ok ($"<td title='" ++ py_str sanitized
      ++ $"' style='max-width:320px;overflow:hidden;text-overflow:ellipsis;white-space:nowrap;'>"
      ++ py_str sanitized ++ $"<td>" ++ ["010"%char]).
Definition html_header (columns : list str) : str :=
  $"<thead class=" ++ ["034"%char] ++ $"thead-light" ++ ["034"%char] ++ $"><tr>"
  ++ concat (map (fun c => $"<th>" ++ sanitize c ++ $"<th>" ++ ["010"%char]) columns)
  ++ $"</tr></thead><tbody>".
Definition html_row (columns : list str) (record : record) : result str :=
  let* cells := mapM (fun c => html_cell c record) columns in
  Ok ($"<tr>" ++ concat cells ++ $"</tr>").
Definition html_rows (columns : list str) (data : list record) : result str :=
  let* rows := mapM (html_row columns) data in
  Ok ($"<table class=" ++ ["034"%char] ++ $"table table-sm" ++ ["034"%char] ++ $">"
      ++ match data with [] => [] | _ => html_header columns end
      ++ concat rows ++ $"</tbody></table>").

(** ** entropy.py *)
(** lines 52-53 [bytes_to_int] *)
Definition bytes_to_int (bs : str) : Z := fold_left (fun a c => (256 * a + Z.of_N (N_of_ascii c))%Z) bs 0%Z.
(** lines 45-49 [random_range]; [bs] are the 8 bytes of [os.urandom(8)] (line 42) *)
Definition random_range (bs : str) (mn mx : Z) : result Z :=
  let width := ((mx + 1) - mn)%Z in
  if (width =? 0)%Z then Raise ZeroDivisionError else Ok ((bytes_to_int bs mod width) + mn)%Z.
(** lines 56-61 [random_choice] *)
Definition random_choice {A} (bs : str) (options : list A) : result A :=
  let* r := random_range bs 0 (Z.of_nat (length options) - 1) in
  py_index options r.

(** [base64.b64encode] *)
Definition b64_alphabet : str := $"ABCDEFGHIJKLMNOPQRSTUVWXYZabcdefghijklmnopqrstuvwxyz0123456789+/".
Definition b64_digit (n : N) : ascii := nth (N.to_nat (n mod 64)) b64_alphabet "A"%char.
Fixpoint b64encode (bs : str) : str :=
  match bs with
  | a :: b :: c :: rest =>
      let n := (65536 * N_of_ascii a + 256 * N_of_ascii b + N_of_ascii c)%N in
      b64_digit (n / 262144) :: b64_digit (n / 4096) :: b64_digit (n / 64) :: b64_digit n :: b64encode rest
  | [a; b] =>
      let n := (65536 * N_of_ascii a + 256 * N_of_ascii b)%N in
      [b64_digit (n / 262144); b64_digit (n / 4096); b64_digit (n / 64); "="%char]
  | [a] =>
      let n := (65536 * N_of_ascii a)%N in
      [b64_digit (n / 262144); b64_digit (n / 4096); "="%char; "="%char]
  | [] => []
  end.
(** lines 34-35 [random_string]: the number of bytes asked for, [ceil(length * 0.75)], and the string made of them.
    Simplification: the product is exact (it is a float in the code). *)
Definition random_string_bytes (length : nat) : nat := (3 * length + 3) / 4.
Definition random_string (length : nat) (bs : str) : str := firstn length (b64encode bs).

(** ** histogram.py 7-17 [Histogram.__init__].  Simplification: integers, and exact division where the code
    uses floats: [int((v - mn) / interval)] with [interval = ((1 + mx) - mn) / (number_of_bins - 1)] *)
Definition bin_of (mn mx bins v : Z) : Z := ((v - mn) * (bins - 1) / (1 + mx - mn))%Z.
Fixpoint bump (l : list nat) (i : nat) : list nat :=
  match l, i with
  | [], _ => []
  | x :: l', O => S x :: l'
  | x :: l', S i' => x :: bump l' i'
  end.
Definition histogram (values : list Z) (number_of_bins : nat) : result (list nat) :=
  match values with
  | [] => Raise ValueError      (* min() of nothing *)
  | v0 :: vs =>
      let mn := fold_left Z.min vs v0 in
      let mx := fold_left Z.max vs v0 in
      if (number_of_bins =? 1)%nat then Raise ZeroDivisionError
      else fold_left (fun acc v =>
                        let* bins := acc in
                        let i := bin_of mn mx (Z.of_nat number_of_bins) v in
                        if (0 <=? i)%Z && (i <? Z.of_nat (length bins))%Z
                        then Ok (bump bins (Z.to_nat i)) else Raise IndexError)
                     values (Ok (repeat 0 number_of_bins))
  end.
