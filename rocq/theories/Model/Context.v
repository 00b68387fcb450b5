(** mabel/utils/common.py [build_context], mabel/utils/__init__.py [safe_field_name] and the drawing of
    mabel/data/internals/histogram.py. *)
From Verif.Base Require Import Py Value.

(** ** common.py 7-42 [build_context] *)
Section Context.
  (** what glob.glob finds for a pattern, what open and read give, and orjson.loads; loads gives ValueError for texts which
      are not JSON (orjson.JSONDecodeError is a ValueError) *)
  Context (glob : str -> list str) (open_read : str -> result str) (loads : str -> result value).

  (** lines 13-32 [read_config].  [.pop()] is the last file found, and IndexError without one; exceptions are raised again
      with another text but of the same class.  Simplification: the texts of exceptions and logging are left out. *)
  Definition read_config (config_file : str) : result value :=
    let files := glob ($"**/" ++ config_file) in
    match rev files with
    | [] => Raise IndexError
    | file_location :: _ => let* text := open_read file_location in loads text
    end.

  (** lines 34-44.  [kwargs] is a dictionary; a config_file which is not a text makes ["**/" + config_file] raise TypeError *)
  Definition build_context (kwargs : record) : result record :=
    let* config_file := match dget str_eqb $"config_file" kwargs with
                        | None => Ok $"config.json"
                        | Some (VStr f) => Ok f
                        | Some _ => Raise TypeError
                        end in
    let* config := read_config config_file in
    match config with
    | VDict config =>
        let config := if truthy (rget $"config" config) then config else dset str_eqb $"config" (VDict []) config in
        Ok (dupdate str_eqb config kwargs)
    | _ => Raise AttributeError       (* [config.get] of something that is no dictionary *)
    end.
End Context.

(** ** utils/__init__.py 4-9 [safe_field_name]: every longest run of other characters is replaced by nothing.
    [skip] is the rest after such a run. *)
Definition name_character (c : ascii) : bool :=
  let n := N_of_ascii c in
  ((97 <=? n) && (n <=? 122) || (65 <=? n) && (n <=? 90) || (48 <=? n) && (n <=? 57))%N || Ascii.eqb c "_" || Ascii.eqb c "-".
Fixpoint safe_field_name (s : str) : str :=
  match s with
  | [] => []
  | c :: s' => if name_character c then c :: safe_field_name s'
               else (fix skip (s : str) : str :=
                       match s with [] => [] | c :: s' => if name_character c then c :: safe_field_name s' else skip s' end) s'
  end.

(** ** histogram.py 19-36 [Histogram.__repr__].  BAR_CHARS (line 3) are a space and eight blocks of growing height; they
    are modelled by their positions, 0 to 8.  Simplification: exact division; with the code's floats
    [int(value / (mx / 8))] is the same for bins of up to 2^49 values. *)
Definition BAR_CHARS : list nat := [0; 1; 2; 3; 4; 5; 6; 7; 8].
Definition draw (bins : list nat) : result (list nat) :=
  match bins with
  | [] => Raise ValueError            (* max() of nothing *)
  | b :: bs =>
      let mx := fold_left Nat.max bs b in
      if mx =? 0 then Ok (repeat 0 (length bins))
      else mapM (fun value =>
                   if value =? 0 then Ok 0
                   else match nth_error BAR_CHARS (8 * value / mx) with Some c => Ok c | None => Raise IndexError end) bins
  end.
