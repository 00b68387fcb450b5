(** Model of mabel/utils/paths.py (get_parts, build_path, date_format) and the part of
    pathlib.PurePosixPath it uses. *)
From Verif.Base Require Import Py.

(** ** pathlib.PurePosixPath: (root, components).  Empty and "." components are dropped, ".." is kept;
    exactly two leading slashes are kept as such (POSIX). *)
Definition ppath := (str * list str)%type.
Definition pp_root (s : str) : str :=
  if startswith $"///" s then $"/" else if startswith $"//" s then $"//"
  else if startswith $"/" s then $"/" else [].
Definition real_part (c : str) : bool := negb (str_eqb c []) && negb (str_eqb c $".").
Definition pp_parse (s : str) : ppath := (pp_root s, filter real_part (split "/"%char s)).
(** .parts *)
Definition pp_parts (p : ppath) : list str :=
  (match fst p with [] => [] | r => [r] end) ++ snd p.
(** str(path), path.as_posix() *)
Definition pp_str (p : ppath) : str :=
  match p with
  | ([], []) => $"."
  | (r, cs) => r ++ join $"/" cs
  end.
(** path / name, for a single component name *)
Definition pp_child (p : ppath) (name : str) : ppath :=
  let q := pp_parse name in
  match fst q with [] => (fst p, snd p ++ snd q) | _ => q end.
(** .name *)
Definition pp_name (p : ppath) : str := last (snd p) [].
(** index of the last dot *)
Fixpoint rfind_dot_from (i : nat) (s : str) (found : option nat) : option nat :=
  match s with
  | [] => found
  | c :: s' => rfind_dot_from (S i) s' (if Ascii.eqb c "."%char then Some i else found)
  end.
Definition rfind_dot (s : str) : option nat := rfind_dot_from 0 s None.
(** .stem and .suffix: split at the last dot unless it is the first or the last character *)
Definition stem_suffix (name : str) : str * str :=
  match rfind_dot name with
  | Some i => if (0 <? i)%nat && (i <? length name - 1)%nat then (firstn i name, skipn i name)
              else (name, [])
  | None => (name, [])
  end.
Definition pp_stem (p : ppath) : str := fst (stem_suffix (pp_name p)).
Definition pp_suffix (p : ppath) : str := snd (stem_suffix (pp_name p)).

(** paths.py:13-33; bucket, folder (ending in "/"), stem, suffix *)
Definition get_parts (path_string : str) : result (str * str * option str * option str) :=
  match path_string with
  | [] => Raise ValueError
  | _ =>
      let path := pp_parse path_string in
      match pp_parts path with
      | [] => Raise IndexError                     (* path.parts[0] of "." *)
      | [bucket] => Ok (bucket, $"partitions" ++ $"/", None, None)
      | bucket :: rest =>
          let middle := pp_parse (join $"/" (removelast rest)) in
          match pp_suffix path with
          | [] => Ok (bucket, pp_str (pp_child middle (pp_stem path)) ++ $"/", None, None)
          | suffix => Ok (bucket, pp_str middle ++ $"/", Some (pp_stem path), Some suffix)
          end
      end
  end.

(** a civil date and time: what date_format uses of a datetime *)
Record moment := mkMoment {
  year : N; month : N; day : N; hour : N; minute : N; second : N }.

(** paths.py:51-68 (date given) *)
Definition date_format (path_string : str) (d : moment) : str :=
  let s := replace $"{yyyy}" (dec (year d)) path_string in
  let s := replace $"{mm}" (dec_pad 2 (month d)) s in
  let s := replace $"{dd}" (dec_pad 2 (day d)) s in
  let s := replace $"{HH}" (dec_pad 2 (hour d)) s in
  let s := replace $"{MM}" (dec_pad 2 (minute d)) s in
  replace $"{SS}" (dec_pad 2 (second d)) s.

(** paths.py:36-48; [rnd] is random_string(32) *)
Definition build_path (rnd : str) (path : str) (d : moment) : result str :=
  match path with
  | [] => Raise ValueError
  | _ =>
      let* path_string :=
        (if str_eqb (skipn (length path - 1) path) $"/" then Ok path
         else let* (bucket, path_string, _, _) := get_parts path in
              Ok (if str_eqb path_string $"/" then path_string
                  else bucket ++ $"/" ++ path_string)) in
      Ok (replace $"{stem}" rnd (date_format path_string d))
  end.

(** what get_list_of_blobs lists for one date: str(pathlib.Path(build_path(...)))
    (base_inner_reader.py:95) *)
Definition cycle_path (rnd : str) (dataset : str) (d : moment) : result str :=
  let* p := build_path rnd dataset d in Ok (pp_str (pp_parse p)).
