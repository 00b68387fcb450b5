(** Model of mabel/data/readers/internals/base_inner_reader.py (blob selection) and of
    mabel/utils/text.py:sanitize. *)
From Verif.Base Require Import Py.

Definition slash : ascii := "/"%char.

(** text.py:5,15-16: keep ASCII letters, digits and whitespace *)
Definition valid_character (c : ascii) : bool := is_alpha c || is_digit c || is_space c.
Definition sanitize (s : str) : str := filter valid_character s.

(** base_inner_reader.py:21-26 *)
Fixpoint first_starting (p : str) (parts : list str) : option str :=
  match parts with
  | [] => None
  | x :: xs => if startswith p x then Some x else first_starting p xs
  end.
Definition extract_as_at (path : str) : str :=
  match first_starting $"as_at_" (split slash path) with Some x => x | None => [] end.
(** base_inner_reader.py:28-32; None when no part starts with by_ *)
Definition extract_by (path : str) : option str := first_starting $"by_" (split slash path).

(** base_inner_reader.py:155-160: the element after the first occurrence, None on any exception *)
Fixpoint safe_get_next (l : list str) (item : str) : option str :=
  match l with
  | [] => None
  | x :: l' => if str_eqb x item then nth_error l' 0 else safe_get_next l' item
  end.

(** f"{x}" for an optional text *)
Definition fmt (o : option str) : str := match o with Some s => s | None => $"None" end.

(** base_inner_reader.py:186-191 *)
Definition is_complete (as_at : str) (blobs : list str) : bool :=
  existsb (contains (as_at ++ $"/frame.complete")) blobs.
Definition is_invalid (as_at : str) (blobs : list str) : bool :=
  existsb (contains (as_at ++ $"/frame.ignore")) blobs.

(** base_inner_reader.py:193-206; [stack] is the sorted list with its end (what .pop() takes) first *)
Fixpoint frame_loop (blobs : list str) (as_at : str) (stack : list str) : option str :=
  if negb (is_complete as_at blobs) || is_invalid as_at blobs then
    match stack with
    | top :: rest => frame_loop blobs top rest
    | [] => None
    end
  else Some as_at.

(** base_inner_reader.py:178-218: the blobs of one sub-folder that are kept *)
Definition select_frame (partitioned_blobs : list str) : list str :=
  let as_ats := dedup str_eqb (map extract_as_at (filter (contains $"as_at_") partitioned_blobs)) in
  match rev (sorted_str as_ats) with
  | [] => partitioned_blobs
  | as_at :: stack =>
      match frame_loop partitioned_blobs as_at stack with
      | None => []
      | Some as_at =>
          filter (fun blob => contains as_at blob && negb (contains $"/frame.complete" blob))
                 partitioned_blobs
      end
  end.

(** set of the by_ partitionings found (base_inner_reader.py:107-109).  [extract_by] is never None
    here (Proofs/Frames.v: extract_by_some), so dropping None changes nothing. *)
Definition partitions_of (cycle_blobs : list str) : list str :=
  dedup str_eqb (flat_map (fun b => match extract_by b with Some x => [x] | None => [] end)
                          (filter (contains $"/by_") cycle_blobs)).

(** base_inner_reader.py:115-142: the search hint; gives the blobs and partitionings left *)
Definition apply_partition_filter (pf : option (str * str * str))
           (cycle_blobs parts : list str) : result (list str * list str) :=
  match pf with
  | None => Ok (cycle_blobs, parts)
  | Some (field, op, value) =>
      if negb (str_mem op [$"="; $"=="]) then Raise NotImplementedError
      else
        let field := sanitize field in
        let value := sanitize value in
        let pat := $"/by_" ++ field ++ $"/" ++ field ++ $"=" ++ value ++ $"/" in
        if existsb (contains ($"by_" ++ field)) parts
        then Ok (filter (contains pat) cycle_blobs, [$"by_" ++ field])
        else Ok (cycle_blobs, parts)
  end.

(** base_inner_reader.py:144-153: the greatest name is taken ([sorted(...).pop()]) *)
Definition choose_partition (cycle_blobs parts : list str) : str * list str :=
  match rev (sorted_str parts) with
  | [] => ([], cycle_blobs)
  | chosen :: _ => (chosen, filter (contains ($"/" ++ chosen ++ $"/")) cycle_blobs)
  end.

(** base_inner_reader.py:164-169; Python iterates a set, in an order which cannot matter because
    the collected list is sorted at the end *)
Definition partitioned_folders (chosen : str) (cycle_blobs : list str) : list str :=
  match chosen with
  | [] => [[]]
  | _ => dedup str_eqb (map (fun b => fmt (safe_get_next (split slash b) chosen)) cycle_blobs)
  end.

(** base_inner_reader.py:171-220 *)
Definition read_folders (chosen : str) (cycle_blobs : list str) : list str :=
  flat_map (fun folder =>
              select_frame (filter (contains (chosen ++ $"/" ++ folder)) cycle_blobs))
           (partitioned_folders chosen cycle_blobs).

(** one dated folder: base_inner_reader.py:99-220.  [listing] is what get_blobs_at_path returns. *)
Definition cycle_blobs_of (pf : option (str * str * str)) (listing : list str) : result (list str) :=
  let cycle_blobs := filter (fun b => negb (contains $"BACKOUT" b)) listing in
  let* (cycle_blobs, parts) := apply_partition_filter pf cycle_blobs (partitions_of cycle_blobs) in
  let (chosen, cycle_blobs) := choose_partition cycle_blobs parts in
  Ok (read_folders chosen cycle_blobs).

(** base_inner_reader.py:89-222.  [paths] is the sequence of cycle paths (build_path of each date,
    normalised by pathlib, see Model/Paths.v and Model/Dates.v); [store] lists one path. *)
Definition get_list_of_blobs (pf : option (str * str * str)) (store : str -> list str)
           (paths : list str) : result (list str) :=
  let* found := mapM (fun p => cycle_blobs_of pf (store p)) (dedup str_eqb paths) in
  Ok (sorted_str (concat found)).
