(** What a dated folder holds, and what a reader should be served from it.  Independent of the
    model: entries are structured, their blob name is obtained by writing out the path. *)
From Coq Require Import Sorted.
From Verif.Base Require Import Py.

(** a blob below a dated folder: optionally below by_<field>/<field>=<value>, optionally below a
    frame as_at_<stamp>, and then the file name *)
Record entry := mkEntry {
  e_by : option (str * str);     (* ("by_hour", "hour=01") *)
  e_frame : option str;          (* "as_at_20240101-120000" *)
  e_file : str }.

Definition local_parts (e : entry) : list str :=
  (match e_by e with Some (b, f) => [b; f] | None => [] end) ++
  (match e_frame e with Some f => [f] | None => [] end) ++ [e_file e].
(** the name of the blob of entry [e] of folder [root] *)
Definition name_in (root : str) (e : entry) : str := root ++ $"/" ++ join $"/" (local_parts e).

(** dead letters are not considered at all *)
Definition live (root : str) (es : list entry) (e : entry) : Prop :=
  In e es /\ contains $"BACKOUT" (name_in root e) = false.

Section Folder.
  Variable present : entry -> Prop.  (* the live entries of a folder *)

  (** [k] is a part of the folder that is read: the folder itself when nothing is partitioned,
      else every sub-folder of the partitioning with the greatest name *)
  Definition readable_part (k : option (str * str)) : Prop :=
    match k with
    | None => forall e, present e -> e_by e = None
    | Some (b, _) => forall e b' f', present e -> e_by e = Some (b', f') -> str_leb b' b = true
    end.

  Definition has_file (k : option (str * str)) (frame file : str) : Prop :=
    present (mkEntry k (Some frame) file).
  (** complete and not withdrawn *)
  Definition good_frame k f : Prop :=
    has_file k f $"frame.complete" /\ ~ has_file k f $"frame.ignore".
  Definition newest_good_frame k f : Prop :=
    good_frame k f /\ forall f', good_frame k f' -> str_leb f' f = true.
  Definition has_frames k : Prop := exists e f, present e /\ e_by e = k /\ e_frame e = Some f.

  (** the entries a reader gets *)
  Definition served (e : entry) : Prop :=
    present e /\ readable_part (e_by e) /\
    (has_frames (e_by e) ->
       exists f, e_frame e = Some f /\ newest_good_frame (e_by e) f /\ e_file e <> $"frame.complete").
End Folder.

(** ** Names as mabel writes them *)
Definition part_ok (s : str) : Prop := ~ In "/"%char s.
(** [c] cannot be mistaken for one of the partitionings in use *)
Definition not_a_by (present : entry -> Prop) (c : str) : Prop :=
  startswith $"by_" c = false /\
  forall e b f, present e -> e_by e = Some (b, f) -> endswith b c = false.

Record tidy (root : str) (present : entry -> Prop) : Prop := {
  t_root : forall c, In c (split "/"%char root) ->
             not_a_by present c /\ contains $"as_at_" c = false /\
             startswith $"frame.complete" c = false;
  t_by : forall e b f, present e -> e_by e = Some (b, f) ->
             part_ok b /\ startswith $"by_" b = true /\ contains $"as_at_" b = false /\
             part_ok f /\ not_a_by present f /\ contains $"as_at_" f = false /\
             startswith $"frame.complete" f = false;
  t_frame : forall e f, present e -> e_frame e = Some f ->
             part_ok f /\ startswith $"as_at_" f = true /\ not_a_by present f;
  t_same_width : forall e e' f f', present e -> present e' ->
             e_frame e = Some f -> e_frame e' = Some f' -> length f = length f';
  t_file : forall e, present e ->
             part_ok (e_file e) /\ startswith $"by_" (e_file e) = false /\
             contains $"as_at_" (e_file e) = false /\
             (startswith $"frame.complete" (e_file e) = true -> e_file e = $"frame.complete") /\
             (startswith $"frame.ignore" (e_file e) = true -> e_file e = $"frame.ignore") }.

(** no sub-folder name is the beginning of another one *)
Definition no_prefixes (present : entry -> Prop) : Prop :=
  forall e e' b f f', present e -> present e' ->
    e_by e = Some (b, f) -> e_by e' = Some (b, f') -> startswith f f' = true -> f = f'.

(** [out] lists each served blob once, ascending *)
Definition lists_exactly (root : str) (present : entry -> Prop) (out : list str) : Prop :=
  StronglySorted (fun a b => str_leb a b = true) out /\ NoDup out /\
  forall b, In b out <-> exists e, served present e /\ b = name_in root e.
