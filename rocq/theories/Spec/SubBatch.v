(** Batches for a part of a day: folders by_<field>/<field>=<value> in the folder of the day. *)
From Verif.Base Require Import Py.
From Verif.Spec Require Import Paths Frames.

(** the two folders of a part *)
Definition part (field value : str) : str * str := ($"by_" ++ field, field ++ $"=" ++ value).
Definition part_path (field value : str) : str := $"by_" ++ field ++ $"/" ++ field ++ $"=" ++ value.
(** letters, digits and white space *)
Definition kept_whole (v : str) : Prop := forall c, In c v -> is_alpha c || is_digit c || is_space c = true.

(** what is in the folder of a day before a batch for the part [value] is written to the frame [frame]: all live blobs are
    in frames of parts by the same field, the values are of one length, and the frames of the part are older *)
Definition parts_before (present : entry -> Prop) (field value frame : str) : Prop :=
  forall e, present e -> exists v f,
    e_by e = Some (part field v) /\ kept_whole v /\ length v = length value /\
    e_frame e = Some f /\ length f = length frame /\ (v = value -> str_ltb f frame = true).

(** partitions which name a part: <field>= and fields of the date *)
Definition names_part (field : str) (sub : list seg) : list (list seg) := [[Lit ($"by_" ++ field)]; Lit (field ++ $"=") :: sub].
Definition date_fields (sub : list seg) : Prop := sub <> [] /\ forall s, ~ In (Lit s) sub.
