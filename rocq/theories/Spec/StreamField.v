(** Streams partitioned by a field of their records, and readers which ask for a value of it. *)
From Verif.Base Require Import Py Value.
From Verif.Model Require Import Storage Paths Frames Writers Stream.
From Verif.Spec Require Import Paths Dates Writers Stream Reader StreamRead.

(** what a folder name has of a text: its letters, digits and white space *)
Definition kept_text (s : str) : str := filter (fun c => is_alpha c || is_digit c || is_space c) s.
(** names of fields which lose nothing in a folder name, are no dates, and don't look like dead letters *)
Definition field_name (F : str) : Prop :=
  kept_text F = F /\ ~ In "010"%char F /\ ~ In F [$"yyyy"; $"mm"; $"dd"; $"HH"; $"MM"; $"SS"] /\ contains $"BACKOUT" F = false.
(** the folders of a day, and in each of them by the values of the field: /by_F/F={F} *)
Definition field_template (t : list seg) (F : str) : list piece :=
  map Date t ++ [Date (Lit ($"/by_" ++ F ++ $"/" ++ F ++ $"=")); Field F].

Section Records.
  Context {R V : Type} (M : streaming R V) (F : str).
  (** the field of the record, or a member of its list, has the text *)
  Definition has_text (text : str) (r : R) : bool :=
    existsb (fun v => str_eqb (kept_text (m_show M v)) text) (m_get M r F).
  (** the members of the field's list differ in what folder names have of them; a field without a list always does *)
  Definition texts_differ (r : R) : Prop :=
    forall v w, In v (m_get M r F) -> In w (m_get M r F) -> kept_text (m_show M v) = kept_text (m_show M w) -> v = w.
  (** so many different members of the field's list have the text *)
  Definition members_with (text : str) (r : R) (n : nat) : Prop :=
    exists vs, NoDup vs /\ (forall v, In v vs <-> In v (m_get M r F) /\ kept_text (m_show M v) = text) /\ length vs = n.
  (** the records of a day which have the text, each as often as [times] says *)
  Definition day_copies (times : str -> R -> nat) (date : Z * Z * Z) (es : list event) (os : list (result nat)) (text : str) : list R :=
    flat_map (fun r => repeat r (times text r)) (accepted_on M (on_day date) es os).
End Records.
