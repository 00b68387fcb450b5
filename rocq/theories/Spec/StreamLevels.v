(** Streams whose template has fields of the record in the names of folders, and readers of the folders of given values. *)
From Verif.Base Require Import Py Value.
From Verif.Model Require Import Storage Paths Frames Writers Stream.
From Verif.Spec Require Import Paths Dates Writers Stream Reader StreamRead StreamField.

(** the name of a folder of a template: literal text and dates, or a field of the record with literal text around it *)
Inductive level := Dated (t : list seg) | Valued (before field after : str).
Fixpoint between {A} (sep : A) (ls : list (list A)) : list A :=
  match ls with [] => [] | [x] => x | x :: r => x ++ sep :: between sep r end.
(** the template of the writer: the folders with slashes between them, fields in braces *)
Definition level_pieces (l : level) : list piece :=
  match l with Dated t => map Date t | Valued b F a => [Date (Lit b); Field F; Date (Lit a)] end.
Definition levels_template (ls : list level) : list piece := between (Date (Lit $"/")) (map level_pieces ls).
(** the template of a reader of given values: the values in the places of the fields *)
Definition level_segs (values : str -> str) (l : level) : list seg :=
  match l with Dated t => t | Valued b F a => [Lit b; Lit (values F); Lit a] end.
Definition levels_of (values : str -> str) (ls : list level) : list seg := between (Lit $"/") (map (level_segs values) ls).
Definition level_fields (ls : list level) : list str := flat_map (fun l => match l with Dated _ => [] | Valued _ F _ => [F] end) ls.

(** literal text without braces, dots and slashes; every folder has a name; no field is named like a date *)
Definition folder_text (s : str) : Prop := no_braces s /\ ~ In "."%char s /\ ~ In "/"%char s.
Definition level_ok (l : level) : Prop :=
  match l with
  | Dated t => (forall s, In (Lit s) t -> folder_text s) /\ exists g, In g t /\ g <> Lit []
  | Valued b F a => folder_text b /\ folder_text a /\
      no_braces F /\ ~ In "010"%char F /\ ~ In F [$"yyyy"; $"mm"; $"dd"; $"HH"; $"MM"; $"SS"]
  end.
Definition levels_ok (ls : list level) : Prop := Forall level_ok ls /\ (2 <= length ls)%nat.

(** texts a folder can be named after *)
Definition values_ok (ls : list level) (values : str -> str) : Prop :=
  forall F, In F (level_fields ls) -> kept_text (values F) = values F /\ values F <> [].

Section Records.
  Context {R V : Type} (M : streaming R V) (ls : list level).
  (** every field of the record, or a member of its list, has the text given for it *)
  Definition has_texts (values : str -> str) (r : R) : bool :=
    forallb (fun F => has_text M F (values F) r) (level_fields ls).
  (** every field is there to name a folder by: some letter, digit or space of each of its members is kept, and members of a list differ in them *)
  Definition names_folders (r : R) : Prop :=
    forall F, In F (level_fields ls) -> texts_differ M F r /\ forall v, In v (m_get M r F) -> kept_text (m_show M v) <> [].
End Records.

(** what remains of a writer's records of a day which are wanted: all, or the first ones *)
Definition remains_of {V} (M : streaming value V) (wanted : value -> bool) (x : session) (date : Z * Z * Z) (kept : list value) : Prop :=
  match x with
  | Finished es os => kept = filter wanted (accepted_on M (on_day date) es os)
  | Killed es os => exists lost, kept ++ lost = filter wanted (accepted_on M (on_day date) es os)
  end.
