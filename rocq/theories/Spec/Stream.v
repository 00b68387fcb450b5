(** What the users of a stream writer rely on. *)
From Coq Require Import Permutation.
From Verif.Base Require Import Py.
From Verif.Model Require Import Paths Frames Writers Stream.
From Verif.Spec Require Import Paths Writers.

(** ** Templates: literal text, date placeholders and record fields *)
Inductive piece := Date (g : seg) | Field (name : str).
Definition piece_text (p : piece) : str :=
  match p with Date g => seg_text g | Field n => $"{" ++ n ++ $"}" end.
Definition stream_template (ps : list piece) : str := concat (map piece_text ps).
(** literals and field names have no braces, field names no line break, and no field is named like
    a date placeholder *)
Definition pieces_ok (ps : list piece) : Prop :=
  (forall s, In (Date (Lit s)) ps -> no_braces s) /\
  (forall n, In (Field n) ps -> no_braces n /\ ~ In "010"%char n /\
     ~ In n [$"yyyy"; $"mm"; $"dd"; $"HH"; $"MM"; $"SS"]).
(** the partition of a record whose fields are [value] *)
Definition piece_value (d : moment) (value : str -> str) (p : piece) : str :=
  match p with Date g => seg_value d g | Field n => value n end.
Definition partition_of (ps : list piece) (d : moment) (value : str -> str) : str :=
  concat (map (piece_value d value) ps).

(** the value a combination gives a field *)
Fixpoint chosen {V} (names : list str) (c : list V) (n : str) : option V :=
  match names, c with
  | m :: names', v :: c' => if str_eqb m n then Some v else chosen names' c' n
  | _, _ => None
  end.

(** a path all of whose components are more than dots *)
Definition solid (path : str) : Prop :=
  forall w, In w (split "/"%char path) -> exists c, In c w /\ c <> "."%char.

(** a template of two or more components, none of which depends on a field alone, without dots *)
Definition proper_template (ps : list piece) : Prop :=
  pieces_ok ps /\ (forall s, In (Date (Lit s)) ps -> ~ In "."%char s) /\
  forall now, solid (partition_of ps now (fun _ => [])) /\
              (2 <= length (components_of (partition_of ps now (fun _ => []))))%nat.

Section Stream.
  Context {R V : Type} (M : streaming R V).

  (** a set lists its elements once each, in some order *)
  Definition sets_ok : Prop :=
    (forall l, NoDup (m_names M l) /\ forall x, In x (m_names M l) <-> In x l) /\
    (forall l, NoDup (m_tuples M l) /\ forall x, In x (m_tuples M l) <-> In x l).

  (** storage and encoders that do not fail *)
  Definition reliable (E : setting R) : Prop :=
    (forall n, s_fails E n = None) /\ (forall g, exists d, s_parquet E g = Ok d).

  (** the records accepted for the partition [id], in order *)
  Fixpoint sent (es : list event) (os : list (result nat)) (id : str) : list R :=
    match es, os with
    | SAppend r now :: es', Ok _ :: os' =>
        map (fun _ => r) (filter (str_eqb id) (targets M r now)) ++ sent es' os' id
    | _ :: es', _ :: os' => sent es' os' id
    | _, _ => []
    end.

  (** [blobs] says of every stored blob to which partition it belongs and which records it holds *)
  Definition contents (blobs : list (str * list R)) (log : list (str * str)) : Prop :=
    Forall2 (fun b put =>
      let E := m_writer M (fst b) in
      holds E (snd b) (snd put) /\
      exists t, fst put = blob_name (s_filename E) (s_node E) t) blobs log.
  Definition stored_for (id : str) (blobs : list (str * list R)) : list R :=
    concat (map snd (filter (fun b => str_eqb id (fst b)) blobs)).
End Stream.
