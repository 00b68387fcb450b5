(** What the dictionary of an XML element holds. *)
From Verif.Base Require Import Py Value.
From Verif.Model Require Import Decoders.

(** a name of an element begins with neither [@] nor [#] *)
Definition element_name (k : str) : Prop :=
  (forall s, k <> "@"%char :: s) /\ (forall s, k <> "#"%char :: s).
(** one value, or the list of several *)
Definition one_or_list (vs : list value) : option value :=
  match vs with [] => None | [v] => Some v | _ => Some (VList vs) end.
(** the children of a name, in the order of the document *)
Definition children_named (k : str) (children : list element) : list element :=
  filter (fun c => if list_eq_dec ascii_dec (tag_of c) k then true else false) children.
(** neither the element nor any below it is in a namespace *)
Inductive no_namespace : element -> Prop :=
| no_namespace_intro tag attrib text children :
    (forall s, tag <> "{"%char :: s) -> (forall s, tag <> "@"%char :: "{"%char :: s) ->
    (forall k v s, In (k, v) attrib -> k <> "{"%char :: s) ->
    (forall c, In c children -> no_namespace c) -> no_namespace (Element tag attrib text children).
(** the text of an element without white space around it, if any is left *)
Definition text_value (text : option str) : option value :=
  match text with
  | None => None
  | Some s => match strip s with [] => None | s' => Some (VStr s') end
  end.
