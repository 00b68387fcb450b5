(** XML documents with namespaces: ElementTree writes the name [n] of the namespace [ns] as [{ns}n]. *)
From Verif.Base Require Import Py Value.
From Verif.Model Require Import Decoders.   (* element *)

(** a name without its namespace *)
Definition bare (n : str) : Prop := forall c r, n = c :: r -> ~ In c ["{"%char; "@"%char; "#"%char].
Inductive local : str -> str -> Prop :=
| local_bare n : bare n -> local n n
| local_qualified ns n : ~ In "}"%char ns -> bare n -> local ("{"%char :: ns ++ "}"%char :: n) n.

(** [u] is the document [t] without its namespaces.  At no place of the document do different names become the same *)
Inductive without_namespaces : element -> element -> Prop :=
| without_intro tag tag' attrib attrib' text children children' :
    local tag tag' ->
    Forall2 (fun a a' => local (fst a) (fst a') /\ snd a = snd a') attrib attrib' ->
    NoDup (map fst attrib') ->
    Forall2 without_namespaces children children' ->
    (forall c1 c2 n, In c1 children -> In c2 children -> local (tag_of c1) n -> local (tag_of c2) n ->
       tag_of c1 = tag_of c2) ->
    without_namespaces (Element tag attrib text children) (Element tag' attrib' text children').

(** values which differ at most in the order of the keys of dictionaries *)
Inductive same_value : value -> value -> Prop :=
| same_plain v : same_value v v
| same_list l l' : Forall2 same_value l l' -> same_value (VList l) (VList l')
| same_dict d d' : NoDup (map fst d) -> NoDup (map fst d') ->
    (forall k v, In (k, v) d -> exists v', In (k, v') d' /\ same_value v v') ->
    (forall k v', In (k, v') d' -> In k (map fst d)) -> same_value (VDict d) (VDict d').
