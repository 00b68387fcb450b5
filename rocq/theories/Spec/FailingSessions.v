(** Stream writers one after the other, with storage that fails now and then. *)
From Coq Require Import Permutation.
From Verif.Base Require Import Py Value.
From Verif.Model Require Import Storage Paths Frames Writers Stream Collector.
From Verif.Spec Require Import Paths Writers Stream Reader StreamRead Collector.

(** A stream writer, what it was asked to do and what it answered.  It was finalized, the writers of its partitions which
    could not store what they held were collected, and these second attempts succeeded; or it was killed, or left without
    a finalize, or what it could not store was never stored. *)
Inductive spell :=
| Complete (es : list (cevent (R:=value))) (ns : list nat) (os : list (result nat))
| Broken (es : list (cevent (R:=value))) (os : list (result nat)).
Definition history_of (x : spell) : list cevent :=
  match x with Complete es ns _ => es ++ Event SFinalize :: map Collect ns | Broken es _ => es end.
Definition answers_of (x : spell) : list (result nat) := match x with Complete _ _ os | Broken _ os => os end.

(** Each starts with an empty pool on the storage the ones before left, whatever the time.  One that was killed was
    killed before or after any blob was stored: of what would have been stored after nothing is there. *)
Inductive spells_ran {V} (M : streaming value V) : world -> list spell -> world -> Prop :=
| no_spell w : spells_ran M w [] w
| complete_spell w k es ns os c xs w' :
    crun M (mkC (mkSState [] w k) []) (es ++ Event SFinalize :: map Collect ns) = (os, c) ->
    c_dropped c = [] -> destructors_succeed (es ++ Event SFinalize :: map Collect ns) os ->
    spells_ran M (world_of (c_stream c)) xs w' ->
    spells_ran M w (Complete es ns os :: xs) w'
| broken_spell w k es os c n xs w' :
    crun M (mkC (mkSState [] w k) []) es = (os, c) -> (length (puts w) <= n)%nat ->
    spells_ran M (mkWorld (attempts (world_of (c_stream c))) (firstn n (puts (world_of (c_stream c))))) xs w' ->
    spells_ran M w (Broken es os :: xs) w'.

(** what is left of the records appended at the moments asked for: all of those whose append returned and possibly some of the
    others, or at least no more than were appended *)
Definition spell_kept {V} (M : streaming value V) (asked : moment -> bool) (x : spell) (kept : list value) : Prop :=
  let returned := returned_on M asked (history_of x) (answers_of x) in
  let raised := raised_on M asked (history_of x) (answers_of x) in
  match x with
  | Complete _ _ _ => exists some rest, Permutation kept (returned ++ some) /\ Permutation (some ++ rest) raised
  | Broken _ _ => exists rest, Permutation (kept ++ rest) (returned ++ raised)
  end.
