(** * C109: cursors resumed after more blobs were stored *)
From Verif.Base Require Import Py.
From Verif.Model Require Import Cursor.
From Verif.Spec Require Import Cursor.
From Verif.Proofs Require CursorGrowth CursorExample.

(** Read k records, keep the cursor as a dictionary or as text; then more blobs are stored, with names after those there
    were, and few enough for the last byte of the map (which has one bit for each blob, in full bytes).  The resumed read
    delivers exactly the rest, and then the records of the new blobs.  [hash], [dumps], [loads] and [contents] as in C01.
    Missing: more blobs than that (an exception, below) and names before others (refuted below). *)
Theorem cursor_resumed_over_more_blobs_partial :
  forall (R : Type) (hash : str -> Z) (dumps : cdict -> str) (loads : str -> result cdict)
         (contents : str -> list R) (blobs : list str),
    (forall d, loads (dumps d) = Ok d) -> (forall d, dumps d <> []) ->
    forall news : list str,
    ~ In [] (blobs ++ news) -> NoDup (blobs ++ news) ->
    (forall a b, In a ([] :: blobs ++ news) -> In b ([] :: blobs ++ news) -> hash a = hash b -> a = b) ->
    (forall old new, In old blobs -> In new news -> str_ltb old new = true) ->
    length (blobs ++ news) <= 8 * ((length blobs + 7) / 8) ->
    forall (out more : list R) (k : nat) (t : transport),
    full_read contents blobs out -> full_read contents news more -> t <> KeepObject ->
    exists s, session hash loads contents blobs NoCursor k = Ok (firstn k out, s) /\
      forall j, exists s',
        session hash loads contents (blobs ++ news) (keep hash dumps t s) j = Ok (firstn j (skipn k out ++ more), s').
Proof. exact @CursorGrowth.resume_more. Qed.
Print Assumptions cursor_resumed_over_more_blobs_partial.

(** Finding: with more blobs, whatever they are, than fill the last byte of the map, a started read cannot be resumed. *)
Theorem cursor_over_too_many_blobs_raises :
  forall (R : Type) (hash : str -> Z) (dumps : cdict -> str) (loads : str -> result cdict)
         (contents : str -> list R) (blobs : list str),
    (forall d, loads (dumps d) = Ok d) -> (forall d, dumps d <> []) ->
    forall (out : list R) (k : nat) (t : transport) (all : list str),
    ~ In [] blobs -> full_read contents blobs out -> t <> KeepObject ->
    8 * ((length blobs + 7) / 8) < length all ->
    exists s, session hash loads contents blobs NoCursor (S k) = Ok (firstn (S k) out, s) /\
      forall j, session hash loads contents all (keep hash dumps t s) (S j) = Raise IndexError.
Proof. exact @CursorGrowth.too_many. Qed.
Print Assumptions cursor_over_too_many_blobs_raises.

(** Finding: a cursor kept as an object has its own list of blobs; the resumed read delivers the rest of those, whatever
    blobs there are now, and nothing of new ones. *)
Theorem cursor_object_ignores_new_blobs :
  forall (R : Type) (hash : str -> Z) (dumps : cdict -> str) (loads : str -> result cdict)
         (contents : str -> list R) (blobs : list str) (out : list R) (k : nat) (all : list str),
    ~ In [] blobs -> full_read contents blobs out ->
    exists s, session hash loads contents blobs NoCursor (S k) = Ok (firstn (S k) out, s) /\
      forall j, exists s',
        session hash loads contents all (keep hash dumps KeepObject s) j = Ok (firstn j (skipn (S k) out), s').
Proof. exact @CursorGrowth.object_more. Qed.
Print Assumptions cursor_object_ignores_new_blobs.

(** ** Concrete cases *)
Section Example.
  Import CursorExample.
  Definition gr_contents (b : str) : list nat :=
    if str_eqb b $"a" then [0] else if str_eqb b $"b" then [1] else if str_eqb b $"c" then [2; 3] else [4].

  (** Finding: a new blob with a name before the others moves the bits of the map: its record is never delivered, and one
      that was delivered comes again. *)
  Theorem cursor_resumed_over_earlier_blob_refuted :
    exists (blobs : list str) (new : str) (out : list nat) (k : nat) (s : saved),
      NoDup (new :: blobs) /\ full_read gr_contents blobs out /\ (forall a b, ex_hash a = ex_hash b -> a = b) /\
      session ex_hash ex_loads gr_contents blobs NoCursor k = Ok ([1; 2], s) /\ firstn k out = [1; 2] /\ gr_contents new = [0] /\
      exists s', session ex_hash ex_loads gr_contents (new :: blobs) (keep ex_hash ex_dumps KeepDict s) 9 = Ok ([3; 1], s').
  Proof.
    exists [$"b"; $"c"], $"a", [1; 2; 3], 2, (AsObject (mkCursor [$"b"; $"c"] [$"b"] $"c" 0)).
    split; [repeat constructor; cbn; intuition discriminate|]. split.
    { exists [$"b"; $"c"]. split; [|reflexivity]. split; [repeat constructor|cbn; tauto]. }
    split; [exact ex_hash_inj|]. split; [vm_compute; reflexivity|]. split; [reflexivity|]. split; [reflexivity|].
    eexists. vm_compute. reflexivity.
  Qed.
  Print Assumptions cursor_resumed_over_earlier_blob_refuted.

  Example ex_hypotheses :
    ~ In [] ([$"b"; $"c"] ++ [$"d"]) /\ NoDup ([$"b"; $"c"] ++ [$"d"]) /\
    (forall old new, In old [$"b"; $"c"] -> In new [$"d"] -> str_ltb old new = true) /\
    length ([$"b"; $"c"] ++ [$"d"]) <= 8 * ((length [$"b"; $"c"] + 7) / 8) /\
    (forall d, ex_loads (ex_dumps d) = Ok d) /\ (forall d, ex_dumps d <> []) /\
    full_read gr_contents [$"b"; $"c"] [1; 2; 3] /\ full_read gr_contents [$"d"] [4].
  Proof.
    split; [cbn; intuition discriminate|]. split; [repeat constructor; cbn; intuition discriminate|].
    split; [intros old new [<-|[<-|[]]] [<-|[]]; reflexivity|]. split; [vm_compute; repeat constructor|].
    split; [exact ex_codec|]. split; [exact ex_dumps_nonempty|]. split.
    - exists [$"b"; $"c"]. split; [|reflexivity]. split; [repeat constructor|cbn; tauto].
    - exists [$"d"]. split; [|reflexivity]. split; [repeat constructor|cbn; tauto].
  Qed.
  Definition gr_run (t : transport) (k : nat) (all : list str) : result (list nat * list nat) :=
    let* (xs, s) := session ex_hash ex_loads gr_contents [$"b"; $"c"] NoCursor k in
    let* (ys, _) := session ex_hash ex_loads gr_contents all (keep ex_hash ex_dumps t s) 9 in
    Ok (xs, ys).
  (** in the middle of a blob, and after the end *)
  Example ex_run : gr_run KeepDict 2 [$"b"; $"c"; $"d"] = Ok ([1; 2], [3; 4]) /\ gr_run KeepText 9 [$"b"; $"c"; $"d"] = Ok ([1; 2; 3], [4]) /\
                   gr_run KeepObject 2 [$"b"; $"c"; $"d"] = Ok ([1; 2], [3]).
  Proof. repeat split; vm_compute; reflexivity. Qed.
  (** two blobs have one byte; nine blobs do not fit *)
  Example ex_too_many : gr_run KeepDict 2 [$"b"; $"c"; $"d"; $"e"; $"f"; $"g"; $"h"; $"i"; $"j"] = Raise IndexError /\
                        8 * ((length [$"b"; $"c"] + 7) / 8) < 9.
  Proof. split; vm_compute; [reflexivity|repeat constructor]. Qed.
End Example.
