(** C01-C04: cursors and the serial read. *)
From Verif.Base Require Import Py.
From Verif.Model Require Import Cursor.
From Verif.Spec Require Import Cursor.
From Verif.Proofs Require Cursor CursorExample.

(** C01.  Read k records, keep the cursor in any of the three ways, resume: the resumed read
    delivers exactly the rest.  [hash] is xxh3_64 (assumed free of collisions on the names at
    hand), [dumps]/[loads] the JSON codec (assumed to round-trip), [contents b] whatever the
    pipeline yields for blob b. *)
Theorem cursor_resume_exact :
  forall (R : Type) (hash : str -> Z) (dumps : cdict -> str) (loads : str -> result cdict)
         (contents : str -> list R) (blobs : list str),
    ~ In [] blobs -> NoDup blobs ->
    (forall a b, In a ([] :: blobs) -> In b ([] :: blobs) -> hash a = hash b -> a = b) ->
    (forall d, loads (dumps d) = Ok d) -> (forall d, dumps d <> []) ->
    forall (out : list R) (k : nat) (t : transport), full_read contents blobs out ->
    exists s, session hash loads contents blobs NoCursor k = Ok (firstn k out, s) /\
      forall j, exists s',
        session hash loads contents blobs (keep hash dumps t s) j = Ok (firstn j (skipn k out), s').
Proof. exact @Cursor.resume. Qed.
Print Assumptions cursor_resume_exact.

(** the uninterrupted read exists and is unique, so the theorem above is about one definite list *)
Theorem full_read_well_defined :
  forall (R : Type) (contents : str -> list R) (blobs : list str),
    (exists out, full_read contents blobs out) /\
    (forall o1 o2, full_read contents blobs o1 -> full_read contents blobs o2 -> o1 = o2).
Proof. exact (fun R c b => conj (Cursor.full_read_exists c b) (Cursor.full_read_unique c b)). Qed.
Print Assumptions full_read_well_defined.

(** C02.  Any number of sessions of any lengths, each kept in any way. *)
Theorem cursor_many_sessions :
  forall (R : Type) (hash : str -> Z) (dumps : cdict -> str) (loads : str -> result cdict)
         (contents : str -> list R) (blobs : list str),
    ~ In [] blobs -> NoDup blobs ->
    (forall a b, In a ([] :: blobs) -> In b ([] :: blobs) -> hash a = hash b -> a = b) ->
    (forall d, loads (dumps d) = Ok d) -> (forall d, dumps d <> []) ->
    forall (out : list R) (plan : list (nat * transport)), full_read contents blobs out ->
    exists s, sessions hash dumps loads contents blobs NoCursor plan
              = Ok (firstn (list_sum (map fst plan)) out, s).
Proof. exact @Cursor.many_sessions. Qed.
Print Assumptions cursor_many_sessions.

(** Any hand-made cursor: blobs [rd] marked as read, positioned in blob [b] at record [loc]:
    the read continues after that record and then covers the other unmarked blobs. *)
Theorem cursor_meaning :
  forall (R : Type) (hash : str -> Z) (loads : str -> result cdict)
         (contents : str -> list R) (blobs : list str),
    ~ In [] blobs -> NoDup blobs ->
    (forall a b, In a ([] :: blobs) -> In b ([] :: blobs) -> hash a = hash b -> a = b) ->
    forall (rd : list str) (b : str) (loc : Z) (out : list R) (k : nat),
    In b blobs -> (0 <= loc)%Z ->
    full_read contents (filter (fun x => negb (str_mem x (rd ++ [b]))) blobs) out ->
    exists s, session hash loads contents blobs
      (AsDict [($"map", CStr (cursor_map (mkCursor (sorted_str blobs) rd [] (-1))));
               ($"partition", CInt (hash b)); ($"location", CInt loc)]) k
      = Ok (firstn k (skipn (Z.to_nat (loc + 1)) (contents b) ++ out), s).
Proof. exact @Cursor.dict_meaning. Qed.
Print Assumptions cursor_meaning.

(** ... and when the blob it is positioned in is gone, the read covers the unmarked blobs. *)
Theorem cursor_partition_gone :
  forall (R : Type) (hash : str -> Z) (loads : str -> result cdict)
         (contents : str -> list R) (blobs : list str),
    ~ In [] blobs ->
    forall (rd : list str) (h loc : Z) (out : list R) (k : nat),
    (forall b, In b blobs -> hash b <> h) ->
    full_read contents (filter (fun x => negb (str_mem x rd)) blobs) out ->
    exists s, session hash loads contents blobs
      (AsDict [($"map", CStr (cursor_map (mkCursor (sorted_str blobs) rd [] (-1))));
               ($"partition", CInt h); ($"location", CInt loc)]) k
      = Ok (firstn k out, s).
Proof. exact @Cursor.dict_gone. Qed.
Print Assumptions cursor_partition_gone.

(** Finding: if the blob the cursor is in is listed more than once (MinIO does so, see Props/Adapters.v), the position in
    it is lost: the read starts with the first record of the first blob not marked as read. *)
Theorem cursor_partition_listed_twice :
  forall (R : Type) (hash : str -> Z) (loads : str -> result cdict)
         (contents : str -> list R) (blobs : list str),
    ~ In [] blobs ->
    forall (rd : list str) (b : str) (l1 l2 l3 : list str) (loc : Z) (out : list R) (k : nat),
    blobs = l1 ++ b :: l2 ++ b :: l3 ->
    full_read contents (filter (fun x => negb (str_mem x rd)) blobs) out ->
    exists s, session hash loads contents blobs
      (AsDict [($"map", CStr (cursor_map (mkCursor (sorted_str blobs) rd [] (-1))));
               ($"partition", CInt (hash b)); ($"location", CInt loc)]) k
      = Ok (firstn k out, s).
Proof. exact @Cursor.dict_repeated. Qed.
Print Assumptions cursor_partition_listed_twice.

(** a cursor dictionary lacking one of its three fields is rejected *)
Theorem cursor_missing_field_rejected :
  forall (hash : str -> Z) (loads : str -> result cdict) (R : Type) (contents : str -> list R)
         (blobs : list str) (d : cdict) (k : nat),
    d <> [] ->
    (dget str_eqb $"location" d = None \/ dget str_eqb $"map" d = None \/ dget str_eqb $"partition" d = None) ->
    session hash loads contents blobs (AsDict d) (S k) = Raise InvalidCursor.
Proof. exact @Cursor.missing_field. Qed.
Print Assumptions cursor_missing_field_rejected.

(** C03.  Saving and loading a cursor keeps exactly the set of blobs already read. *)
Theorem cursor_map_roundtrip :
  forall (hash : str -> Z) (c : cursor),
    exists c', load_dict hash (mkCursor (readable_blobs c) [] [] (-1)) (cursor_get hash c) = Ok c' /\
      readable_blobs c' = readable_blobs c /\ location c' = location c /\
      (forall b, In b (read_blobs c') <-> In b (readable_blobs c) /\ In b (read_blobs c)).
Proof. exact Cursor.map_roundtrip_In. Qed.
Print Assumptions cursor_map_roundtrip.

(** C04.  Any listing, any order, any repetitions: each distinct blob once, ascending. *)
Theorem serial_read_each_blob_once :
  forall (R : Type) (hash : str -> Z) (loads : str -> result cdict)
         (contents : str -> list R) (blobs : list str),
    ~ In [] blobs ->
    forall (out : list R) (k : nat), full_read contents blobs out ->
    exists s, session hash loads contents blobs NoCursor k = Ok (firstn k out, s).
Proof. exact @Cursor.read_once. Qed.
Print Assumptions serial_read_each_blob_once.

(** ** The hypotheses are met by concrete data *)
Definition ex_blobs := [$"b.jsonl"; $"a.jsonl"; $"c.jsonl"].
Definition ex_contents (b : str) : list nat :=
  if str_eqb b $"a.jsonl" then [1;2;3] else if str_eqb b $"b.jsonl" then [] else [4;5].

Example ex_hypotheses :
  ~ In [] ex_blobs /\ NoDup ex_blobs /\
  (forall a b, In a ([] :: ex_blobs) -> In b ([] :: ex_blobs) ->
     CursorExample.ex_hash a = CursorExample.ex_hash b -> a = b) /\
  (forall d, CursorExample.ex_loads (CursorExample.ex_dumps d) = Ok d) /\
  (forall d, CursorExample.ex_dumps d <> []) /\
  full_read ex_contents ex_blobs [1;2;3;4;5].
Proof.
  split; [|split; [|split; [|split; [|split]]]].
  - simpl. intros [|[|[|[]]]]; discriminate.
  - repeat constructor; simpl; intuition discriminate.
  - intros a b _ _. apply CursorExample.ex_hash_inj.
  - exact CursorExample.ex_codec.
  - exact CursorExample.ex_dumps_nonempty.
  - exists [$"a.jsonl"; $"b.jsonl"; $"c.jsonl"]. split; [|reflexivity]. split.
    + repeat constructor.
    + simpl. tauto.
Qed.

Example ex_map : (* nine blobs, the first and the last read *)
  cursor_map (mkCursor [$"1";$"2";$"3";$"4";$"5";$"6";$"7";$"8";$"9"] [$"1";$"9"] [] (-1)) = $"8080".
Proof. reflexivity. Qed.

Example ex_run :
  let run t := (let* (xs, s) := session CursorExample.ex_hash CursorExample.ex_loads ex_contents ex_blobs NoCursor 4 in
                let* (ys, _) := session CursorExample.ex_hash CursorExample.ex_loads ex_contents ex_blobs
                                  (keep CursorExample.ex_hash CursorExample.ex_dumps t s) 9 in
                Ok (xs, ys)) in
  map run [KeepObject; KeepDict; KeepText] = repeat (Ok ([1;2;3;4], [5])) 3.
Proof. vm_compute. reflexivity. Qed.

(** ** Finding: NoDup is needed.  When the store's listing names a blob twice (as
    MinIoReader does for ranges of several hours), a cursor kept as a dictionary restarts the
    blob it stands in, so records are delivered twice. *)
Theorem cursor_resume_with_repeated_listing_refuted :
  exists (blobs : list str) (contents : str -> list nat) (out : list nat) (k : nat) (s : saved),
    ~ In [] blobs /\ full_read contents blobs out /\
    (forall a b, CursorExample.ex_hash a = CursorExample.ex_hash b -> a = b) /\
    session CursorExample.ex_hash CursorExample.ex_loads contents blobs NoCursor k = Ok (firstn k out, s) /\
    forall s', session CursorExample.ex_hash CursorExample.ex_loads contents blobs
                 (keep CursorExample.ex_hash CursorExample.ex_dumps KeepDict s) (length out)
               <> Ok (skipn k out, s').
Proof.
  exists [$"a.jsonl"; $"a.jsonl"], (fun _ => [1;2;3]), [1;2;3], 2.
  eexists. split; [simpl; intuition discriminate|]. split.
  { exists [$"a.jsonl"]. split; [|reflexivity]. split; [repeat constructor|simpl; tauto]. }
  split; [exact CursorExample.ex_hash_inj|]. split; [vm_compute; reflexivity|].
  intros s'. vm_compute. discriminate.
Qed.
Print Assumptions cursor_resume_with_repeated_listing_refuted.
