(** Claims about where a DictSet keeps its records: C38 (storage classes are interchangeable), C39 (get_items),
    C58 (iterating again).  The JSON and compression libraries are any which give back what they were given. *)
From Coq Require Import Sorted Permutation.
From Verif.Base Require Import Py Value.
From Verif.Model Require Import Json Storage.
From Verif.Spec Require Import Json Storage.
From Verif.Proofs Require Json Storage Iterators StorageCases.
Import StorageCases.

(** ** C38 *)
(** Every storage class holds exactly the rows, in order, and its count is their number: for non-empty records and
    at least one of them. *)
Theorem storage_classes_hold_the_rows_partial : forall dump parse compress decompress,
  faithful_json dump parse -> faithful_compression compress decompress ->
  forall rows c, Forall distinct_keys rows -> rows <> [] -> Forall (fun r => truthy r = true) rows ->
  contents parse decompress (persist dump compress c rows) = (rows, None) /\
  count (persist dump compress c rows) = Z.of_nat (length rows).
Proof.
  exact (fun d p c dc Hj Hc rows cl H1 H2 H3 =>
    conj (Storage.contents_all d p c dc Hj Hc rows cl H1 H2 H3) (Storage.count_all d c rows cl)).
Qed.
Print Assumptions storage_classes_hold_the_rows_partial.

(** Without the conditions: compressed memory delivers all but the empty records, disk delivers all unless there are
    none (then reading raises ValueError), the count is always the number of rows. *)
Theorem compressed_memory_holds_nonempty_rows : forall dump parse compress decompress,
  faithful_json dump parse -> faithful_compression compress decompress ->
  forall rows, Forall distinct_keys rows ->
  contents parse decompress (persist dump compress COMPRESSED_MEMORY rows) = (filter truthy rows, None).
Proof. exact Storage.compressed_contents. Qed.
Print Assumptions compressed_memory_holds_nonempty_rows.

Theorem disk_holds_the_rows : forall dump parse compress decompress, faithful_json dump parse ->
  forall rows, Forall distinct_keys rows -> rows <> [] ->
  contents parse decompress (persist dump compress DISK rows) = (rows, None).
Proof. exact Storage.disk_contents. Qed.
Print Assumptions disk_holds_the_rows.

Theorem count_is_number_of_rows : forall dump compress rows c,
  count (persist dump compress c rows) = Z.of_nat (length rows).
Proof. exact Storage.count_all. Qed.
Print Assumptions count_is_number_of_rows.

(** the conditions are met, also by a set of several batches; and libraries as asked for exist *)
Example reference_json : faithful_json dumps loads.
Proof. exact Json.json_faithful. Qed.
Example reference_compression : faithful_compression identity identity.
Proof. exact identity_faithful. Qed.
Example six_hundred_rows : Forall distinct_keys (numbered 600) /\ numbered 600 <> [] /\
  Forall (fun r => truthy r = true) (numbered 600) /\
  (let s := persist dumps identity COMPRESSED_MEMORY (numbered 600) in
   match s with Compressed batches _ => length batches = 3 | _ => False end).
Proof.
  split; [exact (numbered_distinct 600)|]. split; [discriminate|]. split; [exact (numbered_truthy 600)|].
  vm_compute. reflexivity.
Qed.

(** The claim in full is false: an empty record is lost in compressed memory, and an empty set cannot be read from
    disk. *)
Theorem storage_classes_interchangeable_refuted :
  (exists rows, contents loads identity (persist dumps identity COMPRESSED_MEMORY rows) <>
                contents loads identity (persist dumps identity MEMORY rows)) /\
  (exists rows, contents loads identity (persist dumps identity DISK rows) <>
                contents loads identity (persist dumps identity MEMORY rows)).
Proof.
  split; [exists [VDict []; VDict [($"a", VInt 1)]]|exists []]; vm_compute; discriminate.
Qed.
Print Assumptions storage_classes_interchangeable_refuted.

(** ** C39 *)
(** Compressed memory returns the records at the positions, in the order of the positions. *)
Theorem get_items_compressed_memory_partial : forall dump parse compress decompress,
  faithful_json dump parse -> faithful_compression compress decompress ->
  forall rows locations, Forall distinct_keys rows -> locations <> [] -> in_range rows locations ->
  exists positions out,
    get_items parse decompress (persist dump compress COMPRESSED_MEMORY rows) locations = (out, None) /\
    StronglySorted Z.le positions /\ Permutation positions locations /\ records_at rows positions out.
Proof. exact Storage.compressed_items. Qed.
Print Assumptions get_items_compressed_memory_partial.

(** Disk returns each of them once, in the order of the positions. *)
Theorem get_items_disk_partial : forall dump parse compress decompress, faithful_json dump parse ->
  forall rows locations, Forall distinct_keys rows -> locations <> [] -> in_range rows locations ->
  exists positions out,
    get_items parse decompress (persist dump compress DISK rows) locations = (out, None) /\
    StronglySorted Z.lt positions /\ (forall i, In i positions <-> In i locations) /\ records_at rows positions out.
Proof. exact Storage.disk_items. Qed.
Print Assumptions get_items_disk_partial.

(** A list returns them as they were asked for. *)
Theorem get_items_list : forall dump parse compress decompress rows locations, in_range rows locations ->
  exists out, get_items parse decompress (persist dump compress NO_PERSISTANCE rows) locations = (out, None) /\
              records_at rows locations out.
Proof. exact Storage.list_items. Qed.
Print Assumptions get_items_list.

(** A set in memory returns nothing at all, whatever is asked for. *)
Theorem get_items_memory_refuted : forall dump parse compress decompress rows locations,
  get_items parse decompress (persist dump compress MEMORY rows) locations = ([], None).
Proof. exact Storage.memory_items. Qed.
Print Assumptions get_items_memory_refuted.

Example positions_in_range : in_range (numbered 600) [599; 0; 250; 0]%Z.
Proof. repeat constructor; cbn; discriminate. Qed.
Example items_of_600 :
  get_items loads identity (persist dumps identity COMPRESSED_MEMORY (numbered 600)) [599; 0; 250; 0]%Z =
    (map (fun i => VDict [($"n", VInt i); ($"t", VStr $"a""b")]) [0; 0; 250; 599]%Z, None) /\
  get_items loads identity (persist dumps identity DISK (numbered 600)) [599; 0; 250; 0]%Z =
    (map (fun i => VDict [($"n", VInt i); ($"t", VStr $"a""b")]) [0; 250; 599]%Z, None).
Proof. split; vm_compute; reflexivity. Qed.

(** The claim is false also of the others: the order asked for is not kept, and asking for nothing returns
    everything. *)
Theorem get_items_as_asked_refuted :
  (exists rows locations out, in_range rows locations /\ locations <> [] /\
     get_items loads identity (persist dumps identity COMPRESSED_MEMORY rows) locations = (out, None) /\
     ~ records_at rows locations out) /\
  (exists rows, rows <> [] /\ get_items loads identity (persist dumps identity DISK rows) [] = (rows, None)).
Proof.
  split.
  - exists (numbered 2), [1; 0]%Z, (numbered 2). split; [repeat constructor; cbn; discriminate|]. split; [discriminate|].
    split; [vm_compute; reflexivity|]. intro H. inversion H as [|? ? ? ? [_ E] _]. vm_compute in E. discriminate E.
  - exists (numbered 2). split; [discriminate|]. vm_compute. reflexivity.
Qed.
Print Assumptions get_items_as_asked_refuted.

(** ** C58 *)
(** Whatever was done with a set before, everything which makes its own iterator (collect_list, first, take, ...)
    starts from the first record; a loop over the set goes on where the iterator made last had got to. *)
Theorem uses_deliver_partial : forall rows us, fst (do_uses rows us new_storage) = deliveries rows rows us.
Proof. exact Iterators.uses_of_a_new_set. Qed.
Print Assumptions uses_deliver_partial.

Example uses_of_three : let a := VInt 1 in let b := VInt 2 in let c := VInt 3 in
  fst (do_uses [a; b; c] [ForBreak 1; ForLoop; Collect; Take 2; ForLoop; First; Collect] new_storage) =
  [[a]; [b; c]; [a; b; c]; [a; b]; [c]; [a]; [a; b; c]].
Proof. reflexivity. Qed.

(** Iterators may be used at the same time, in any order: each delivers the rows in order, none twice. *)
Theorem interleaved_iterators_in_order : forall rows schedule g,
  exists rest, rows = delivered_by g (fst (do_steps rows schedule new_storage)) ++ rest.
Proof. exact Iterators.steps_in_order. Qed.
Print Assumptions interleaved_iterators_in_order.

(** An iterator which is asked often enough delivers all of them, whatever else happens. *)
Theorem interleaved_iterator_complete : forall rows before after,
  let g := length (made (snd (do_steps rows before new_storage))) in
  length rows <= turns g after ->
  delivered_by g (fst (do_steps rows (before ++ NewIterator :: after) new_storage)) = rows.
Proof. exact Iterators.interleaved_complete. Qed.
Print Assumptions interleaved_iterator_complete.

Example three_iterators : let rows := [VInt 1; VInt 2] in
  let before := [Next; NewIterator; NextOf 1; NextOf 0] in
  let after := [NextOf 2; NewIterator; Next; NextOf 1; NextOf 2; Next] in
  length (made (snd (do_steps rows before new_storage))) = 2 /\ length rows <= turns 2 after /\
  fst (do_steps rows (before ++ NewIterator :: after) new_storage) =
  [(0, VInt 1); (1, VInt 1); (0, VInt 2); (2, VInt 1); (3, VInt 1); (1, VInt 2); (2, VInt 2); (3, VInt 2)].
Proof. repeat split. exact (le_n 2). Qed.

(** The claim in full is false: a second loop over a set delivers nothing, and neither does a loop after
    collect_list. *)
Theorem loop_again_refuted : forall rows, rows <> [] ->
  fst (do_uses rows [ForLoop; ForLoop] new_storage) <> [rows; rows] /\
  fst (do_uses rows [Collect; ForLoop] new_storage) <> [rows; rows].
Proof. exact Iterators.loop_again. Qed.
Print Assumptions loop_again_refuted.
