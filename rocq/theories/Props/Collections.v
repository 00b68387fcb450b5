(** Claims about collected sets (C51) and pages (C57). *)
From Coq Require Import Permutation.
From Verif.Base Require Import Py Value.
From Verif.Model Require Import Json Collections.
From Verif.Spec Require Import DictSet Collections.
From Verif.Proofs Require Collections CollectedViews CollectedOnce CollectedOnceCases StorageCases.
Import StorageCases.

(** ** C51 *)
Theorem collected_set_partitions : forall column rows,
  Forall (fun r => NoDup (map fst r)) rows -> Forall (fun r => can_be_key (rget column r)) rows ->
  exists groups, collect_set column rows = Ok groups /\ partitions column rows groups /\
                 list_sum (map snd (counts groups)) = length rows.
Proof. exact Collections.collect_set_partitions. Qed.
Print Assumptions collected_set_partitions.

(** A value which cannot be a key (a list or a dictionary) is refused. *)
Theorem collected_set_unhashable : forall column rows,
  Forall (fun r => NoDup (map fst r)) rows -> (exists r, In r rows /\ ~ can_be_key (rget column r)) ->
  collect_set column rows = Raise TypeError.
Proof. exact Collections.collect_set_unhashable. Qed.
Print Assumptions collected_set_unhashable.

(** [collected[v]] are the records with the value v, none if there are none. *)
Theorem collected_set_lookup : forall column rows v,
  Forall (fun r => NoDup (map fst r)) rows -> Forall (fun r => can_be_key (rget column r)) rows -> can_be_key v ->
  exists groups, collect_set column rows = Ok groups /\ sub_collection groups v = Ok (records_with column v rows).
Proof. exact Collections.lookup_in_collected. Qed.
Print Assumptions collected_set_lookup.

Theorem collected_set_count : forall column rows v,
  Forall (fun r => NoDup (map fst r)) rows -> Forall (fun r => can_be_key (rget column r)) rows -> can_be_key v ->
  exists groups, collect_set column rows = Ok groups /\
    count_of groups v = length (filter (fun r => py_eq (rget column r) v) rows).
Proof. exact Collections.count_in_collected. Qed.
Print Assumptions collected_set_count.

Example people_by_team :
  Forall (fun r => NoDup (map fst r)) people /\ Forall (fun r => can_be_key (rget $"team" r)) people /\
  collect_set $"team" people =
  Ok [(VStr $"x", [[($"name", VStr $"ann")]; [($"name", VStr $"cid")]]);
      (VInt 1, [[($"name", VStr $"bob")]; [($"name", VStr $"dee")]]);
      (VNull, [[($"name", VStr $"eve")]])].
Proof.
  split; [exact people_keys|]. split; [repeat constructor|]. vm_compute. reflexivity.
Qed.

(** [collected.aggregate(other, method)] has one result for each collection: the method applied to the values of that
    column which are not null, of the records with the collection's value, in their order. *)
Theorem collected_set_aggregates : forall B column rows other (method : list value -> B), other <> column ->
  Forall (fun r => NoDup (map fst r)) rows -> Forall (fun r => can_be_key (rget column r)) rows ->
  exists groups, collect_set column rows = Ok groups /\ partitions column rows groups /\
    aggregate groups other method =
    map (fun g => (fst g, method (known_values other (filter (fun r => py_eq (rget column r) (fst g)) rows)))) groups.
Proof. exact @CollectedViews.aggregate_spec. Qed.
Print Assumptions collected_set_aggregates.

(** The column the set is collected by has no values left to aggregate. *)
Theorem collected_set_aggregates_nothing_of_its_column : forall B column rows (method : list value -> B),
  Forall (fun r => NoDup (map fst r)) rows -> Forall (fun r => can_be_key (rget column r)) rows ->
  exists groups, collect_set column rows = Ok groups /\ partitions column rows groups /\
    aggregate groups column method = map (fun g => (fst g, method [])) groups.
Proof. exact @CollectedViews.aggregate_own. Qed.
Print Assumptions collected_set_aggregates_nothing_of_its_column.

Theorem collected_set_applies : forall B column rows (method : list record -> B),
  Forall (fun r => NoDup (map fst r)) rows -> Forall (fun r => can_be_key (rget column r)) rows ->
  exists groups, collect_set column rows = Ok groups /\ partitions column rows groups /\
    apply groups method = map (fun g => (fst g, method (records_with column (fst g) rows))) groups.
Proof. exact @CollectedViews.apply_spec. Qed.
Print Assumptions collected_set_applies.

(** [collected.items()] is every record once, without the column, beside its value. *)
Theorem collected_set_items : forall column rows,
  Forall (fun r => NoDup (map fst r)) rows -> Forall (fun r => can_be_key (rget column r)) rows ->
  exists groups, collect_set column rows = Ok groups /\
    Permutation (map snd (items groups)) (map (without column) rows) /\
    (forall k r, In (k, r) (items groups) -> exists r0, In r0 rows /\ r = without column r0 /\ py_eq (rget column r0) k = true).
Proof. exact CollectedViews.items_spec. Qed.
Print Assumptions collected_set_items.

Example ages_by_team :
  let rows := [[($"team", VStr $"x"); ($"age", VInt 3)]; [($"team", VInt 1); ($"age", VInt 5)]; [($"team", VStr $"x"); ($"age", VNull)];
               [($"team", VBool true); ($"age", VInt 7)]; [($"age", VInt 9); ($"team", VStr $"x")]] in
  match collect_set $"team" rows with
  | Ok groups => aggregate groups $"age" (fun l => l) = [(VStr $"x", [VInt 3; VInt 9]); (VInt 1, [VInt 5; VInt 7])] /\
                 aggregate groups $"team" (@length value) = [(VStr $"x", 0); (VInt 1, 0)] /\
                 apply groups (@length record) = [(VStr $"x", 3); (VInt 1, 2)] /\
                 map fst (items groups) = [VStr $"x"; VStr $"x"; VStr $"x"; VInt 1; VInt 1]
  | Raise _ => False
  end.
Proof. vm_compute. repeat split. Qed.

(** [collected[a, b]] never makes the collection its documentation promises: it raises KeyError as soon as one of
    them is there. *)
Theorem select_several_collections_refuted :
  exists column rows groups entries, collect_set column rows = Ok groups /\
    Forall (fun v => contains_key groups v = Ok true) entries /\ entries <> [] /\ sub_collections groups entries = Raise KeyError.
Proof.
  exists $"team", people. eexists. exists [VStr $"x"; VInt 1]. split; [vm_compute; reflexivity|].
  split; [repeat constructor|]. split; [discriminate|reflexivity].
Qed.
Print Assumptions select_several_collections_refuted.

(** With [dedupe=True], whatever the hash does: one collection for each value, every record of a collection is one of
    the records with its value, and no two records of a collection are the same. *)
Theorem deduped_collections_repeat_nothing : forall hash column rows groups,
  Forall (fun r => NoDup (map fst r)) rows -> collect_set_deduped hash column rows = Ok groups ->
  ForallOrdPairs (fun a b => py_eq (fst a) (fst b) = false) groups /\
  forall k g, In (k, g) groups ->
    ForallOrdPairs (fun a b => ~ same_record a b) g /\
    forall r, In r g -> In r (records_with column k rows).
Proof. exact CollectedOnce.deduped_sound. Qed.
Print Assumptions deduped_collections_repeat_nothing.

(** With [dedupe=True] the collections are those of the records with the repeated ones left out, for records with the
    same columns whose values are told apart by their texts and by ==, and without hash collisions.  Missing: other
    records, see the refutation. *)
Theorem deduped_collections_partial : forall hash column rows names, NoDup names ->
  (forall r, In r rows -> map fst r = names) ->
  (forall r v, In r rows -> In v (map snd r) -> can_be_key v) ->
  (forall a b v w, In a rows -> In b rows -> In v (map snd a) -> In w (map snd b) ->
     py_str v = py_str w \/ py_eq v w = true -> v = w) ->
  (forall a b, In a rows -> In b rows ->
     xor_all hash (Spec.DictSet.numbered 0 (map snd a)) = xor_all hash (Spec.DictSet.numbered 0 (map snd b)) ->
     Spec.DictSet.numbered 0 (map snd a) = Spec.DictSet.numbered 0 (map snd b)) ->
  exists once groups, first_occurrences eq [] rows once /\
    collect_set_deduped hash column rows = Ok groups /\ partitions column once groups.
Proof. exact CollectedOnce.deduped_complete. Qed.
Print Assumptions deduped_collections_partial.

Example deduped_people : CollectedOnceCases.deduped_people_claim.
Proof. exact CollectedOnceCases.deduped_people_holds. Qed.

(** Whatever the hash: a record is lost when another has the same values in other columns. *)
Theorem deduped_collections_refuted : exists column rows r, Forall (fun r => NoDup (map fst r)) rows /\ In r rows /\
  forall hash, exists groups, collect_set_deduped hash column rows = Ok groups /\
    forall k g r', In (k, g) groups -> In r' g -> ~ same_record r' (without column r).
Proof. exact CollectedOnceCases.other_columns_lost. Qed.
Print Assumptions deduped_collections_refuted.

(** ** C57 *)
(** All pages but the last are full, and together they are the stream without its last record. *)
Theorem pages_cover_all_but_last_partial : forall dumps page_size, 0 < page_size -> forall rows last,
  exists pages tail, page_dictset dumps page_size (rows ++ [last]) = (pages ++ [tail], None) /\
    concat (pages ++ [tail]) = map dumps rows /\ Forall (fun p => length p = page_size) pages /\ length tail < page_size.
Proof. exact Collections.pages_spec. Qed.
Print Assumptions pages_cover_all_but_last_partial.

Theorem pages_of_nothing : forall dumps page_size, 0 < page_size -> page_dictset dumps page_size [] = ([], Some NameError).
Proof. exact Collections.pages_empty. Qed.
Print Assumptions pages_of_nothing.

Example pages_of_two : page_dictset (fun r => dumps (VDict r)) 2 [[($"a", VInt 1)]; []; [($"b", VNull)]; [($"c", VNull)]; []] =
  ([[$"{""a"":1}"; $"{}"]; [$"{""b"":null}"; $"{""c"":null}"]; []], None).
Proof. reflexivity. Qed.

(** The claim is false for every stream: its last record is in no page. *)
Theorem paging_keeps_every_record_refuted : forall dumps page_size rows, 0 < page_size ->
  concat (fst (page_dictset dumps page_size rows)) <> map dumps rows \/ snd (page_dictset dumps page_size rows) <> None.
Proof. exact Collections.pages_lossy. Qed.
Print Assumptions paging_keeps_every_record_refuted.
