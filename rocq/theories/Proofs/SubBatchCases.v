(** Concrete cases for the theorems on batches for a part of a day. *)
From Coq Require Import Sorted.
From Verif.Base Require Import Py PyFacts Value.
From Verif.Model Require Import Paths Dates Frames ReadRange Cursor Storage Writers Adapters Reader Json.
From Verif.Spec Require Import Paths Dates Frames Cursor Json Writers Reader StreamField.
From Verif.Spec Require Adapters.
From Verif.Spec Require Import System StreamStore SubBatch.
From Verif.Proofs Require RoundTrip SubBatch.
From Verif.Proofs Require Import ReaderCases SystemCases.

Definition hour_texts : list str := [$"year_{yyyy}/month_{mm}/day_{dd}/by_hour/hour={HH}"].
Definition hour_parts : list (list seg) := default_folders ++ names_part $"hour" [Hour].
(** the batch is for the hour from ten to eleven *)
Definition batch_date : moment := mkMoment 2024 2 29 10 0 0.
Definition hour_folder : str := $"bucket/set/year_2024/month_02/day_29/by_hour/hour=10/as_at_20240229-102030/".
Definition EH : setting value :=
  mkSetting value Zstd 20 (hour_folder ++ $"{stem}.jsonl.zstd") $"1f" false
    (fun r => Ok tt)
    (fun r => Ok (dumps r ++ ["010"%char])) (fun s => "Z"%char :: s)
    (fun g => 0%Z) (fun g => Ok [])
    (fun n => 2 ^ 60 + N.of_nat n)%N second_fails.
Definition ran_hour := run EH (new_writer nothing) (map Append records ++ map Finalize [false]).
Definition log_hour : list (str * str) := puts (st_world (snd ran_hour)).
Definition old_frame : str := $"as_at_20240229-082030".
(** before: a frame for the hour from nine, and an older one for the hour from ten *)
Definition hours_before : list entry :=
  flat_map (fun h => [mkEntry (Some (part $"hour" h)) (Some old_frame) $"100-2.jsonl"; mkEntry (Some (part $"hour" h)) (Some old_frame) $"frame.complete"]) [$"09"; $"10"].
Definition before_hours (k : kind) : stored :=
  [(place_of k $"set/year_2024/month_02/day_29/by_hour/hour=09/as_at_20240229-082030/100-2.jsonl", dumps (a_record 8) ++ ["010"%char]);
   (place_of k $"set/year_2024/month_02/day_29/by_hour/hour=09/as_at_20240229-082030/frame.complete", []);
   (place_of k $"set/year_2024/month_02/day_29/by_hour/hour=10/as_at_20240229-082030/100-2.jsonl", dumps (a_record 9) ++ ["010"%char]);
   (place_of k $"set/year_2024/month_02/day_29/by_hour/hour=10/as_at_20240229-082030/frame.complete", [])].
Definition new_hour (k : kind) : inner :=
  match new_inner k Zstd $".jsonl" hour_folder with Ok i => i | Raise _ => mkInner [] [] [] end.
Definition ops_hour (j : nat) : list operation :=
  map (fun e : str * str => if endswith $"frame.complete" (fst e) then StoreMarker 7 else StoreBlob (2 ^ 60 + (if str_eqb (fst e) (blob_name (s_filename EH) $"1f" (2 ^ 60)) then 0 else 2)) (snd e)) (firstn j log_hour).
Definition read_hour (k : kind) (asked : option (str * str * str)) (s : stored) : result (list value) :=
  records_read (read_asked loads unz no_other pass_thru pass_thru_filter (fun _ => 0%Z) (fun _ => Raise ValueError) k 0%Z [] (dataset_template $"bucket/set" default_folders)
                  asked (of_fields 2024 2 29 0 0 0) (of_fields 2024 2 29 23 59 59) 10 s).
Definition after_hour (k : kind) (asked : option (str * str * str)) (j : nat) : result (list value) :=
  let* (_, s) := operate k (new_hour k) $"1f" (ops_hour j) (before_hours k) in read_hour k asked s.

Lemma hour_setting_ok :
  field_name $"hour" /\ date_fields [Hour] /\ written_as hour_parts hour_texts /\ same_day batch_date (a_day 2024 2 29) /\
  new_frame_id [] (join $"/" names) hour_texts made batch_date = Ok hour_folder /\
  inner_filename (s_format EH) $".jsonl" hour_folder = Ok (s_filename EH) /\
  (forall k, new_inner k (s_format EH) $".jsonl" hour_folder = Ok (new_hour k)) /\
  (forall other, read_as loads unz other EH (extension (s_format EH) $".jsonl") distinct_keys (fun r => r)) /\
  plain (s_node EH) /\ clean_failures EH /\ fill [Hour] batch_date = $"10" /\
  contains $"BACKOUT" (day_root ++ $"/" ++ part_path $"hour" $"10" ++ $"/" ++ new_frame) = false /\
  (forall c, In c (split "/"%char day_root) -> endswith ($"by_" ++ $"hour") c = false).
Proof.
  split; [split; [reflexivity|split; [cbn; intuition discriminate|split; [cbn; intuition discriminate|reflexivity]]]|].
  split; [split; [discriminate|]; intros s [H|[]]; discriminate|].
  split; [split; [discriminate|vm_compute; reflexivity]|]. split; [repeat split|].
  split; [vm_compute; reflexivity|]. split; [vm_compute; reflexivity|]. split; [reflexivity|].
  split.
  { intros other. apply (RoundTrip.json_writer_read dumps); [exact RoundTrip.json_one_line|].
    split; [intros r t [= <-]; reflexivity|]. split; [reflexivity|]. right. split; [reflexivity|]. exists $".jsonl". reflexivity. }
  split; [intros c H; cbn in H; repeat (destruct H as [<-|H]; [reflexivity|]); destruct H|].
  split; [intros n k; cbn; destruct n as [|[|n]]; discriminate|].
  split; [vm_compute; reflexivity|]. split; [vm_compute; reflexivity|].
  intros c Hc. vm_compute in Hc. repeat (destruct Hc as [<-|Hc]; [vm_compute; reflexivity|]). destruct Hc.
Qed.
Lemma hours_before_in e : In e hours_before -> exists h, (h = $"09" \/ h = $"10") /\ e_by e = Some (part $"hour" h) /\ e_frame e = Some old_frame /\
  (e_file e = $"100-2.jsonl" \/ e_file e = $"frame.complete").
Proof.
  intros H. unfold hours_before in H. apply in_flat_map in H as (h & Hh & He). exists h.
  split; [destruct Hh as [<-|[<-|[]]]; auto|]. destruct He as [<-|[<-|[]]]; cbn; auto.
Qed.
Lemma hours_before_ok k : Adapters.proper k (before_hours k) /\ NoDup hours_before /\
  (forall name, In name (listing k [] (range_hours 0%Z (of_fields 2024 2 29 0 0 0) (of_fields 2024 2 29 23 59 59)) day_root (before_hours k)) <->
                In name (map (name_in day_root) hours_before)) /\
  tidy day_root (live day_root hours_before) /\ parts_before (live day_root hours_before) $"hour" $"10" new_frame.
Proof.
  assert (By : forall c, endswith $"by_hour" c = false -> forall e b f, live day_root hours_before e -> e_by e = Some (b, f) -> endswith b c = false).
  { intros c Hc e b f [He _] Eb. destruct (hours_before_in e He) as (h & _ & Q & _). rewrite Q in Eb. injection Eb as <- _. exact Hc. }
  split; [|split; [|split; [|split]]].
  - split.
    + destruct k; cbn; repeat constructor; cbn; intuition discriminate.
    + destruct k; intros p v [H|[H|[H|[H|[]]]]]; injection H as <- _; try (vm_compute; reflexivity);
        (split; [discriminate|split; [discriminate|cbv; intuition discriminate]]).
  - unfold hours_before. cbn [flat_map app]. repeat constructor; cbn; intuition discriminate.
  - intros name.
    assert (L : forall x, In x (listing k [] (range_hours 0%Z (of_fields 2024 2 29 0 0 0) (of_fields 2024 2 29 23 59 59)) day_root (before_hours k)) <->
              In x (dedup str_eqb (listing k [] (range_hours 0%Z (of_fields 2024 2 29 0 0 0) (of_fields 2024 2 29 23 59 59)) day_root (before_hours k))))
      by (intros x; now rewrite (dedup_In str_eqb str_eqb_eq)).
    rewrite L. replace (dedup str_eqb _) with (map (name_in day_root) hours_before) by (destruct k; vm_compute; reflexivity). reflexivity.
  - constructor.
    + intros c Hc. vm_compute in Hc.
      repeat (destruct Hc as [<-|Hc]; [split; [split; [reflexivity|apply By; reflexivity]|split; reflexivity]|]). destruct Hc.
    + intros e b f [He _] Eb. destruct (hours_before_in e He) as (h & Hh & Q & _). rewrite Q in Eb. injection Eb as <- <-.
      split; [cbv; intuition discriminate|]. split; [reflexivity|]. split; [reflexivity|].
      destruct Hh as [->| ->]; (split; [cbv; intuition discriminate|]); (split; [split; [reflexivity|apply By; reflexivity]|split; reflexivity]).
    + intros e f [He _] Ef. destruct (hours_before_in e He) as (h & _ & _ & Q & _). rewrite Q in Ef. injection Ef as <-.
      split; [cbv; intuition discriminate|]. split; [reflexivity|]. split; [reflexivity|apply By; reflexivity].
    + intros e e' f f' [He _] [He' _] Ef Ef'. destruct (hours_before_in e He) as (h & _ & _ & Q & _). destruct (hours_before_in e' He') as (h' & _ & _ & Q' & _). congruence.
    + intros e [He _]. destruct (hours_before_in e He) as (h & _ & _ & _ & [->| ->]); (split; [cbv; intuition discriminate|]); repeat split; discriminate.
  - intros e [He _]. destruct (hours_before_in e He) as (h & Hh & Q & Q' & _). exists h, old_frame.
    split; [exact Q|]. split; [destruct Hh as [->| ->]; intros c Hc; cbn in Hc; intuition (subst; reflexivity)|].
    split; [destruct Hh as [->| ->]; reflexivity|]. split; [exact Q'|]. split; [reflexivity|]. reflexivity.
Qed.
Lemma hour_run_ok : good_clock EH (attempts (st_world (snd ran_hour))) /\ crashed log_hour log_hour /\
  taken EH (map Append records ++ map Finalize [false]) (fst ran_hour) = [a_record 1; a_record 2; a_record 3; a_record 4] /\
  (forall j, (j <= 3)%nat -> operations_of EH (firstn j log_hour) (ops_hour j)) /\
  StronglySorted (fun a b => str_ltb a b = true) [$"09"; $"10"].
Proof.
  split; [|split; [|split; [|split]]].
  - replace (attempts (st_world (snd ran_hour))) with 4%nat by (vm_compute; reflexivity). split; intros; cbn [s_clock EH]; [change (2 ^ 64)%N with (2 ^ 60 * 16)%N|]; lia.
  - exists (length log_hour). left. symmetry. apply firstn_all.
  - vm_compute. reflexivity.
  - intros j Hj. destruct j as [|[|[|[|j]]]]; [..|lia]; vm_compute; repeat constructor.
  - repeat constructor.
Qed.
Lemma hour_results k : map (after_hour k (Some ($"hour", $"=", $"10"))) [0; 1; 2; 3]%nat =
    [Ok [a_record 9]; Ok [a_record 9]; Ok [a_record 9]; Ok [a_record 1; a_record 2; a_record 3; a_record 4]] /\
  map (after_hour k (Some ($"hour", $"=", $"09"))) [0; 1; 2; 3]%nat = [Ok [a_record 8]; Ok [a_record 8]; Ok [a_record 8]; Ok [a_record 8]] /\
  map (after_hour k None) [0; 1; 2; 3]%nat =
    [Ok [a_record 8; a_record 9]; Ok [a_record 8; a_record 9]; Ok [a_record 8; a_record 9]; Ok [a_record 8; a_record 1; a_record 2; a_record 3; a_record 4]].
Proof. destruct k; (split; [vm_compute; reflexivity|split; vm_compute; reflexivity]). Qed.

(** a batch of the hour, killed, over a day whose data is in no part *)
Definition after_hour_on_day (k : kind) (j : nat) : result (list value) :=
  let* (_, s) := operate k (new_hour k) $"1f" (ops_hour j) (before k) in read_hour k None s.
Lemma hour_on_day k : map (after_hour_on_day k) [0; 1; 2; 3]%nat =
  [Ok [a_record 9]; Raise DataNotFoundError; Raise DataNotFoundError; Ok [a_record 1; a_record 2; a_record 3; a_record 4]].
Proof. destruct k; vm_compute; reflexivity. Qed.

Lemma hidden : exists j, (j < length log_hour)%nat /\ crashed log_hour (firstn j log_hour) /\
    ~ marked (day_root ++ $"/" ++ part_path $"hour" $"10" ++ $"/" ++ new_frame) (firstn j log_hour) /\
    forall k, after_hour_on_day k 0 = Ok [a_record 9] /\ after_hour_on_day k j = Raise DataNotFoundError.
Proof.
  exists 1%nat. split; [vm_compute; lia|]. split; [exists 1%nat; now left|]. split.
  - vm_compute. intros [H|[]]. discriminate.
  - intros k. split; destruct k; vm_compute; reflexivity.
Qed.
