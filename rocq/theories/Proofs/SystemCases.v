(** Concrete cases for the theorems on writer, storage and reader together. *)
From Verif.Base Require Import Py PyFacts Value.
From Verif.Model Require Import Paths Dates Frames ReadRange Cursor Storage Writers Adapters Reader Json.
From Verif.Spec Require Import Paths Dates Frames Cursor Json Writers Reader.
From Verif.Spec Require Adapters.
From Verif.Spec Require Import System.
From Verif.Proofs Require RoundTrip.
From Verif.Proofs Require Import ReaderCases.

Definition names : list str := [$"bucket"; $"set"].
Definition made : moment := mkMoment 2024 2 29 10 20 30.
Definition day_root : str := $"bucket/set/year_2024/month_02/day_29".
Definition new_frame : str := $"as_at_20240229-102030".
Definition frame_folder : str := $"bucket/set/year_2024/month_02/day_29/as_at_20240229-102030/".
(** blobs larger than 20 characters are stored, the second attempt to store fails *)
Definition E : setting value :=
  mkSetting value Zstd 20 (frame_folder ++ $"{stem}.jsonl.zstd") $"1f" false
    (fun r => Ok tt)
    (fun r => Ok (dumps r ++ ["010"%char])) (fun s => "Z"%char :: s)
    (fun g => 0%Z) (fun g => Ok [])
    (fun n => 2 ^ 60 + N.of_nat n)%N second_fails.
Definition records : list value := [a_record 1; a_record 2; a_record 3; a_record 4; a_record 5].
Definition ran := run E (new_writer nothing) (map Append records ++ map Finalize [false]).
Definition log : list (str * str) := puts (st_world (snd ran)).
(** the folder before: a complete frame of two hours earlier *)
Definition earlier : list entry :=
  [mkEntry None (Some $"as_at_20240229-082030") $"100-2.jsonl"; mkEntry None (Some $"as_at_20240229-082030") $"frame.complete"].
Definition place_of (k : kind) (key : str) : place :=
  match k with Disk => ([], $"bucket/" ++ key) | _ => ($"bucket", key) end.
Definition before (k : kind) : stored :=
  [(place_of k $"set/year_2024/month_02/day_29/as_at_20240229-082030/100-2.jsonl", dumps (a_record 9) ++ ["010"%char]);
   (place_of k $"set/year_2024/month_02/day_29/as_at_20240229-082030/frame.complete", [])].
Definition new (k : kind) : inner :=
  match new_inner k Zstd $".jsonl" frame_folder with Ok i => i | Raise _ => mkInner [] [] [] end.
(** the storage operations behind the first [j] entries of the log *)
Definition ops (j : nat) : list operation :=
  map (fun e : str * str => if endswith $"frame.complete" (fst e) then StoreMarker 7 else StoreBlob (2 ^ 60 + (if str_eqb (fst e) (blob_name (s_filename E) $"1f" (2 ^ 60)) then 0 else 2)) (snd e)) (firstn j log).
Definition read (k : kind) (s : stored) : result (list value) :=
  records_read (read_stored loads unz no_other (fun _ => 0%Z) (fun _ => Raise ValueError) k 0%Z [] (dataset_template $"bucket/set" default_folders)
                  (of_fields 2024 2 29 0 0 0) (of_fields 2024 2 29 23 59 59) 10 s).
Definition after (k : kind) (j : nat) : result (list value) :=
  let* (_, s) := operate k (new k) $"1f" (ops j) (before k) in read k s.

Lemma setting_ok : folder_names names /\
  new_frame_id [] (join $"/" names) [$"year_{yyyy}/month_{mm}/day_{dd}"] made (a_day 2024 2 29) = Ok frame_folder /\
  inner_filename (s_format E) $".jsonl" frame_folder = Ok (s_filename E) /\
  (forall k, new_inner k (s_format E) $".jsonl" frame_folder = Ok (new k)) /\
  (forall other, read_as loads unz other E (extension (s_format E) $".jsonl") distinct_keys (fun r => r)) /\
  plain $".jsonl" /\ plain (s_node E) /\ clean_failures E /\
  day_folder (dataset_template (join $"/" names) default_folders) (2024, 2, 29)%Z = day_root /\ as_at_text made = new_frame /\
  contains $"BACKOUT" (day_root ++ $"/" ++ new_frame) = false.
Proof.
  split; [|split; [|split; [|split; [|split; [|split; [|split; [|split; [|split; [|split]]]]]]]]]; try (vm_compute; reflexivity).
  - split; [discriminate|]. intros c [<-|[<-|[]]]; (split; [split; [discriminate|split; [discriminate|cbv; intuition discriminate]]|split; cbv; intuition discriminate]).
  - intros other. apply (RoundTrip.json_writer_read dumps); [exact RoundTrip.json_one_line|].
    split; [intros r t [= <-]; reflexivity|]. split; [reflexivity|]. right. split; [reflexivity|]. exists $".jsonl". reflexivity.
  - intros c H. cbn in H. repeat (destruct H as [<-|H]; [reflexivity|]). destruct H.
  - intros c H. cbn in H. repeat (destruct H as [<-|H]; [reflexivity|]). destruct H.
  - intros n k. cbn. destruct n as [|[|n]]; discriminate.
Qed.
Lemma before_ok k : Adapters.proper k (before k) /\ NoDup earlier /\
  (forall name, In name (listing k [] (range_hours 0%Z (of_fields 2024 2 29 0 0 0) (of_fields 2024 2 29 23 59 59)) day_root (before k)) <->
                In name (map (name_in day_root) earlier)) /\
  tidy day_root (live day_root earlier) /\ older_frames (live day_root earlier) new_frame.
Proof.
  assert (NB: forall e, live day_root earlier e -> e_by e = None) by (intros e [[<-|[<-|[]]] _]; auto).
  split; [|split; [|split; [|split]]].
  - split.
    + destruct k; cbn; repeat constructor; cbn; intuition discriminate.
    + destruct k; intros p v [H|[H|[]]]; injection H as <- _; try (vm_compute; reflexivity);
        (split; [discriminate|split; [discriminate|cbv; intuition discriminate]]).
  - unfold earlier. repeat constructor; cbn; intuition discriminate.
  - intros name.
    assert (L : forall x, In x (listing k [] (range_hours 0%Z (of_fields 2024 2 29 0 0 0) (of_fields 2024 2 29 23 59 59)) day_root (before k)) <->
              In x (dedup str_eqb (listing k [] (range_hours 0%Z (of_fields 2024 2 29 0 0 0) (of_fields 2024 2 29 23 59 59)) day_root (before k))))
      by (intros x; now rewrite (dedup_In str_eqb str_eqb_eq)).
    rewrite L. replace (dedup str_eqb _) with (map (name_in day_root) earlier) by (destruct k; vm_compute; reflexivity). reflexivity.
  - constructor.
    + intros c Hc. vm_compute in Hc.
      repeat (destruct Hc as [<-|Hc]; [repeat split; intros e b f He Hb; rewrite NB in Hb by auto; discriminate|]). destruct Hc.
    + intros e b f He Hb. rewrite NB in Hb by auto. discriminate.
    + intros e f [He _] Ef. assert (f = $"as_at_20240229-082030") by (destruct He as [<-|[<-|[]]]; injection Ef as <-; reflexivity).
      subst f. split; [cbv; intuition discriminate|]. split; [reflexivity|]. split; [reflexivity|].
      intros e' b f' He' Hb. rewrite NB in Hb by auto. discriminate.
    + intros e e' f f' [He _] [He' _]. destruct He as [<-|[<-|[]]], He' as [<-|[<-|[]]]; intros [= <-] [= <-]; reflexivity.
    + intros e [He _]. destruct He as [<-|[<-|[]]]; (split; [cbv; intuition discriminate|]); repeat split; discriminate.
  - intros e [He _]. destruct He as [<-|[<-|[]]]; (split; [reflexivity|]); eexists; (split; [reflexivity|]); split; reflexivity.
Qed.
Lemma run_ok : good_clock E (attempts (st_world (snd ran))) /\ crashed log log /\
  taken E (map Append records ++ map Finalize [false]) (fst ran) = [a_record 1; a_record 2; a_record 3; a_record 4] /\
  (forall r, In r [a_record 1; a_record 2; a_record 3; a_record 4] -> distinct_keys r /\ truthy r = true) /\
  forall j, (j <= 3)%nat -> operations_of E (firstn j log) (ops j).
Proof.
  split; [|split; [|split; [|split]]].
  - replace (attempts (st_world (snd ran))) with 4%nat by (vm_compute; reflexivity). split; intros; cbn [s_clock E]; [change (2 ^ 64)%N with (2 ^ 60 * 16)%N|]; lia.
  - exists (length log). left. symmetry. apply firstn_all.
  - vm_compute. reflexivity.
  - intros r H. repeat (destruct H as [<-|H]; [split; [|reflexivity]; split; [repeat constructor; cbn; intuition discriminate|repeat split]|]). destruct H.
  - intros j Hj. destruct j as [|[|[|[|j]]]]; [..|lia]; vm_compute; repeat constructor.
Qed.

(** a batch without records whose writer marks it complete all the same *)
Definition E0 : setting value :=
  mkSetting value Zstd 20 (frame_folder ++ $"{stem}.jsonl.zstd") $"1f" true
    (fun r => Ok tt) (fun r => Ok (dumps r ++ ["010"%char])) (fun s => "Z"%char :: s)
    (fun g => 0%Z) (fun g => Ok []) (fun n => 2 ^ 60 + N.of_nat n)%N (fun _ => None).
Definition ran0 := run E0 (new_writer nothing) (map Append [] ++ map Finalize [false]).
Definition after_nothing (k : kind) : result (list value) :=
  let* (_, s) := operate k (new k) $"1f" [StoreMarker 7] (before k) in read k s.
Lemma nothing_ok : taken E0 (map Append [] ++ map Finalize [false]) (fst ran0) = [] /\
  marked (day_root ++ $"/" ++ new_frame) (puts (st_world (snd ran0))) /\
  operations_of E0 (puts (st_world (snd ran0))) [StoreMarker 7].
Proof.
  split; [reflexivity|]. split; [vm_compute; auto|].
  assert (Q : puts (st_world (snd ran0)) = [(completion_path (s_filename E0), [])]) by (vm_compute; reflexivity).
  rewrite Q. constructor; constructor.
Qed.
