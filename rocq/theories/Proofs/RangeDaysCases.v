(** Concrete case for the theorems on ranges of days. *)
From Verif.Base Require Import Py PyFacts Value.
From Verif.Model Require Import Paths Dates Frames ReadRange Cursor Storage Adapters Reader Json.
From Verif.Spec Require Import Paths Dates Frames Cursor Reader StreamRead.
From Verif.Spec Require Adapters.
From Verif.Spec Require Import System.
From Verif.Proofs Require Import ReaderCases SystemCases.
From Verif.Proofs Require Dates.

Definition days_stored (k : kind) : stored := before k ++
  [(place_of k $"set/year_2024/month_02/day_28/b.jsonl", dumps (a_record 2) ++ ["010"%char]);
   (place_of k $"set/year_2024/month_02/day_28/a.jsonl", dumps (a_record 1) ++ ["010"%char])].
Definition read_days (k : kind) (a b : datetime) : result (list value) :=
  records_read (read_stored loads unz no_other (fun _ => 0%Z) (fun _ => Raise ValueError) k 0%Z [] (dataset_template $"bucket/set" default_folders) a b 10 (days_stored k)).

Lemma three_days : folder_names names /\
  forall k, Adapters.proper k (days_stored k) /\
    read_days k (of_fields 2024 2 28 0 0 0) (of_fields 2024 2 28 23 59 59) = Ok [a_record 1; a_record 2] /\
    read_days k (of_fields 2024 2 29 0 0 0) (of_fields 2024 2 29 23 59 59) = Ok [a_record 9] /\
    read_days k (of_fields 2024 3 1 0 0 0) (of_fields 2024 3 1 23 59 59) = Raise DataNotFoundError /\
    read_days k (of_fields 2024 2 28 15 0 0) (of_fields 2024 3 1 4 0 0) = Ok [a_record 1; a_record 2; a_record 9].
Proof.
  split; [apply setting_ok|]. intros k. split; [|destruct k; vm_compute; repeat split].
  split.
  - destruct k; cbn; repeat constructor; cbn; intuition discriminate.
  - destruct k; intros p v [H|[H|[H|[H|[]]]]]; injection H as <- _; try (vm_compute; reflexivity);
      (split; [discriminate|split; [discriminate|cbv; intuition discriminate]]).
Qed.

Lemma days_ok k : Adapters.proper k (days_stored k) /\
  (forall name, In name (listing k [] (range_hours 0%Z (of_fields 2024 2 29 0 0 0) (of_fields 2024 2 29 23 59 59)) day_root (days_stored k)) <->
                In name (map (name_in day_root) earlier)) /\
  within (2024, 2, 28)%Z (2024, 3, 1)%Z (2024, 2, 29)%Z.
Proof.
  split; [apply three_days|]. split.
  - intros name.
    assert (L : forall x l, In x l <-> In x (dedup str_eqb l)) by (intros x l; now rewrite (dedup_In str_eqb str_eqb_eq)).
    rewrite L. replace (dedup str_eqb _) with (map (name_in day_root) earlier) by (destruct k; vm_compute; reflexivity). reflexivity.
  - split; [|split; reflexivity]. apply Dates.valid_date_spec. vm_compute. repeat split; discriminate.
Qed.
Definition after_batch (k : kind) (j : nat) : result (list value) :=
  let* (_, s) := operate k (new k) $"1f" (ops j) (days_stored k) in
  records_read (read_stored loads unz no_other (fun _ => 0%Z) (fun _ => Raise ValueError) k 0%Z [] (dataset_template $"bucket/set" default_folders)
                  (of_fields 2024 2 28 15 0 0) (of_fields 2024 3 1 4 0 0) 10 s).
Lemma batch_range k : map (after_batch k) [0; 1; 2; 3]%nat =
  let old := [a_record 1; a_record 2; a_record 9] in
  [Ok old; Ok old; Ok old; Ok [a_record 1; a_record 2; a_record 1; a_record 2; a_record 3; a_record 4]].
Proof. destruct k; vm_compute; reflexivity. Qed.

Lemma partitions_ok folders texts :
  In (folders, texts) [(default_folders, [$"year_{yyyy}/month_{mm}/day_{dd}"]); ([[Year]; [Month]; [Day]], [$"{yyyy}"; $"{mm}/{dd}"]);
                       ([[Lit $"date_"; Year; Lit $"-"; Month; Lit $"-"; Day]], [$"date_{yyyy}-{mm}-{dd}"])] ->
  daily_partitions folders /\ chronological (dataset_template $"bucket/set" folders) /\ written_as folders texts.
Proof.
  assert (G : forall p, (forall s, In (Lit s) p -> forallb (fun c => negb (existsb (Ascii.eqb c) $"{}/.")) s = true) -> (exists g, In g p /\ g <> Lit []) -> partition_folder p).
  { intros p H N. split; [|exact N]. intros s Hs. specialize (H s Hs). rewrite forallb_forall in H.
    repeat split; intros I; apply H in I; discriminate I. }
  intros H. destruct H as [H|[H|[H|[]]]]; injection H as <- <-; (split; [split; [|split]|split]).
  - intros p [<-|[<-|[<-|[]]]]; apply G; try (intros s [[= <-]|[Q|[]]]; [reflexivity|discriminate]); eexists; (split; [right; left; reflexivity|discriminate]).
  - intros g [<-|[<-|[<-|[]]]]; cbn; tauto.
  - intros g [<-|[<-|[<-|[]]]]; cbn; intuition discriminate.
  - exists [Lit $"bucket/set"; Lit $"/"; Lit $"year_"], [Lit $"/"; Lit $"month_"], [Lit $"/"; Lit $"day_"], []. split; [reflexivity|].
    split; [|split]; [intros g [<-|[<-|[<-|[]]]]|intros g [<-|[<-|[]]]|]; cbn; intuition discriminate.
  - split; [discriminate|reflexivity].
  - intros p [<-|[<-|[<-|[]]]]; apply G; try (intros s [Q|[]]; discriminate); eexists; (split; [left; reflexivity|discriminate]).
  - intros g [<-|[<-|[<-|[]]]]; cbn; tauto.
  - intros g [<-|[<-|[<-|[]]]]; cbn; intuition discriminate.
  - exists [Lit $"bucket/set"; Lit $"/"], [Lit $"/"], [Lit $"/"], []. split; [reflexivity|].
    split; [|split]; [intros g [<-|[<-|[<-|[]]]]|intros g [<-|[<-|[]]]|]; cbn; intuition discriminate.
  - split; [discriminate|reflexivity].
  - intros p [<-|[]]; apply G; [|eexists; (split; [left; reflexivity|discriminate])].
    intros s [[= <-]|[Q|[[= <-]|[Q|[[= <-]|[Q|[]]]]]]]; try discriminate; reflexivity.
  - intros g [<-|[<-|[<-|[]]]]; cbn; tauto.
  - intros g [<-|[<-|[<-|[]]]]; cbn; intuition discriminate.
  - exists [Lit $"bucket/set"; Lit $"/"; Lit $"date_"], [Lit $"-"], [Lit $"-"], []. split; [reflexivity|].
    split; [|split]; [intros g [<-|[<-|[<-|[]]]]|intros g [<-|[<-|[]]]|]; cbn; intuition discriminate.
  - split; [discriminate|reflexivity].
Qed.

Lemma out_of_order :
  exists folders, daily_partitions folders /\
  let read a b s := records_read (read_stored loads unz no_other (fun _ => 0%Z) (fun _ => Raise ValueError) Disk 0%Z []
                                    (dataset_template $"bucket/set" folders) a b 10 s) in
  exists s, Adapters.proper Disk s /\
    read (of_fields 2024 2 28 0 0 0) (of_fields 2024 2 28 23 59 59) s = Ok [a_record 1] /\
    read (of_fields 2024 2 29 0 0 0) (of_fields 2024 2 29 23 59 59) s = Raise DataNotFoundError /\
    read (of_fields 2024 3 1 0 0 0) (of_fields 2024 3 1 23 59 59) s = Ok [a_record 2] /\
    read (of_fields 2024 2 28 0 0 0) (of_fields 2024 3 1 23 59 59) s = Ok [a_record 2; a_record 1].
Proof.
  exists [[Day]; [Month]; [Year]]. split.
  - split; [|split].
    + intros p [<-|[<-|[<-|[]]]]; (split; [intros s [Q|[]]; discriminate|]); eexists; (split; [left; reflexivity|discriminate]).
    + intros g [<-|[<-|[<-|[]]]]; cbn; tauto.
    + intros g [<-|[<-|[<-|[]]]]; cbn; intuition discriminate.
  - exists [(place_of Disk $"set/28/02/2024/a.jsonl", dumps (a_record 1) ++ ["010"%char]); (place_of Disk $"set/01/03/2024/a.jsonl", dumps (a_record 2) ++ ["010"%char])].
    split; [|split; [|split; [|split]]; vm_compute; reflexivity]. split.
    + cbn; repeat constructor; cbn; intuition discriminate.
    + intros p v [H|[H|[]]]; injection H as <- _; try (vm_compute; reflexivity);
        (split; [discriminate|split; [discriminate|cbv; intuition discriminate]]).
Qed.
