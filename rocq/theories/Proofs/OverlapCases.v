(** Two batches of the same folder. *)
From Verif.Base Require Import Py PyFacts Value.
From Verif.Model Require Import Frames Writers Reader Json.
From Verif.Spec Require Import Frames Json Writers Reader.
From Verif.Proofs Require Import ReaderCases.

(** a writer of the frame [frame] on the node [node], its clock starting at 2^60 + [start] *)
Definition frame_set (frame node : str) (start : N) : setting value :=
  mkSetting value Jsonl 30 (folder ++ $"/" ++ frame ++ $"/{stem}.jsonl") node false
    (fun _ => Ok tt) (fun v => Ok (dumps v ++ ["010"%char])) (fun t => "z"%char :: t)
    (fun g => Z.of_nat (length g)) (fun g => Ok []) (fun n => 2 ^ 60 + start + N.of_nat n)%N (fun _ => None).
(** it writes three records and finalizes; of its storage operations the first [k] have been made *)
Definition a_batch (frame node : str) (start : N) (first : Z) (k : nat) : batch value :=
  let rs := [a_record first; a_record (first + 1); a_record (first + 2)] in
  let ran := run (frame_set frame node start) (new_writer nothing) (map Append rs ++ map Finalize [false]) in
  mkBatch value (frame_set frame node start) frame $".jsonl" rs [false] (fst ran) (snd ran)
    (firstn k (puts (st_world (snd ran)))).

Definition noon : str := $"as_at_20240229-120000".
Definition noon_5 : str := $"as_at_20240229-120005".
(** started at noon; started five seconds later; the second on the same second as the first *)
Definition early k : batch value := a_batch noon $"1f-2a" 0 10 k.
Definition late k : batch value := a_batch noon_5 $"1f-2b" 1000 20 k.
Definition twin k : batch value := a_batch noon $"1f-2b" 1000 20 k.
Definition all_of (bs : list (batch value)) : list (str * str) := flat_map b_left bs.

Lemma plain_b s : forallb plain_char s = true -> plain s.
Proof. intros H c Hc. rewrite forallb_forall in H. auto. Qed.


Ltac ran_tac :=
  unfold ran; split; [|split; [|split; [|split; [|split; [|split; [|split; [|split]]]]]]];
  [ split; [reflexivity|]; repeat (split; [cbv; intuition discriminate|]);
    split; [eexists (folder ++ $"/as_at_20240229-12000"), _; split; [reflexivity|discriminate]|];
    split; cbv; intuition discriminate
  | let n := fresh in let m := fresh in intros n m; discriminate
  | apply plain_b; reflexivity
  | apply plain_b; reflexivity
  | split; [cbv; intuition discriminate|reflexivity]
  | reflexivity
  | vm_compute; reflexivity
  | match goal with |- good_clock _ ?a => replace a with 3%nat by (vm_compute; reflexivity) end;
    split; intros; cbn [s_clock b_setting early late twin a_batch frame_set]; [change (2 ^ 64)%N with (2 ^ 60 * 16)%N|]; lia
  | eexists; left; reflexivity ].
Lemma early_ran k : ran folder (early k).
Proof. ran_tac. Qed.
Lemma late_ran k : ran folder (late k).
Proof. ran_tac. Qed.
Lemma twin_ran k : ran folder (twin k).
Proof. ran_tac. Qed.

(** the folder before: a complete frame of the day before *)
Definition day_before : list entry :=
  [mkEntry None (Some $"as_at_20240228-120000") $"100-2.jsonl";
   mkEntry None (Some $"as_at_20240228-120000") $"frame.complete"].
Lemma day_before_ok : NoDup day_before /\ tidy folder (live folder day_before) /\
  forall f, f = noon \/ f = noon_5 -> older_frames (live folder day_before) f.
Proof.
  assert (I: forall P, (forall e, In e day_before -> P e) -> forall e, live folder day_before e -> P e) by (intros P H e [He _]; auto).
  assert (NB: forall e, live folder day_before e -> e_by e = None) by (apply I; intros e [<-|[<-|[]]]; auto).
  split; [|split].
  - unfold day_before. repeat constructor; cbn; intuition discriminate.
  - constructor.
    + intros c Hc. vm_compute in Hc.
      repeat (destruct Hc as [<-|Hc]; [repeat split; intros e b f He Hb; rewrite NB in Hb by auto; discriminate|]). destruct Hc.
    + intros e b f He Hb. rewrite NB in Hb by auto. discriminate.
    + intros e f [He _] Ef. assert (f = $"as_at_20240228-120000") by (destruct He as [<-|[<-|[]]]; injection Ef as <-; reflexivity).
      subst f. split; [cbv; intuition discriminate|]. split; [reflexivity|]. split; [reflexivity|].
      intros e' b f' He' Hb. rewrite NB in Hb by auto. discriminate.
    + intros e e' f f' [He _] [He' _]. destruct He as [<-|[<-|[]]], He' as [<-|[<-|[]]]; intros [= <-] [= <-]; reflexivity.
    + intros e [He _]. destruct He as [<-|[<-|[]]]; (split; [cbv; intuition discriminate|]); repeat split; discriminate.
  - intros f Hf e [He _]. destruct Hf as [-> | ->];
    (destruct He as [<-|[<-|[]]]; (split; [reflexivity|]); eexists; (split; [reflexivity|]); split; reflexivity).
Qed.
Definition stored_names (bs : list (batch value)) : list str :=
  map (name_in folder) day_before ++ map fst (all_of bs).
Lemma stored_names_ok bs n : In n (stored_names bs) <->
  In n (map (name_in folder) day_before) \/ exists b, In b bs /\ In n (map fst (b_left b)).
Proof.
  unfold stored_names. rewrite in_app_iff. split; intros [H|H]; auto.
  - right. apply in_map_iff in H. destruct H as (x & <- & H). apply in_flat_map in H. destruct H as (b & Hb & H).
    exists b. split; auto. apply in_map; auto.
  - right. destruct H as (b & Hb & H). apply in_map_iff in H. destruct H as (x & <- & H). apply in_map, in_flat_map. eauto.
Qed.
Fixpoint nodupb (l : list str) : bool :=
  match l with [] => true | x :: l' => negb (existsb (str_eqb x) l') && nodupb l' end.
Lemma nodupb_ok l : nodupb l = true -> NoDup l.
Proof.
  induction l as [|x l IH]; cbn [nodupb]; [constructor|]. rewrite andb_true_iff, negb_true_iff. intros [H1 H2].
  constructor; auto. intros Hx. assert (existsb (str_eqb x) l = true); [|congruence].
  apply existsb_exists. exists x. split; auto. apply str_eqb_refl.
Qed.
Lemma content_in log name data : content_of log name = Some data -> In (name, data) log.
Proof.
  induction log as [|[n d] log IH]; cbn [content_of]; [discriminate|].
  destruct (content_of log name) as [d'|].
  - intros [= <-]. right. auto.
  - destruct (str_eqb n name) eqn:E; [|discriminate]. apply str_eqb_eq in E. subst. intros [= <-]. left. auto.
Qed.
Lemma all_read bs : forallb (fun p => match content_of (all_of bs) (fst p) with Some d => str_eqb d (snd p) | None => false end) (all_of bs) = true ->
  forall b, In b bs -> reads_log (read_from (all_of bs)) (b_left b).
Proof.
  intros H b Hb name data Hc. apply content_in in Hc. rewrite forallb_forall in H.
  specialize (H (name, data)). cbn [fst snd] in H. unfold read_from.
  destruct (content_of (all_of bs) name); [|exfalso; assert (false = true) by (apply H; apply in_flat_map; eauto); discriminate].
  f_equal. apply str_eqb_eq, H. apply in_flat_map. eauto.
Qed.
