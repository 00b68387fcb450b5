(** Concrete cases: collected sets without repeated records. *)
From Verif.Base Require Import Py Value.
From Verif.Model Require Import DictSet Collections.
From Verif.Spec Require Import DictSet Collections.

Definition byte_number (s : str) : Z := fold_left (fun a c => a * 257 + Z.of_N (N_of_ascii c) + 1)%Z s 0%Z.
Definition members : list record :=
  [[($"team", VStr $"x"); ($"age", VInt 3)]; [($"team", VStr $"y"); ($"age", VInt 3)];
   [($"team", VStr $"x"); ($"age", VInt 3)]; [($"team", VStr $"x"); ($"age", VInt 4)];
   [($"team", VStr $"y"); ($"age", VInt 3)]].

Definition deduped_people_claim : Prop :=
  collect_set_deduped byte_number $"team" members =
    Ok [(VStr $"x", [[($"age", VInt 3)]; [($"age", VInt 4)]]); (VStr $"y", [[($"age", VInt 3)]])] /\
  NoDup [$"team"; $"age"] /\ (forall r, In r members -> map fst r = [$"team"; $"age"]) /\
  (forall r v, In r members -> In v (map snd r) -> can_be_key v) /\
  (forall a b v w, In a members -> In b members -> In v (map snd a) -> In w (map snd b) ->
     py_str v = py_str w \/ py_eq v w = true -> v = w) /\
  (forall a b, In a members -> In b members ->
     xor_all byte_number (numbered 0 (map snd a)) = xor_all byte_number (numbered 0 (map snd b)) ->
     numbered 0 (map snd a) = numbered 0 (map snd b)).
Lemma deduped_people_holds : deduped_people_claim.
Proof.
  assert (V : forall r v, In r members -> In v (map snd r) -> v = VStr $"x" \/ v = VStr $"y" \/ v = VInt 3 \/ v = VInt 4).
  { intros r v Hr Hv. repeat (destruct Hr as [<-|Hr]; [destruct Hv as [<-|[<-|[]]]; cbn [fst snd]; auto|]). destruct Hr. }
  split; [vm_compute; reflexivity|]. split; [|split; [|split; [|split]]].
  - repeat constructor; cbn; intuition discriminate.
  - intros r Hr. repeat (destruct Hr as [<-|Hr]; [reflexivity|]). destruct Hr.
  - intros r v Hr Hv. destruct (V r v Hr Hv) as [->|[->|[->| ->]]]; exact I.
  - intros a b v w Ha Hb Hv Hw. destruct (V a v Ha Hv) as [->|[->|[->| ->]]], (V b w Hb Hw) as [->|[->|[->| ->]]];
      vm_compute; intros [H|H]; (reflexivity || discriminate H).
  - intros a b Ha Hb. repeat (destruct Ha as [<-|Ha]; [repeat (destruct Hb as [<-|Hb];
      [vm_compute; intros H; (reflexivity || discriminate H)|]); destruct Hb|]). destruct Ha.
Qed.

Lemma other_columns_lost : exists column rows r, Forall (fun r => NoDup (map fst r)) rows /\ In r rows /\
  forall hash, exists groups, collect_set_deduped hash column rows = Ok groups /\
    forall k g r', In (k, g) groups -> In r' g -> ~ same_record r' (without column r).
Proof.
  exists $"team", [[($"team", VStr $"x"); ($"age", VInt 3)]; [($"team", VStr $"x"); ($"year", VInt 3)]],
    [($"team", VStr $"x"); ($"year", VInt 3)].
  split; [repeat constructor; cbn; intuition discriminate|]. split; [right; left; reflexivity|]. intros hash.
  exists [(VStr $"x", [[($"age", VInt 3)]])]. split.
  - unfold collect_set_deduped, distinct. cbn [dedupe fingerprint dvals map snd mem existsb]. rewrite Z.eqb_refl. reflexivity.
  - intros k g r' [H|[]]. injection H as <- <-. intros [<-|[]] [S _].
    destruct (S $"age" (VInt 3) (or_introl eq_refl)) as (w & [H|[]] & _). discriminate H.
Qed.
