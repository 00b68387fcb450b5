(** Concrete cases for the theorems on failing storage and destructors. *)
From Verif.Base Require Import Py PyFacts Value.
From Verif.Model Require Import Paths Frames Writers Stream Adapters Collector.
From Verif.Spec Require Import Paths Writers Stream Collector Json System.
From Verif.Proofs Require Import ReaderCases SystemCases.

(** records are a text and a user; blobs of more than 100 characters are stored, at most one writer is left in the pool *)
Definition a_stream (fails : nat -> option (option nat)) : streaming (str * str) str :=
  mkStreaming _ _ $"data/{yyyy}/user={user}" (fun _ => true) (fun r _ => [snd r]) (fun v => v)
    (dedup str_eqb) (dedup (list_eqb str_eqb)) 1 60 (fun n => Z.of_nat n)
    (mkSetting _ Jsonl 100 [] $"node" false (fun _ => Ok tt) (fun r => Ok (fst r ++ ["010"%char])) (fun s => s)
       (fun _ => 0%Z) (fun g => Ok []) (fun n => N.of_nat n + 2 ^ 60)%N fails) $".jsonl".
Definition today : moment := mkMoment 2024 2 3 4 5 6.
Definition user_a : str := $"data/2024/user=a".
Definition nth_fails (bad : list nat) (n : nat) : option (option nat) :=
  if existsb (Nat.eqb n) bad then Some None else None.
(** the attendant cannot store the record of a; later one of a is stored, and then the first *)
Definition evicted : list (cevent (R:=str * str)) :=
  [Event (SAppend ($"one", $"a") today); Event (SAppend ($"two", $"b") today); Event Attend; Event (SAppend ($"three", $"a") today);
   Event SFinalize; Collect 0].
Definition run_evicted (bad : list nat) := crun (a_stream (nth_fails bad)) new_collected evicted.

Lemma clean bad : clean_failures (m_base (a_stream (nth_fails bad))).
Proof. intros n k. cbn. unfold nth_fails. destruct (existsb _ _); discriminate. Qed.

(** a batch writer which is thrown away without a finalize: it holds two of the four records it took *)
Definition open_run := run E (new_writer nothing) (map Append records ++ map Finalize []).
Definition open_log := puts (discard E (snd open_run)).
Definition open_ops : list operation :=
  map (fun e : str * str => StoreBlob (2 ^ 60 + (if str_eqb (fst e) (blob_name (s_filename E) $"1f" (2 ^ 60)) then 0 else 2)) (snd e)) open_log.
Definition after_open (k : kind) : result (list value) :=
  let* (_, s) := operate k (new k) $"1f" open_ops (before k) in read k s.
Lemma open_ok : good_clock E (attempts (discard E (snd open_run))) /\ crashed open_log open_log /\
  taken E (map Append records ++ map Finalize []) (fst open_run) = [a_record 1; a_record 2; a_record 3; a_record 4] /\
  length (puts (st_world (snd open_run))) = 1%nat /\ length open_log = 2%nat /\ operations_of E open_log open_ops.
Proof.
  split; [|split; [|split; [|split; [|split]]]].
  - replace (attempts (discard E (snd open_run))) with 3%nat by (vm_compute; reflexivity). split; intros; cbn [s_clock E]; [change (2 ^ 64)%N with (2 ^ 60 * 16)%N|]; lia.
  - exists (length open_log). left. symmetry. apply firstn_all.
  - vm_compute. reflexivity.
  - vm_compute. reflexivity.
  - vm_compute. reflexivity.
  - vm_compute. repeat constructor.
Qed.
