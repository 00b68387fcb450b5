(** Proofs: every format but text is read back. *)
From Verif.Base Require Import Py PyFacts Value ValueFacts.
From Verif.Model Require Import Dates Cursor DictSet Storage Writers Reader Formats.
From Verif.Spec Require Import Json Writers Reader Formats.
From Verif.Proofs Require DictSet.
From Verif.Proofs Require Import Reader RoundTrip.

(** ** The values of a flat record are no lists or dictionaries *)
Definition atom (v : value) : Prop := match v with VList _ | VDict _ => False | _ => True end.
Lemma mkdict_In items kv : In kv (mkdict items) -> In kv items.
Proof.
  destruct kv as [k v]. intros H.
  assert (G : dget str_eqb k (mkdict items) = Some v).
  { apply (In_dget str_eqb str_eqb_eq); auto. apply DictSet.mkdict_keys_NoDup. }
  rewrite DictSet.mkdict_get in G. apply (dget_Some_In str_eqb str_eqb_eq) in G. now apply in_rev.
Qed.
Lemma entries_atoms v : forall sep k kv, In kv (entries sep k v) -> atom (snd kv).
Proof.
  induction v using value_ind'; intros sep k kv Hin; try (destruct Hin as [<-|[]]; exact I).
  - cbn [entries] in Hin. revert Hin. generalize 0%N as n. induction H as [|w l Hw F IH]; intros n; [intros []|].
    intros Hin. apply in_app_iff in Hin as [Hin|Hin]; [|eapply IH, Hin]. apply mkdict_In in Hin. eapply Hw, Hin.
  - rewrite DictSet.entries_dict in Hin. apply mkdict_In, in_flat_map in Hin as (x & Hx & Hin).
    rewrite Forall_forall in H. eapply (H x Hx), Hin.
Qed.
Lemma flatten_distinct d : distinct_keys (VDict (flatten d)).
Proof.
  split; [apply DictSet.mkdict_keys_NoDup|].
  assert (A : forall kv, In kv (flatten d) -> atom (snd kv)).
  { intros kv H. apply mkdict_In, in_flat_map in H as (x & _ & H). eapply entries_atoms, H. }
  induction (flatten d) as [|kv l IH]; [exact I|]. split.
  - pose proof (A kv (or_introl eq_refl)) as Q. destruct (snd kv); cbn in Q; tauto.
  - apply IH. intros x Hx. apply A. now right.
Qed.

(** ** Lines *)
Lemma lines_held E (line : value -> result str) g texts :
  (forall r t, In r g -> s_ser E r = Ok t -> exists l, line r = Ok l /\ t = l ++ ["010"%char]) ->
  texts_of E g texts -> exists ls, Forall2 (fun r l => line r = Ok l) g ls /\ concat texts = lines_text ls.
Proof.
  intros H T. induction T as [|r t g texts Ht T IH].
  - exists []. split; [constructor|reflexivity].
  - destruct (H r t (or_introl eq_refl) Ht) as (l & Hl & ->). destruct IH as (ls & F & E1); [intros x u Hx; apply H; now right|].
    exists (l :: ls). split; [now constructor|]. cbn [concat]. rewrite E1. reflexivity.
Qed.
Section Lines.
  Context (parse : str -> result value) (line : value -> result str) (image : value -> value).
  Lemma lines_parsed g ls : Forall2 (fun r l => line r = Ok l) g ls ->
    (forall r l, In r g -> line r = Ok l -> parse l = Ok (image r) /\ one_line l) ->
    Forall one_line ls /\ map_gen parse ls None = (map image g, None).
  Proof.
    induction 1 as [|r l g ls Hl F IH]; intros H; [split; [constructor|reflexivity]|].
    destruct (H r l (or_introl eq_refl) Hl) as [H1 H2]. destruct IH as [I1 I2]; [intros x u Hx; apply H; now right|].
    split; [now constructor|]. cbn [map map_gen]. rewrite H1, I2. reflexivity.
  Qed.
End Lines.

Section Formats.
  Context (orjson json : value -> result str) (to_str : value -> str) (parse : str -> result value) (unzstd : str -> result str)
          (other : str -> str -> generator value).
  Context (E : setting value) (e : str).
  Hypothesis HS : forall r, s_ser E r = serialise orjson json to_str (s_format E) r.
  Hypothesis HC : faithful_orjson orjson parse.

  Lemma lines_decode (f : format) : s_format E = f -> f = Jsonl \/ f = Zstd ->
    forall r t, writable orjson r -> s_ser E r = Ok t -> exists l, orjson r = Ok l /\ t = l ++ ["010"%char].
  Proof.
    intros F Hf r t (_ & l & Hl) Ht. rewrite HS, F in Ht. unfold serialise in Ht.
    destruct Hf as [-> | ->]; rewrite Hl in Ht; cbn [bind] in Ht; injection Ht as <-; eauto.
  Qed.
  Lemma jsonl_read : s_format E = Jsonl -> read_as parse unzstd other E (e ++ $".jsonl") (writable orjson) (fun r => r).
  Proof.
    intros F. exists e, $".jsonl". split; [reflexivity|]. split; [cbn; tauto|]. intros g data Hg Hh.
    unfold holds in Hh. rewrite F in Hh. destruct Hh as (texts & T & ->).
    destruct (lines_held E orjson g texts) as (ls & L & ->); [|exact T|].
    { intros r t Hr. apply (lines_decode Jsonl F); auto. }
    destruct (lines_parsed parse orjson (fun r => r) g ls L) as [O P].
    { intros r l Hr Hl. apply HC; [apply (Hg r Hr)|exact Hl]. }
    replace (decode parse unzstd other $".jsonl" (lines_text ls)) with (Some (map_gen parse (splitlines (lines_text ls)) None)) by (vm_compute; reflexivity).
    now rewrite splitlines_text, P.
  Qed.
  Lemma zstd_read : s_format E = Zstd -> (forall t, unzstd (s_zstd E t) = Ok t) ->
    read_as parse unzstd other E (e ++ $".zstd") (writable orjson) (fun r => r).
  Proof.
    intros F Hz. exists e, $".zstd". split; [reflexivity|]. split; [cbn; tauto|]. intros g data Hg Hh.
    unfold holds in Hh. rewrite F in Hh. destruct Hh as (texts & T & ->).
    destruct (lines_held E orjson g texts) as (ls & L & ->); [|exact T|].
    { intros r t Hr. apply (lines_decode Zstd F); auto. }
    destruct (lines_parsed parse orjson (fun r => r) g ls L) as [O P].
    { intros r l Hr Hl. apply HC; [apply (Hg r Hr)|exact Hl]. }
    replace (decode parse unzstd other $".zstd" (s_zstd E (lines_text ls))) with
        (Some (match unzstd (s_zstd E (lines_text ls)) with
               | Raise e => ([], Some e)
               | Ok text => map_gen parse (removelast (split LF text)) None
               end)) by (vm_compute; reflexivity).
    rewrite Hz, split_text by (apply Forall_forall; exact O). now rewrite P.
  Qed.
  Lemma flat_read : s_format E = Flat ->
    read_as parse unzstd other E (e ++ $".jsonl") (fun r => exists d, r = VDict d) flattened.
  Proof.
    intros F. exists e, $".jsonl". split; [reflexivity|]. split; [cbn; tauto|]. intros g data Hg Hh.
    unfold holds in Hh. rewrite F in Hh. destruct Hh as (texts & T & ->).
    destruct (lines_held E (fun r => orjson (flattened r)) g texts) as (ls & L & ->); [|exact T|].
    { intros r t Hr Ht. destruct (Hg r Hr) as (d & ->). rewrite HS, F in Ht. unfold serialise in Ht. cbn [flattened].
      destruct (orjson (VDict (flatten d))) as [l|]; [|discriminate]. cbn [bind] in Ht. injection Ht as <-. eauto. }
    destruct (lines_parsed parse (fun r => orjson (flattened r)) flattened g ls L) as [O P].
    { intros r l Hr Hl. destruct (Hg r Hr) as (d & ->). apply HC; [apply flatten_distinct|exact Hl]. }
    replace (decode parse unzstd other $".jsonl" (lines_text ls)) with (Some (map_gen parse (splitlines (lines_text ls)) None)) by (vm_compute; reflexivity).
    now rewrite splitlines_text, P.
  Qed.
End Formats.
