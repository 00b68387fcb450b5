(** A concrete text codec and a concrete hash, to show that the hypotheses of the cursor
    theorems can be met. *)
From Verif.Base Require Import Py PyFacts.
From Verif.Model Require Import Cursor.

Definition enc_str (s : str) : str := flat_map (fun c => ["1"%char; c]) s ++ ["0"%char].
Fixpoint dec_str (s : str) : option (str * str) :=
  match s with
  | "0"%char :: r => Some ([], r)
  | "1"%char :: c :: r => match dec_str r with Some (x, r') => Some (c :: x, r') | None => None end
  | _ => None
  end.
Lemma dec_enc_str s r : dec_str (enc_str s ++ r) = Some (s, r).
Proof. induction s as [|c s IH]; [reflexivity|].
  change (enc_str (c :: s) ++ r) with ("1"%char :: c :: (enc_str s ++ r)). cbn [dec_str].
  rewrite IH. reflexivity.
Qed.

Definition undecZ (s : str) : option Z :=
  match s with
  | "-"%char :: r => option_map (fun n => - Z.of_N n)%Z (undec r)
  | _ => option_map Z.of_N (undec s)
  end.
Lemma undecZ_decZ z : undecZ (decZ z) = Some z.
Proof.
  unfold decZ. destruct (z <? 0)%Z eqn:E.
  - cbn [app list_ascii_of_string undecZ]. rewrite undec_dec. simpl. f_equal. lia.
  - assert (H : undecZ (dec (Z.to_N z)) = option_map Z.of_N (undec (dec (Z.to_N z)))).
    { pose proof (dec_digits (Z.to_N z)) as Hd. destruct (dec (Z.to_N z)) as [|c s]; auto.
      specialize (Hd c (or_introl eq_refl)).
      assert (Hc : c <> "-"%char) by (intros ->; discriminate).
      destruct c as [[] [] [] [] [] [] [] []]; try reflexivity. congruence. }
    rewrite H, undec_dec. simpl. f_equal. lia.
Qed.

Definition enc_val (v : cval) : str :=
  match v with CInt z => $"i" ++ enc_str (decZ z) | CStr s => $"s" ++ enc_str s end.
Definition dec_val (s : str) : option (cval * str) :=
  match s with
  | "i"%char :: r => match dec_str r with
                     | Some (x, r') => option_map (fun z => (CInt z, r')) (undecZ x) | None => None end
  | "s"%char :: r => match dec_str r with Some (x, r') => Some (CStr x, r') | None => None end
  | _ => None
  end.
Lemma dec_enc_val v r : dec_val (enc_val v ++ r) = Some (v, r).
Proof.
  destruct v as [z|s]; cbn [enc_val list_ascii_of_string app dec_val]; rewrite dec_enc_str; auto.
  rewrite undecZ_decZ. reflexivity.
Qed.

Fixpoint ex_dumps (d : cdict) : str :=
  match d with
  | [] => $"."
  | (k, v) :: d' => $"k" ++ enc_str k ++ enc_val v ++ ex_dumps d'
  end.
Fixpoint ex_loads_f (n : nat) (s : str) : result cdict :=
  match n with
  | O => Raise ValueError
  | S n' =>
      match s with
      | ["."%char] => Ok []
      | "k"%char :: r =>
          match dec_str r with
          | Some (k, r1) =>
              match dec_val r1 with
              | Some (v, r2) => let* d := ex_loads_f n' r2 in Ok ((k, v) :: d)
              | None => Raise ValueError
              end
          | None => Raise ValueError
          end
      | _ => Raise ValueError
      end
  end.
Definition ex_loads (s : str) : result cdict := ex_loads_f (S (length s)) s.

Lemma ex_loads_f_dumps d : forall n, (length (ex_dumps d) <= n)%nat -> ex_loads_f n (ex_dumps d) = Ok d.
Proof.
  induction d as [|[k v] d IH]; intros n Hn; (destruct n as [|n]; [simpl in Hn; lia|]).
  - reflexivity.
  - cbn [ex_dumps list_ascii_of_string app ex_loads_f] in *.
    rewrite dec_enc_str, dec_enc_val, IH; [reflexivity|].
    simpl in Hn. rewrite !app_length in Hn. lia.
Qed.
Lemma ex_codec d : ex_loads (ex_dumps d) = Ok d.
Proof. apply ex_loads_f_dumps. lia. Qed.
Lemma ex_dumps_nonempty d : ex_dumps d <> [].
Proof. destruct d as [|[k v] d]; discriminate. Qed.

(** an injective hash: the name read as a number in base 257 *)
Definition ex_hash (s : str) : Z := fold_right (fun c acc => 1 + Z.of_N (N_of_ascii c) + 257 * acc)%Z 0%Z s.
Lemma ex_hash_nonneg s : (0 <= ex_hash s)%Z.
Proof. induction s as [|c s IH]; cbn [ex_hash fold_right]; [lia|]. fold (ex_hash s). lia. Qed.
Lemma ex_hash_inj a b : ex_hash a = ex_hash b -> a = b.
Proof.
  revert b. induction a as [|c a IH]; intros [|d b]; cbn [ex_hash fold_right]; auto.
  - fold (ex_hash b). pose proof (ex_hash_nonneg b). lia.
  - fold (ex_hash a). pose proof (ex_hash_nonneg a). lia.
  - fold (ex_hash a) (ex_hash b). intros H.
    pose proof (N_of_ascii_bound c). pose proof (N_of_ascii_bound d).
    assert (E : N_of_ascii c = N_of_ascii d) by lia.
    assert (E2 : ex_hash a = ex_hash b) by lia.
    apply N_of_ascii_inj in E. apply IH in E2. congruence.
Qed.
