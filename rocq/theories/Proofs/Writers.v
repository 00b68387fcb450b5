(** Lemmas about the batch writer. *)
From Coq Require Import Sorted.
From Verif.Base Require Import Py PyFacts.
From Verif.Model Require Import Cursor Writers.
From Verif.Spec Require Import Writers.

Lemma rstrip_slash_snoc d c : c <> "/"%char -> rstrip_slash (d ++ [c] ++ $"/") = d ++ [c].
Proof.
  intros Hc. induction d as [|x d IH].
  - cbn. destruct (Ascii.eqb_spec c "/"%char); [congruence|reflexivity].
  - cbn [app rstrip_slash]. cbn [app] in IH. rewrite IH. destruct d; reflexivity.
Qed.

Lemma split_last dir x : ~ In "/"%char x -> split "/"%char (dir ++ $"/" ++ x) = split "/"%char dir ++ [x].
Proof.
  intros Hx. rewrite <- (join_split "/"%char dir) at 1.
  change $"/" with ["/"%char].
  rewrite <- (join_split "/"%char x) at 1. rewrite <- join_app by apply split_nonempty.
  rewrite (split_single _ x Hx). apply split_join.
  - destruct (split "/"%char dir); discriminate.
  - intros w Hw. apply in_app_iff in Hw. destruct Hw as [Hw|[<-|[]]]; auto. eapply split_no_sep; eauto.
Qed.

Lemma not_contains_brace s : ~ In "{"%char s -> contains $"{stem}" s = false.
Proof.
  intros H. apply contains_false. intros a b ->. apply H. apply in_app_iff. right. left. reflexivity.
Qed.

(** *** hexadecimal *)
Lemma hex_fuel_app f n acc : hex_fuel f n acc = hex_fuel f n [] ++ acc.
Proof.
  revert n acc; induction f as [|f IH]; intros n acc; cbn [hex_fuel]; auto.
  destruct (n <? 16)%N; auto. rewrite IH, (IH _ [_]), <- app_assoc. reflexivity.
Qed.

Definition hex_char (c : ascii) : bool :=
  let n := N_of_ascii c in ((48 <=? n) && (n <=? 57) || (97 <=? n) && (n <=? 102))%N.
Lemma small_cases n : (n < 16)%N -> In n [0;1;2;3;4;5;6;7;8;9;10;11;12;13;14;15]%N.
Proof.
  intros H. destruct n as [|p]; [left; auto|].
  do 4 (destruct p as [p|p|]; try (cbn; intuition; fail)); lia.
Qed.
Lemma hex_digit_char n : (n < 16)%N -> hex_char (hex_digit n) = true.
Proof. intros H. apply small_cases in H. cbn in H. intuition subst; reflexivity. Qed.
Lemma hex_digit_lt a b : (a < b < 16)%N -> (N_of_ascii (hex_digit a) < N_of_ascii (hex_digit b))%N.
Proof.
  intros [H1 H2]. assert (Ha: (a < 16)%N) by lia. apply small_cases in Ha. apply small_cases in H2.
  cbn in Ha, H2. intuition subst; first [lia | reflexivity].
Qed.
Lemma hex_fuel_chars f n c : In c (hex_fuel f n []) -> hex_char c = true.
Proof.
  revert n; induction f as [|f IH]; intros n; cbn [hex_fuel]; [intros []|].
  assert (D: hex_char (hex_digit (n mod 16)) = true) by (apply hex_digit_char; lia).
  destruct (n <? 16)%N.
  - intros [<-|[]]; auto.
  - rewrite hex_fuel_app. rewrite in_app_iff. intros [H|[<-|[]]]; eauto.
Qed.
Lemma hex_chars n c : In c (hex n) -> hex_char c = true.
Proof. apply hex_fuel_chars. Qed.
Lemma hex_nonempty n : hex n <> [].
Proof.
  unfold hex. cbn [hex_fuel]. destruct (n <? 16)%N; [discriminate|].
  rewrite hex_fuel_app. destruct (hex_fuel _ _ _); discriminate.
Qed.

Fixpoint hexk (k : nat) (n : N) : str :=
  match k with O => [] | S k' => hexk k' (n / 16) ++ [hex_digit (n mod 16)] end.
Lemma hexk_length k n : length (hexk k n) = k.
Proof. revert n; induction k; intros n; cbn; auto. rewrite app_length, IHk. cbn. lia. Qed.
Lemma hex_fuel_hexk k f n : (k <= f)%nat -> (16 ^ N.of_nat k <= n < 16 ^ N.of_nat (S k))%N ->
  hex_fuel (S f) n [] = hexk (S k) n.
Proof.
  revert f n; induction k as [|k IH]; intros f n Hf Hn.
  - cbn [hex_fuel hexk app]. change (16 ^ N.of_nat 1)%N with 16%N in Hn.
    destruct (N.ltb_spec n 16); [reflexivity|lia].
  - cbn [hex_fuel].
    assert (P: (0 < 16 ^ N.of_nat k)%N) by (apply N.neq_0_lt_0, N.pow_nonzero; lia).
    rewrite Nat2N.inj_succ, N.pow_succ_r' in Hn. rewrite Nat2N.inj_succ, N.pow_succ_r' in Hn.
    destruct (N.ltb_spec n 16); [rewrite Nat2N.inj_succ, N.pow_succ_r' in Hn; lia|].
    destruct f as [|f]; [lia|].
    rewrite hex_fuel_app, (IH f).
    + reflexivity.
    + lia.
    + rewrite Nat2N.inj_succ, N.pow_succ_r' in Hn |- *. split.
      * apply N.div_le_lower_bound; lia.
      * apply N.div_lt_upper_bound; lia.
Qed.
Lemma hex_hexk k n : (16 ^ N.of_nat k <= n < 16 ^ N.of_nat (S k))%N -> hex n = hexk (S k) n.
Proof.
  intros H. unfold hex. apply hex_fuel_hexk; auto.
  assert (Hn: (0 < n)%N). { assert (0 < 16 ^ N.of_nat k)%N by (apply N.neq_0_lt_0, N.pow_nonzero; lia). lia. }
  destruct n as [|p]; [lia|].
  assert (A: (N.of_nat k <= N.size (N.pos p))%N); [|lia].
  rewrite N.size_log2 by discriminate.
  assert (B: (2 ^ N.of_nat k <= 16 ^ N.of_nat k)%N) by (apply N.pow_le_mono_l; lia).
  assert (C: (N.of_nat k <= N.log2 (N.pos p))%N); [|lia].
  apply N.log2_le_pow2; lia.
Qed.

Lemma str_compare_app a b x y : length a = length b -> str_compare a b = Lt -> str_compare (a ++ x) (b ++ y) = Lt.
Proof.
  revert b; induction a as [|c a IH]; intros [|d b] H; try discriminate.
  cbn [app str_compare]. destruct (N_of_ascii c ?= N_of_ascii d)%N; auto.
Qed.
Lemma str_compare_prefix a x y : str_compare (a ++ x) (a ++ y) = str_compare x y.
Proof. induction a as [|c a IH]; auto. cbn [app str_compare]. rewrite N.compare_refl. auto. Qed.
Lemma hexk_lt k n m : (n < m)%N -> (m < 16 ^ N.of_nat k)%N -> str_compare (hexk k n) (hexk k m) = Lt.
Proof.
  revert n m; induction k as [|k IH]; intros n m Hnm Hm; [change (16 ^ N.of_nat 0)%N with 1%N in Hm; lia|].
  rewrite Nat2N.inj_succ, N.pow_succ_r' in Hm. cbn [hexk].
  destruct (N.eq_dec (n / 16) (m / 16)) as [Heq|Hne].
  - rewrite Heq, str_compare_prefix. cbn [str_compare].
    rewrite (proj2 (N.compare_lt_iff _ _)); auto. apply hex_digit_lt. lia.
  - apply str_compare_app; [rewrite !hexk_length; auto|]. apply IH.
    + assert (n / 16 <= m / 16)%N by (apply N.div_le_mono; lia). lia.
    + apply N.div_lt_upper_bound; lia.
Qed.

Lemma data_of_app dir a b : data_of dir (a ++ b) = data_of dir a ++ data_of dir b.
Proof. apply filter_app. Qed.
Lemma Forall2_app_one {A B} (P : A -> B -> Prop) l l' x y : Forall2 P l l' -> P x y -> Forall2 P (l ++ [x]) (l' ++ [y]).
Proof. intros H1 H2. apply Forall2_app; auto. Qed.
Lemma Forall2_fun {A B} (f : A -> result B) l a b :
  Forall2 (fun x y => f x = Ok y) l a -> Forall2 (fun x y => f x = Ok y) l b -> a = b.
Proof.
  intros H; revert b; induction H; intros b Hb; inversion Hb; subst; auto.
  f_equal; [congruence|auto].
Qed.

Section Run.
  Context {R : Type} (E : setting R) (dir ext : str).
  Hypothesis W : writes_in E dir ext.

  Lemma blob_name_eq t :
    blob_name (s_filename E) (s_node E) t = dir ++ $"/" ++ hex t ++ $"-" ++ s_node E ++ ext.
  Proof.
    destruct W as (F & D & X & _). unfold blob_name. rewrite F.
    assert (Hd: ~ In "{"%char (dir ++ $"/")).
    { rewrite in_app_iff. intros [H|[H|[]]]; [auto|discriminate]. }
    rewrite (app_assoc dir).
    pose proof (replace_skip "{"%char $"stem}" (hex t ++ $"-" ++ s_node E) (dir ++ $"/") ($"{stem}" ++ ext) Hd) as Q.
    change ("{"%char :: $"stem}") with $"{stem}" in Q. rewrite Q.
    rewrite replace_here by discriminate. rewrite replace_none by (discriminate || now apply not_contains_brace).
    rewrite <- !app_assoc. reflexivity.
  Qed.
  Lemma completion_eq : completion_path (s_filename E) = marker dir.
  Proof.
    destruct W as (F & D & X & S & (d & c & Ed & Hc) & _). unfold completion_path, marker. f_equal.
    unfold dirname. rewrite F.
    rewrite split_last by (simpl; intuition discriminate). rewrite removelast_last.
    pose proof (split_nonempty "/"%char dir) as N.
    destruct (split "/"%char dir) as [|w ws] eqn:Es; [congruence|].
    rewrite <- Es. change $"/" with ["/"%char]. rewrite join_split. rewrite Ed, <- app_assoc.
    pose proof (rstrip_slash_snoc d c Hc) as Q. change $"/" with ["/"%char] in Q. rewrite Q. destruct d; reflexivity.
  Qed.
  Lemma name_ne_marker t : blob_name (s_filename E) (s_node E) t <> marker dir.
  Proof.
    rewrite blob_name_eq. unfold marker. intros H. apply app_inv_head in H.
    change $"/frame.complete" with ($"/" ++ $"frame.complete") in H. apply app_inv_head in H.
    assert (I: In "-"%char $"frame.complete") by (rewrite <- H; apply in_app_iff; right; left; auto).
    cbn in I. intuition discriminate.
  Qed.
  Lemma data_of_blob t d : data_of dir [(blob_name (s_filename E) (s_node E) t, d)] =
    [(blob_name (s_filename E) (s_node E) t, d)].
  Proof.
    unfold data_of. cbn [filter fst]. rewrite (proj2 (str_eqb_neq _ _) (name_ne_marker t)). reflexivity.
  Qed.
  Lemma data_of_marker d : data_of dir [(marker dir, d)] = [].
  Proof. unfold data_of. cbn [filter fst]. rewrite str_eqb_refl. reflexivity. Qed.

  (** the buffer holds the records [p] *)
  Definition buffered (b : blobw) (p : list R) : Prop :=
    records_in_buffer b = length p /\
    (if is_parquet (s_format E) then wal b = p
     else exists texts, texts_of E p texts /\ buffer b = concat texts).
  Lemma buffered_open : buffered open_buffer [].
  Proof. split; auto. destruct (is_parquet _); auto. exists []. split; auto. constructor. Qed.

  Lemma write_buffer_holds b p d : buffered b p -> write_buffer E b = Ok d -> holds E p d.
  Proof.
    intros [_ B]. unfold write_buffer, holds. destruct (s_format E); cbn in B; try (intros [= <-]; auto; fail);
    try (destruct B as (ts & T & ->); intros [= <-]; eauto; fail). now rewrite B.
  Qed.

  (** what a commit does *)
  Lemma commit_cases b w p o b' w' : buffered b p -> clean_failures E ->
    commit E b w = (o, (b', w')) ->
    (exists e, o = Raise e /\ b' = b /\ puts w' = puts w /\ (attempts w <= attempts w')%nat) \/
    (p = [] /\ o = Ok [] /\ b' = open_buffer /\ w' = w) \/
    (p <> [] /\ b' = open_buffer /\ exists data, holds E p data /\
       let name := blob_name (s_filename E) (s_node E) (s_clock E (attempts w)) in
       o = Ok name /\ w' = mkWorld (S (attempts w)) (puts w ++ [(name, data)])).
  Proof.
    intros B CF. unfold commit. destruct (Nat.ltb_spec 0 (records_in_buffer b)).
    - destruct (write_buffer E b) as [d|e] eqn:Ew.
      + unfold inner_commit. destruct (s_fails E (attempts w)) as [[k|]|] eqn:Ef.
        * exfalso. eapply CF; eauto.
        * intros [= <- <- <-]. left. eexists. cbn. repeat split; auto.
        * intros [= <- <- <-]. right. right. split.
          { destruct B as [B _]. destruct p; [cbn in B; lia|discriminate]. }
          split; auto. exists d. split; [eapply write_buffer_holds; eauto|]. cbn. auto.
      + intros [= <- <- <-]. left. eexists. repeat split; auto.
    - intros [= <- <- <-]. right. left. split.
      + destruct B as [B _]. destruct p; [auto|cbn in B; lia].
      + auto.
  Qed.

  (** every record but the last fits *)
  Definition small (g : list R) : Prop :=
    (0 <= s_max E)%Z -> is_parquet (s_format E) = false ->
    forall texts, texts_of E g texts -> (Z.of_nat (length (concat (removelast texts))) <= s_max E)%Z.
  Lemma small_nil : small [].
  Proof. intros M _ ts T. inversion T; subst. cbn. lia. Qed.

  Definition inv (s : state) (acc : list R) : Prop :=
    exists groups p,
      Forall2 (holds E) groups (map snd (data_of dir (puts (st_world s)))) /\
      concat groups ++ p = acc /\ buffered (st_blob s) p /\
      Forall (fun g => g <> [] /\ small g) groups /\ small p.

  Definition gain (c : call) (o : outcome) : list R :=
    if is_parquet (s_format E) then not_refused E [c] else accepted [c] [o].

  Lemma data_snd_blob log t d :
    map snd (data_of dir (log ++ [(blob_name (s_filename E) (s_node E) t, d)])) =
    map snd (data_of dir log) ++ [d].
  Proof. rewrite data_of_app, data_of_blob, map_app. reflexivity. Qed.
  Lemma data_snd_marker log d :
    map snd (data_of dir (log ++ [(marker dir, d)])) = map snd (data_of dir log).
  Proof. rewrite data_of_app, data_of_marker, app_nil_r. reflexivity. Qed.

  (** a commit keeps the invariant, for any later use of the state *)
  Lemma commit_inv s acc o b' w' : clean_failures E -> inv s acc ->
    commit E (st_blob s) (st_world s) = (o, (b', w')) ->
    (forall n f, inv (mkState b' w' n f) acc) /\
    (forall x, o = Ok x -> b' = open_buffer).
  Proof.
    intros CF (groups & p & HG & HC & HB & HF & HS) Ec.
    destruct (commit_cases _ _ _ _ _ _ HB CF Ec) as [(e & -> & -> & P & _)|[(-> & -> & -> & ->)|(Np & -> & d & Hd & -> & ->)]].
    - split; [|discriminate]. intros n f. exists groups, p. cbn [st_world st_blob]. rewrite P. auto.
    - split; [|auto]. intros n f. exists groups, []. cbn [st_world st_blob].
      split; [auto|]. split; [auto|]. split; [apply buffered_open|]. auto.
    - split; [|auto]. intros n f. exists (groups ++ [p]), []. cbn [st_world st_blob puts].
      rewrite data_snd_blob. split; [apply Forall2_app_one; auto|]. split.
      + rewrite concat_app. cbn [concat]. rewrite !app_nil_r. exact HC.
      + split; [apply buffered_open|]. split; [|apply small_nil]. apply Forall_app. split; auto.
  Qed.

  Lemma append_step s acc r o s' : clean_failures E -> inv s acc -> step E s (Append r) = (o, s') ->
    inv s' (acc ++ gain (Append r) o).
  Proof.
    intros CF I. unfold step, append. unfold gain. cbn [not_refused accepted].
    destruct (s_check E r) as [u|e] eqn:Ec.
    2:{ intros [= <- <-]. destruct (is_parquet _); rewrite app_nil_r; auto. }
    unfold blob_append. destruct (is_parquet (s_format E)) eqn:Ep.
    - (* parquet *)
      unfold arrow_append. cbn [wal].
      set (b1 := mkBlobw _ _ _).
      assert (I1: forall n f, inv (mkState b1 (st_world s) n f) (acc ++ [r])).
      { intros n f. destruct I as (groups & p & HG & HC & (HB1 & HB2) & HF & HS).
        rewrite Ep in HB2. exists groups, (p ++ [r]). cbn [st_world st_blob].
        split; [auto|]. split; [rewrite app_assoc, HC; auto|]. split.
        - split; [cbn; rewrite app_length; cbn; lia|]. rewrite Ep. cbn. congruence.
        - split; [auto|]. intros _ C. congruence. }
      destruct (s_max E <? _)%Z.
      + destruct (commit E b1 (st_world s)) as [oc [b' w']] eqn:Ecm.
        destruct (commit_inv _ _ _ _ _ CF (I1 0%nat false) Ecm) as [I2 I3].
        destruct oc as [x|e].
        * specialize (I3 x eq_refl). subst b'. intros [= <- <-]. apply I2.
        * intros [= <- <-]. apply I2.
      + intros [= <- <-]. apply I1.
    - (* text *)
      unfold text_append. destruct (s_ser E r) as [t|e] eqn:Es.
      2:{ intros [= <- <-]. rewrite app_nil_r. destruct s; exact I. }
      assert (X: forall b w n f, inv (mkState b w n f) acc ->
        (Z.of_nat (length (buffer b)) <= s_max E \/ b = open_buffer)%Z ->
        forall n' f', inv (mkState (mkBlobw (buffer b ++ t) (wal b) (S (records_in_buffer b))) w n' f') (acc ++ [r])).
      { clear I. intros b w n f (groups & p & HG & HC & (HB1 & HB2) & HF & HS) L n' f'.
        rewrite Ep in HB2. destruct HB2 as (ts & Ht & Hb). exists groups, (p ++ [r]).
        cbn [st_world st_blob] in *.
        assert (Ht': texts_of E (p ++ [r]) (ts ++ [t])) by (apply Forall2_app_one; auto).
        split; [auto|]. split; [rewrite app_assoc, HC; auto|]. split; [split|split].
        - cbn. rewrite app_length; cbn; lia.
        - rewrite Ep. exists (ts ++ [t]). split; auto. cbn. rewrite Hb, concat_app. cbn. now rewrite app_nil_r.
        - auto.
        - intros M _ ts' T'. rewrite (Forall2_fun _ _ _ _ T' Ht'), removelast_last.
          rewrite <- Hb. destruct L as [L|L]; [auto|subst b; cbn; lia]. }
      destruct (Z.ltb_spec (s_max E) (Z.of_nat (length (buffer (st_blob s))))) as [L|L].
      + destruct (commit E (st_blob s) (st_world s)) as [oc [b' w']] eqn:Ecm.
        destruct (commit_inv _ _ _ _ _ CF I Ecm) as [I2 I3].
        destruct oc as [x|e].
        * specialize (I3 x eq_refl). subst b'. intros [= <- <-]. apply (X open_buffer w' 0%nat false); auto.
        * intros [= <- <-]. rewrite app_nil_r. apply I2.
      + intros [= <- <-]. destruct s as [sb sw sn sf]. apply (X sb sw sn sf); auto.
  Qed.

  Lemma finalize_step s acc f o s' : clean_failures E -> inv s acc -> step E s (Finalize f) = (o, s') ->
    inv s' acc /\ (forall x, o = Returned x -> st_blob s' = open_buffer).
  Proof.
    intros CF I. unfold step, finalize.
    destruct (commit E (st_blob s) (st_world s)) as [oc [b' w']] eqn:Ecm.
    destruct (commit_inv _ _ _ _ _ CF I Ecm) as [I2 I3].
    destruct oc as [x|e]; [|intros [= <- <-]; split; [apply I2|discriminate]].
    specialize (I3 x eq_refl). subst b'.
    destruct f; [intros [= <- <-]; split; [apply I2|auto]|].
    destruct (st_seen s); [intros [= <- <-]; split; [apply I2|auto]|].
    destruct (_ && _); [intros [= <- <-]; split; [apply I2|auto]|].
    unfold inner_commit. rewrite completion_eq.
    destruct (s_fails E (attempts w')) as [[k|]|] eqn:Ef; [exfalso; eapply CF; eauto| |].
    - intros [= <- <-]. split; [|discriminate].
      destruct (I2 (st_records s) false) as (g & p & H). exists g, p. exact H.
    - intros [= <- <-]. split; [|auto].
      destruct (I2 (st_records s) false) as (g & p & HG & H). exists g, p.
      cbn [st_world puts]. rewrite data_snd_marker. auto.
  Qed.

  Definition stored_records cs os : list R :=
    if is_parquet (s_format E) then not_refused E cs else accepted cs os.
  Lemma stored_cons c cs o os : stored_records (c :: cs) (o :: os) = gain c o ++ stored_records cs os.
  Proof.
    unfold stored_records, gain. destruct (is_parquet _).
    - cbn [not_refused]. destruct c; auto. destruct (s_check E r); auto.
    - cbn [accepted]. destruct c, o; auto.
  Qed.

  Lemma step_inv s acc c o s' : clean_failures E -> inv s acc -> step E s c = (o, s') ->
    inv s' (acc ++ gain c o).
  Proof.
    intros CF I Es. destruct c as [r|f]; [eapply append_step; eauto|].
    assert (G: gain (Finalize f) o = []) by (unfold gain; cbn; destruct (is_parquet _); auto).
    rewrite G, app_nil_r. eapply finalize_step; eauto.
  Qed.
  Lemma run_inv cs : forall s acc os s', clean_failures E -> inv s acc -> run E s cs = (os, s') ->
    inv s' (acc ++ stored_records cs os).
  Proof.
    induction cs as [|c cs IH]; intros s acc os s' CF I; cbn [run].
    - intros [= <- <-]. unfold stored_records. cbn. destruct (is_parquet _); rewrite app_nil_r; auto.
    - destruct (step E s c) as [o s1] eqn:Es. destruct (run E s1 cs) as [os1 s2] eqn:Er.
      intros [= <- <-]. rewrite stored_cons, app_assoc. eapply IH; eauto. eapply step_inv; eauto.
  Qed.
  Lemma inv_new : inv (new_writer nothing) [].
  Proof.
    exists [], []. cbn [new_writer nothing st_world puts st_blob]. split; [constructor|]. split; [auto|].
    split; [apply buffered_open|]. split; [constructor|apply small_nil].
  Qed.
  Lemma run_app s a b os s' : run E s (a ++ b) = (os, s') ->
    exists os1 os2 s1, os = os1 ++ os2 /\ run E s a = (os1, s1) /\ run E s1 b = (os2, s') /\ length os1 = length a.
  Proof.
    revert s os; induction a as [|c a IH]; intros s os; cbn [app run].
    - intros H. exists [], os, s. auto.
    - destruct (step E s c) as [o s1]. destruct (run E s1 (a ++ b)) as [os1 s2] eqn:Er.
      intros [= <- ->]. destruct (IH _ _ Er) as (x & y & s3 & E1 & E2 & E3 & L).
      exists (o :: x), y, s3. rewrite E1, E2. cbn. auto.
  Qed.
  Lemma run_length cs s os s' : run E s cs = (os, s') -> length os = length cs.
  Proof.
    revert s os; induction cs as [|c cs IH]; intros s os; cbn [run].
    - now intros [= <- <-].
    - destruct (step E s c) as [o s1]. destruct (run E s1 cs) as [os1 s2] eqn:Er. intros [= <- ->].
      cbn. f_equal. eauto.
  Qed.
  Lemma run_app_fwd s a b os1 s1 os2 s2 : run E s a = (os1, s1) -> run E s1 b = (os2, s2) ->
    run E s (a ++ b) = (os1 ++ os2, s2).
  Proof.
    revert s os1; induction a as [|c a IH]; intros s os1; cbn [app run].
    - now intros [= <- <-].
    - destruct (step E s c) as [o s']. destruct (run E s' a) as [os' s''] eqn:Er. intros [= <- <-] H.
      rewrite (IH _ _ Er H). reflexivity.
  Qed.
End Run.

Section Theorems.
  Context {R : Type} (E : setting R) (dir ext : str).
  Hypothesis W : writes_in E dir ext.
  Hypothesis CF : clean_failures E.

  Lemma empty_after_finalize cs f os' x s :
    run E (new_writer nothing) (cs ++ [Finalize f]) = (os' ++ [Returned x], s) -> st_blob s = open_buffer.
  Proof.
    intros H. destruct (run_app E _ _ _ _ _ H) as (o1 & o2 & s1 & Eo & R1 & R2 & L).
    cbn [run] in R2. destruct (step E s1 (Finalize f)) as [o s2] eqn:Es. injection R2 as <- <-.
    apply app_single_inj in Eo. destruct Eo as [<- <-].
    pose proof (run_inv E dir ext W cs _ _ _ _ CF (inv_new E dir) R1) as I.
    destruct (finalize_step E dir ext W _ _ _ _ _ CF I Es) as [_ F]. eauto.
  Qed.

  Lemma stored_in_order cs os s : run E (new_writer nothing) cs = (os, s) ->
    exists groups waiting,
      Forall2 (holds E) groups (map snd (data_of dir (puts (st_world s)))) /\
      concat groups ++ waiting = stored_records E cs os /\
      (forall g, In g groups -> g <> []) /\
      (forall cs' f os' x, cs = cs' ++ [Finalize f] -> os = os' ++ [Returned x] -> waiting = []).
  Proof.
    intros H. pose proof (run_inv E dir ext W cs _ _ _ _ CF (inv_new E dir) H) as I.
    destruct I as (groups & p & HG & HC & HB & HF & HS). exists groups, p.
    split; [auto|]. split; [auto|]. split.
    - intros g Hg. rewrite Forall_forall in HF. apply HF. auto.
    - intros cs' f os' x -> ->. pose proof (empty_after_finalize _ _ _ _ _ H) as Eb.
      rewrite Eb in HB. destruct HB as [HB _]. cbn in HB. destruct p; [auto|discriminate].
  Qed.

  Lemma blob_sizes cs os s : run E (new_writer nothing) cs = (os, s) ->
    (0 <= s_max E)%Z -> is_parquet (s_format E) = false ->
    exists groups,
      Forall2 (holds E) groups (map snd (data_of dir (puts (st_world s)))) /\
      forall g, In g groups -> g <> [] /\
        forall texts, texts_of E g texts -> (Z.of_nat (length (concat (removelast texts))) <= s_max E)%Z.
  Proof.
    intros H M P. pose proof (run_inv E dir ext W cs _ _ _ _ CF (inv_new E dir) H) as I.
    destruct I as (groups & p & HG & HC & HB & HF & HS). exists groups. split; auto.
    intros g Hg. rewrite Forall_forall in HF. destruct (HF g Hg) as [A B]. split; auto.
  Qed.

  Lemma rollover cs os s r o s' : run E (new_writer nothing) cs = (os, s) ->
    step E s (Append r) = (o, s') -> (0 <= s_max E)%Z ->
    (s_nbytes E [] <= s_max E)%Z ->
    exists added, puts (st_world s') = puts (st_world s) ++ added /\
      forall n d, In (n, d) added -> exists g, holds E g d /\
        (if is_parquet (s_format E) then s_max E < s_nbytes E g
         else exists texts, texts_of E g texts /\ s_max E < Z.of_nat (length (concat texts)))%Z.
  Proof.
    intros H Es M M0. pose proof (run_inv E dir ext W cs _ _ _ _ CF (inv_new E dir) H) as I.
    revert Es. unfold step, append.
    assert (Z0: exists added, puts (st_world s) = puts (st_world s) ++ added /\
      forall n d, In (n, d) added -> exists g, holds E g d /\
        (if is_parquet (s_format E) then s_max E < s_nbytes E g
         else exists texts, texts_of E g texts /\ s_max E < Z.of_nat (length (concat texts)))%Z).
    { exists []. rewrite app_nil_r. split; auto. intros n d []. }
    destruct (s_check E r) as [u|e]; [|intros [= <- <-]; exact Z0].
    destruct I as (groups & p & HG & HC & HB & HF & HS).
    unfold blob_append. destruct (is_parquet (s_format E)) eqn:Ep.
    - unfold arrow_append. cbn [wal]. set (b1 := mkBlobw _ _ _).
      assert (B1: buffered E b1 (p ++ [r])).
      { destruct HB as [HB1 HB2]. rewrite Ep in HB2. split; [cbn; rewrite app_length; cbn; lia|].
        rewrite Ep. cbn. congruence. }
      assert (HW: wal b1 = p ++ [r]) by (destruct B1 as [_ B1]; rewrite Ep in B1; exact B1).
      change (wal (st_blob s) ++ [r]) with (wal b1). rewrite HW.
      destruct (Z.ltb_spec (s_max E) (s_nbytes E (p ++ [r]))) as [L|L]; [|intros [= <- <-]; exact Z0].
      destruct (commit E b1 (st_world s)) as [oc [b' w']] eqn:Ecm.
      destruct (commit_cases E _ _ _ _ _ _ B1 CF Ecm) as [(e & -> & -> & P & _)|[(Np & _)|(Np & -> & d & Hd & -> & ->)]].
      + intros [= <- <-]. cbn [st_world]. rewrite P. exact Z0.
      + destruct p; discriminate.
      + intros [= <- <-]. cbn [st_world puts]. eexists; split; [reflexivity|].
        intros n d' [[= <- <-]|[]]. exists (p ++ [r]). auto.
    - unfold text_append. destruct (s_ser E r) as [t|e]; [|intros [= <- <-]; exact Z0].
      destruct (Z.ltb_spec (s_max E) (Z.of_nat (length (buffer (st_blob s))))) as [L|L]; [|intros [= <- <-]; exact Z0].
      destruct (commit E (st_blob s) (st_world s)) as [oc [b' w']] eqn:Ecm.
      destruct (commit_cases E _ _ _ _ _ _ HB CF Ecm) as [(e & -> & -> & P & _)|[(-> & -> & -> & ->)|(Np & -> & d & Hd & -> & ->)]].
      + intros [= <- <-]. cbn [st_world]. rewrite P. exact Z0.
      + intros [= <- <-]. exact Z0.
      + intros [= <- <-]. cbn [st_world puts]. eexists; split; [reflexivity|].
        intros n d' [[= <- <-]|[]]. exists p. split; auto.
        destruct HB as [_ HB]. rewrite Ep in HB. destruct HB as (ts & T & Eb). exists ts. split; auto.
        rewrite <- Eb. exact L.
  Qed.

  Lemma records_count cs : forall s os s', run E s cs = (os, s') ->
    st_records s' = (st_records s + length (accepted cs os))%nat.
  Proof.
    induction cs as [|c cs IH]; intros s os s'; cbn [run].
    - intros [= <- <-]. cbn. lia.
    - destruct (step E s c) as [o s1] eqn:Es. destruct (run E s1 cs) as [os1 s2] eqn:Er.
      intros [= <- <-]. rewrite (IH _ _ _ Er). destruct c as [r|f]; cbn [accepted].
      + revert Es. unfold step, append. destruct (s_check E r); [|intros [= <- <-]; auto].
        destruct (blob_append E (st_blob s) (st_world s) r) as [[x|e] [b w]]; intros [= <- <-]; cbn; lia.
      + revert Es. unfold step, finalize.
        destruct (commit E (st_blob s) (st_world s)) as [[x|e] [b w]]; [|intros [= <- <-]; auto].
        destruct f; [intros [= <- <-]; auto|]. destruct (st_seen s); [intros [= <- <-]; auto|].
        destruct (_ && _); [intros [= <- <-]; auto|].
        unfold inner_commit. destruct (s_fails E (attempts w)) as [[k|]|]; intros [= <- <-]; auto.
  Qed.

  Lemma invalid_no_trace cs1 r cs2 e os s : s_check E r = Raise e ->
    run E (new_writer nothing) (cs1 ++ Append r :: cs2) = (os, s) ->
    exists os1 os2, os = os1 ++ Raised e :: os2 /\ length os1 = length cs1 /\
      run E (new_writer nothing) (cs1 ++ cs2) = (os1 ++ os2, s).
  Proof.
    intros Hr H. destruct (run_app E _ _ _ _ _ H) as (o1 & o2 & s1 & Eo & R1 & R2 & L).
    cbn [run] in R2. unfold step, append in R2. rewrite Hr in R2.
    destruct (run E s1 cs2) as [o3 s3] eqn:R3. injection R2 as <- <-.
    exists o1, o3. split; auto. split; auto. eapply run_app_fwd; eauto.
  Qed.

  (** *** markers *)
  Lemma commit_unmarked b w o b' w' : commit E b w = (o, (b', w')) ->
    exists added, puts w' = puts w ++ added /\ ~ marked dir added.
  Proof.
    assert (Z0: exists added, puts w = puts w ++ added /\ ~ marked dir added).
    { exists []. rewrite app_nil_r. split; auto. }
    unfold commit. destruct (0 <? _)%nat; [|intros [= <- <- <-]; exact Z0].
    destruct (write_buffer E b) as [d|e]; [|intros [= <- <- <-]; exact Z0].
    unfold inner_commit. destruct (s_fails E (attempts w)) as [[k|]|] eqn:Ef.
    - exfalso. eapply CF; eauto.
    - intros [= <- <- <-]. exact Z0.
    - intros [= <- <- <-]. cbn [puts]. eexists; split; [reflexivity|].
      intros [H|[]]. cbn in H. eapply name_ne_marker; eauto.
  Qed.
  Definition is_complete_call (c : call (R:=R)) (o : outcome) : bool :=
    match c, o with Finalize false, Returned (Some _) => true | _, _ => false end.
  Lemma step_marker s c o s' : step E s c = (o, s') ->
    exists added, puts (st_world s') = puts (st_world s) ++ added /\
      (if is_complete_call c o then marked dir added /\ st_seen s = false /\ (st_records s <> 0%nat \/ s_always E = true)
       else ~ marked dir added) /\
      (st_seen s' = true <-> st_seen s = true \/ (exists x, c = Finalize true /\ o = Returned x)).
  Proof.
    assert (Z0: exists added, puts (st_world s) = puts (st_world s) ++ added /\ ~ marked dir added).
    { exists []. rewrite app_nil_r. split; auto. }
    destruct c as [r|f]; unfold step.
    - cbn [is_complete_call]. unfold append. destruct (s_check E r).
      + assert (G: forall ob b w, blob_append E (st_blob s) (st_world s) r = (ob, (b, w)) ->
           exists added, puts w = puts (st_world s) ++ added /\ ~ marked dir added).
        { unfold blob_append, arrow_append, text_append. intros ob b w.
          destruct (is_parquet (s_format E)).
          - cbv zeta. match goal with |- context [if ?c then _ else _] => destruct c end.
            + match goal with |- context [commit E ?b ?w] => destruct (commit E b w) as [[x|e] [b2 w2]] eqn:Ec end;
              apply commit_unmarked in Ec; intros [= <- <- <-]; exact Ec.
            + intros [= <- <- <-]; exact Z0.
          - destruct (s_ser E r); [|intros [= <- <- <-]; exact Z0]. cbv zeta.
            match goal with |- context [if ?c then _ else _] => destruct c end.
            + match goal with |- context [commit E ?b ?w] => destruct (commit E b w) as [[x|e] [b2 w2]] eqn:Ec end;
              apply commit_unmarked in Ec; intros [= <- <- <-]; exact Ec.
            + intros [= <- <- <-]; exact Z0. }
        destruct (blob_append E (st_blob s) (st_world s) r) as [[x|e] [b w]] eqn:Eb;
        destruct (G _ _ _ eq_refl) as (added & A & B); intros [= <- <-]; cbn [st_world st_seen];
        exists added; (split; [auto|]; split; [auto|]); split; auto; intros [?|(x0 & ? & ?)]; auto; discriminate.
      + intros [= <- <-]. destruct Z0 as (added & A & B). exists added. split; [auto|]. split; [auto|].
        split; auto. intros [?|(x0 & ? & ?)]; auto; discriminate.
    - unfold finalize. destruct (commit E (st_blob s) (st_world s)) as [[x|e] [b w]] eqn:Ec;
      destruct (commit_unmarked _ _ _ _ _ Ec) as (added & A & B).
      + destruct f.
        { intros [= <- <-]. cbn. exists added. split; [auto|]. split; [auto|]. split; eauto. }
        destruct (st_seen s) eqn:Sn.
        { intros [= <- <-]. cbn. exists added. tauto. }
        destruct (Nat.eqb_spec (st_records s) 0) as [Hz|Hz]; cbn [andb]; [destruct (s_always E) eqn:Ha; cbn [negb]|].
        2:{ intros [= <- <-]. cbn. exists added. split; auto. split; auto. split; [discriminate|].
            intros [?|(x0 & ? & ?)]; discriminate. }
        all: unfold inner_commit; rewrite (completion_eq E dir ext W);
          destruct (s_fails E (attempts w)) as [[k|]|] eqn:Ef; [exfalso; eapply CF; eauto| |];
          intros [= <- <-]; cbn [st_world st_seen puts is_complete_call].
        1,3: exists added; rewrite A; (split; [auto|]); (split; [auto|]); split; [discriminate|];
            intros [?|(x0 & ? & ?)]; discriminate.
        all: exists (added ++ [(marker dir, [])]); rewrite A, app_assoc; split; [auto|]; split;
          [split; [unfold marked; rewrite map_app; apply in_app_iff; right; left; auto|auto]|
           split; [discriminate|intros [?|(x0 & ? & ?)]; discriminate]].
      + intros [= <- <-]. cbn. exists added. split; [auto|]. split; [destruct f; auto|].
        split; auto. intros [?|(x0 & ? & ?)]; auto; discriminate.
  Qed.
  Lemma not_marked_app a b : ~ marked dir a -> ~ marked dir b -> ~ marked dir (a ++ b).
  Proof. unfold marked. rewrite map_app, in_app_iff. tauto. Qed.
  Lemma run_after_failure cs : forall s os s', st_seen s = true -> run E s cs = (os, s') ->
    exists added, puts (st_world s') = puts (st_world s) ++ added /\ ~ marked dir added.
  Proof.
    induction cs as [|c cs IH]; intros s os s' Hs; cbn [run].
    - intros [= <- <-]. exists []. rewrite app_nil_r. split; auto.
    - destruct (step E s c) as [o s1] eqn:Es. destruct (run E s1 cs) as [os1 s2] eqn:Er. intros [= <- <-].
      destruct (step_marker _ _ _ _ Es) as (a1 & P1 & M1 & S1).
      destruct (IH s1 os1 s2 (proj2 S1 (or_introl Hs)) Er) as (a2 & P2 & M2).
      exists (a1 ++ a2). rewrite P2, P1, app_assoc. split; auto. apply not_marked_app; auto.
      destruct (is_complete_call c o); auto. destruct M1 as (_ & C & _). congruence.
  Qed.
  Lemma failed_never_complete cs1 cs2 os1 x os2 s : length os1 = length cs1 ->
    run E (new_writer nothing) (cs1 ++ Finalize true :: cs2) = (os1 ++ Returned x :: os2, s) ->
    exists s1 added, run E (new_writer nothing) (cs1 ++ [Finalize true]) = (os1 ++ [Returned x], s1) /\
      puts (st_world s) = puts (st_world s1) ++ added /\ ~ marked dir added.
  Proof.
    intros L H. destruct (run_app E _ _ _ _ _ H) as (o1 & o2 & s1 & Eo & R1 & R2 & L1).
    cbn [run] in R2. destruct (step E s1 (Finalize true)) as [o s2] eqn:Es.
    destruct (run E s2 cs2) as [o3 s3] eqn:R3. injection R2 as <- <-.
    assert (O: os1 = o1 /\ Returned x :: os2 = o :: o3).
    { assert (length os1 = length o1) by congruence. clear -Eo H0. revert o1 Eo H0.
      induction os1 as [|a os1 IH]; intros [|b o1] Eo Hl; try discriminate; auto.
      cbn in *. injection Eo as -> Eo. injection Hl as Hl. destruct (IH _ Eo Hl) as [-> ->]. auto. }
    destruct O as [<- [= <- <-]].
    destruct (step_marker _ _ _ _ Es) as (a1 & P1 & M1 & S1).
    destruct (run_after_failure cs2 _ _ _ (proj2 S1 (or_intror (ex_intro _ x (conj eq_refl eq_refl)))) R3) as (a2 & P2 & M2).
    exists s2, a2. split; auto. eapply run_app_fwd; eauto. cbn [run]. rewrite Es. reflexivity.
  Qed.
  Lemma marker_step_exact cs os s c o s' : run E (new_writer nothing) cs = (os, s) -> step E s c = (o, s') ->
    exists added, puts (st_world s') = puts (st_world s) ++ added /\
      (marked dir added <-> exists x, c = Finalize false /\ o = Returned (Some x)) /\
      (marked dir added -> accepted cs os <> [] \/ s_always E = true).
  Proof.
    intros H Es. destruct (step_marker _ _ _ _ Es) as (a1 & P1 & M1 & S1). exists a1. split; auto.
    pose proof (records_count _ _ _ _ H) as RC. cbn in RC.
    destruct (is_complete_call c o) eqn:Ei.
    - destruct M1 as (M1 & _ & M2). split.
      + split; auto. intros _. destruct c as [|[]]; try discriminate. destruct o as [[]|]; try discriminate. eauto.
      + intros _. destruct M2 as [M2|M2]; auto. left. rewrite RC in M2. destruct (accepted cs os); [cbn in M2; lia|discriminate].
    - split; [split; [tauto|]|tauto]. intros (x & -> & ->). discriminate.
  Qed.
End Theorems.

Lemma parquet_accepted {R} (E : setting R) cs : is_parquet (s_format E) = true ->
  (forall n, s_fails E n = None) -> (forall g, exists d, s_parquet E g = Ok d) ->
  forall s os s', run E s cs = (os, s') -> not_refused E cs = accepted cs os.
Proof.
  intros P F Q. induction cs as [|c cs IH]; intros s os s'; cbn [run]; [intros [= <- <-]; auto|].
  destruct (step E s c) as [o s1] eqn:Es. destruct (run E s1 cs) as [os1 s2] eqn:Er. intros [= <- <-].
  cbn [not_refused accepted]. destruct c as [r|f]; [|eauto].
  revert Es. unfold step, append. destruct (s_check E r) as [u|e]; [|intros [= <- <-]; eauto].
  unfold blob_append. rewrite P. unfold arrow_append. cbv zeta.
  match goal with |- context [if ?c then _ else _] => destruct c end.
  - unfold commit. cbn [records_in_buffer]. replace (0 <? S (records_in_buffer (st_blob s)))%nat with true by reflexivity.
    unfold write_buffer. destruct (s_format E); try discriminate. cbn [wal].
    destruct (Q (wal (st_blob s) ++ [r])) as [d ->]. unfold inner_commit. rewrite F.
    intros [= <- <-]. f_equal. eauto.
  - intros [= <- <-]. f_equal. eauto.
Qed.
Lemma taken_text {R} (E : setting R) cs os : s_format E <> Parquet -> taken E cs os = accepted cs os.
Proof. unfold taken. destruct (s_format E); try congruence; auto. Qed.
