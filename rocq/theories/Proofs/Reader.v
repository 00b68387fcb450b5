(** Proofs: reading a dataset. *)
From Coq Require Import Sorted.
From Verif.Base Require Import Py PyFacts Value ValueFacts.
From Verif.Model Require Import Paths Dates Frames ReadRange Cursor Storage Writers Reader.
From Verif.Spec Require Import Paths Cursor Json Writers Reader.
From Verif.Proofs Require Import Paths Writers Json Cursor.

(** ** Whitelisting *)
Lemma startswith_iff p s : startswith p s = true <-> exists rest, s = p ++ rest.
Proof.
  revert s. induction p as [|c p IH]; intros s.
  - split; [eexists; reflexivity|]. intros _. destruct s; reflexivity.
  - destruct s as [|d s]; cbn [startswith app].
    + split; [discriminate|]. intros (r & E). discriminate.
    + rewrite andb_true_iff, IH, Ascii.eqb_eq. split.
      * intros (-> & r & ->). eauto.
      * intros (r & E). injection E as -> ->. eauto.
Qed.
Lemma permitted_iff prefixes dataset :
  existsb (fun p => startswith p dataset) prefixes = true <-> permitted prefixes dataset.
Proof.
  rewrite existsb_exists. split.
  - intros (p & Hp & H). apply startswith_iff in H as (r & E). exists p, r. auto.
  - intros (p & r & Hp & E). exists p. split; auto. apply startswith_iff. eauto.
Qed.

Lemma whitelist {A} dates (use : datetime * datetime -> result A * list request) dataset limit :
  (forall prefixes, prefixes <> [] ->
    (~ permitted prefixes dataset ->
       use_reader dates use (Some prefixes) dataset limit = (Raise AccessDenied, [])) /\
    (permitted prefixes dataset ->
       use_reader dates use (Some prefixes) dataset limit = use_reader dates use None dataset limit)) /\
  use_reader dates use (Some []) dataset limit = use_reader dates use None dataset limit /\
  (exists more, snd (use_reader dates use None dataset limit) = CreateAdapter dataset :: more).
Proof.
  split; [|split].
  - intros prefixes Hne. pose proof (permitted_iff prefixes dataset) as P.
    destruct prefixes as [|p ps]; [congruence|].
    unfold use_reader, open_reader, check_prefixes.
    destruct (existsb _ _) eqn:E; split; intros H; try reflexivity.
    + destruct H. apply P, eq_refl.
    + apply P in H. congruence.
  - reflexivity.
  - unfold use_reader, open_reader. cbn [check_prefixes].
    destruct (let* (_, _) := dates in _) as [d|e]; [destruct (use d)|]; eexists; reflexivity.
Qed.

(** ** Freshness *)
Section Freshness.
  Context (list_at : nat -> result (list str)) (limit : Z).
  Hypothesis Hlim : (1 < limit)%Z.

  Lemma day_limit k : (SECONDS_PER_DAY * Z.of_nat k <= limit)%Z <-> (Z.of_nat k * 24 * 60 * 60 <= limit)%Z.
  Proof. unfold SECONDS_PER_DAY. lia. Qed.

  Lemma step_back_found k blobs : newest_day list_at limit k blobs ->
    forall i fuel b, (i <= k)%nat -> list_at i = Ok b -> (k - i <= fuel)%nat ->
    step_back list_at fuel limit i b = Ok (k, blobs).
  Proof.
    intros (Hk & Hne & Hbefore & Hl) i. remember (k - i)%nat as d eqn:Ed. revert i Ed.
    induction d as [|d IH]; intros i Ed fuel b Hi Hb Hf.
    - assert (i = k) by lia. subst i. rewrite Hk in Hb. injection Hb as <-.
      destruct fuel; cbn [step_back]; destruct blobs; congruence.
    - assert (Hik: (i < k)%nat) by lia. pose proof (Hbefore i Hik) as Q. rewrite Q in Hb. injection Hb as <-.
      destruct fuel as [|fuel]; [lia|]. cbn [step_back].
      destruct (Z.leb_spec (SECONDS_PER_DAY * Z.of_nat i) limit) as [_|C].
      2:{ exfalso. apply day_limit in Hl. unfold SECONDS_PER_DAY in *. lia. }
      destruct (Nat.eq_dec (S i) k) as [Ek|N].
      + rewrite Ek, Hk. cbn [bind]. rewrite <- Ek at 1. apply IH; auto; try lia. rewrite Ek. auto.
      + rewrite (Hbefore (S i)) by lia. cbn [bind]. apply IH; auto; try lia. apply Hbefore. lia.
  Qed.
  Lemma step_back_none : (forall k, (Z.of_nat k * 24 * 60 * 60 <= limit)%Z -> list_at k = Ok []) ->
    (forall k, exists b, list_at k = Ok b) ->
    forall i fuel b, (SECONDS_PER_DAY * (Z.of_nat i - 1) <= limit)%Z -> list_at i = Ok b ->
    (Z.to_nat (limit / SECONDS_PER_DAY) + 1 - i <= fuel)%nat ->
    exists k b', step_back list_at fuel limit i b = Ok (k, b') /\ (limit < SECONDS_PER_DAY * Z.of_nat k)%Z.
  Proof.
    intros Hnone Htot i fuel. revert i. induction fuel as [|fuel IH]; intros i b Hi Hb Hf.
    - assert (C: (limit < SECONDS_PER_DAY * Z.of_nat i)%Z).
      { unfold SECONDS_PER_DAY in *. pose proof (Z.div_mod limit 86400). pose proof (Z.mod_pos_bound limit 86400). lia. }
      exists i, b. split; auto. destruct b as [|x b].
      + cbn [step_back]. destruct (Z.leb_spec (SECONDS_PER_DAY * Z.of_nat i) limit); [lia|reflexivity].
      + reflexivity.
    - cbn [step_back]. destruct (Z.leb_spec (SECONDS_PER_DAY * Z.of_nat i) limit) as [L|G].
      + rewrite (Hnone i) in Hb by (apply day_limit; auto). injection Hb as <-.
        destruct (Htot (S i)) as [b' Hb']. rewrite Hb'. cbn [bind]. apply IH; auto; [|lia].
        replace (Z.of_nat (S i) - 1)%Z with (Z.of_nat i) by lia. auto.
      + exists i, b. split; auto. destruct b; reflexivity.
  Qed.

  (** a day with data within the limit, or none *)
  Lemma first_day : (forall k, exists b, list_at k = Ok b) ->
    (exists k b, newest_day list_at limit k b) \/
    (forall k, (Z.of_nat k * 24 * 60 * 60 <= limit)%Z -> list_at k = Ok []).
  Proof.
    intros Htot.
    assert (H: forall n, (exists k b, (k < n)%nat /\ list_at k = Ok b /\ b <> [] /\ forall j, (j < k)%nat -> list_at j = Ok []) \/
                    (forall j, (j < n)%nat -> list_at j = Ok [])).
    { induction n as [|n [(k & b & L & H)|IH]].
      - right. intros j Hj. lia.
      - left. exists k, b. split; [lia|auto].
      - destruct (Htot n) as [b Hb]. destruct b as [|x b].
        + right. intros j Hj. destruct (Nat.eq_dec j n) as [->|]; auto. apply IH. lia.
        + left. exists n, (x :: b). split; [lia|]. split; auto. split; [discriminate|auto]. }
    destruct (H (S (Z.to_nat (limit / 86400)))) as [(k & b & L & Hk & Hb & Hj)|Hall].
    - left. exists k, b. repeat split; auto. pose proof (Z.div_mod limit 86400). pose proof (Z.mod_pos_bound limit 86400). lia.
    - right. intros k Hk. apply Hall. pose proof (Z.div_mod limit 86400). pose proof (Z.mod_pos_bound limit 86400). lia.
  Qed.

  Lemma found_day k b : newest_day list_at limit k b -> find_blobs list_at limit = Ok (k, b).
  Proof.
    intros H. pose proof H as (Hk & Hne & Hbefore & Hl). unfold find_blobs.
    assert (H0: exists b0, list_at 0%nat = Ok b0).
    { destruct k; [eauto|]. exists []. apply Hbefore. lia. }
    destruct H0 as [b0 H0]. rewrite H0. cbn [bind].
    destruct (Z.ltb_spec 1 limit) as [_|]; [|lia].
    rewrite (step_back_found k b H 0) by
      (lia || auto || (apply day_limit in Hl; unfold SECONDS_PER_DAY in *;
         pose proof (Z.div_mod limit 86400); pose proof (Z.mod_pos_bound limit 86400); lia)).
    cbn [bind]. destruct (Z.ltb_spec limit (SECONDS_PER_DAY * Z.of_nat k)) as [C|]; auto.
    apply day_limit in Hl. lia.
  Qed.
  Lemma found_none : (forall k, exists b, list_at k = Ok b) ->
    (forall k, (Z.of_nat k * 24 * 60 * 60 <= limit)%Z -> list_at k = Ok []) ->
    find_blobs list_at limit = Raise DataNotFoundError.
  Proof.
    intros Htot Hnone. unfold find_blobs. destruct (Htot 0%nat) as [b0 H0]. rewrite H0. cbn [bind].
    destruct (Z.ltb_spec 1 limit) as [_|]; [|lia].
    destruct (step_back_none Hnone Htot 0 (S (S (Z.to_nat (limit / SECONDS_PER_DAY)))) b0) as (k & b' & E & L); auto.
    - unfold SECONDS_PER_DAY. lia.
    - lia.
    - rewrite E. cbn [bind]. destruct (Z.ltb_spec limit (SECONDS_PER_DAY * Z.of_nat k)); auto. lia.
  Qed.
  Lemma freshness : (forall k, exists b, list_at k = Ok b) ->
    (forall k b, find_blobs list_at limit = Ok (k, b) <-> newest_day list_at limit k b) /\
    (find_blobs list_at limit = Raise DataNotFoundError <->
     forall k, (Z.of_nat k * 24 * 60 * 60 <= limit)%Z -> list_at k = Ok []) /\
    ((exists k b, find_blobs list_at limit = Ok (k, b)) \/ find_blobs list_at limit = Raise DataNotFoundError).
  Proof.
    intros Htot. destruct (first_day Htot) as [(k & b & H)|H].
    - pose proof (found_day k b H) as E. split; [|split].
      + intros k' b'. rewrite E. split; [intros [= <- <-]; auto|].
        intros H'. apply found_day in H'. congruence.
      + rewrite E. split; [discriminate|]. intros Hn. exfalso. destruct H as (Hk & Hne & _ & Hl).
        rewrite (Hn k Hl) in Hk. congruence.
      + left. eauto.
    - pose proof (found_none Htot H) as E. split; [|split].
      + intros k b. rewrite E. split; [discriminate|]. intros H'. apply found_day in H'. congruence.
      + rewrite E. split; auto.
      + right. auto.
  Qed.
End Freshness.

(** the loop ends however the listings turn out *)
Lemma step_back_fuel list_at limit : (forall k, list_at k <> Raise OutOfFuel) ->
  forall fuel i b, (limit < SECONDS_PER_DAY * (Z.of_nat i + Z.of_nat fuel))%Z ->
  step_back list_at fuel limit i b <> Raise OutOfFuel.
Proof.
  intros Hf. induction fuel as [|fuel IH]; intros i b Hl; cbn [step_back].
  - destruct b; [|discriminate]. destruct (Z.leb_spec (SECONDS_PER_DAY * Z.of_nat i) limit); [lia|discriminate].
  - destruct b; [|discriminate]. destruct (Z.leb_spec (SECONDS_PER_DAY * Z.of_nat i) limit); [|discriminate].
    destruct (list_at (S i)) as [b|e] eqn:E; cbn [bind]; [|intros [= ->]; apply (Hf (S i)); auto]. apply IH. lia.
Qed.
Lemma find_blobs_ends list_at limit : (forall k, list_at k <> Raise OutOfFuel) ->
  find_blobs list_at limit <> Raise OutOfFuel.
Proof.
  intros Hf. unfold find_blobs. destruct (list_at 0%nat) as [b|e] eqn:E; cbn [bind]; [|intros [= ->]; apply (Hf 0%nat); auto].
  destruct (Z.ltb_spec 1 limit) as [L|]; [|discriminate].
  pose proof (step_back_fuel list_at limit Hf (S (S (Z.to_nat (limit / SECONDS_PER_DAY)))) 0 b) as H.
  destruct (step_back _ _ _ _ _) as [[k b']|e].
  - cbn [bind]. destruct (limit <? _)%Z; discriminate.
  - cbn [bind]. intros [= ->]. apply H; auto. unfold SECONDS_PER_DAY.
    pose proof (Z.div_mod limit 86400). pose proof (Z.mod_pos_bound limit 86400). lia.
Qed.
Lemma no_limit list_at limit : (limit <= 1)%Z ->
  find_blobs list_at limit = let* b := list_at 0%nat in Ok (0%nat, b).
Proof. intros H. unfold find_blobs. destruct (Z.ltb_spec 1 limit); [lia|]. destruct (list_at 0%nat); reflexivity. Qed.

(** ** Select and filter *)
Lemma select_and_filter_total columns filters c p rows fin :
  (forall r, In r rows -> columns r = Ok (c r)) -> (forall r, In r rows -> filters (c r) = Ok (p (c r))) ->
  select_and_filter columns filters rows fin = (filter p (map c rows), fin).
Proof.
  induction rows as [|r rows IH]; intros Hc Hp; [reflexivity|]. cbn [select_and_filter map filter].
  rewrite Hc, Hp by (left; auto). rewrite IH; [|intros; apply Hc; right; auto|intros; apply Hp; right; auto].
  destruct (p (c r)); reflexivity.
Qed.
Lemma filter_map_comm {A} (p : A -> bool) (c : A -> A) rows : (forall r, In r rows -> p (c r) = p r) ->
  filter p (map c rows) = map c (filter p rows).
Proof.
  induction rows as [|r rows IH]; intros H; [reflexivity|]. cbn [map filter]. rewrite H by (left; auto).
  rewrite IH by (intros; apply H; right; auto). destruct (p r); reflexivity.
Qed.
Lemma pass_all rows fin : select_and_filter pass_thru pass_thru_filter rows fin = (filter truthy rows, fin).
Proof. rewrite (select_and_filter_total _ _ (fun r => r) truthy) by reflexivity. now rewrite map_id. Qed.

(** ** Lines *)
Lemma splitlines_line acc line rest : one_line line ->
  splitlines_from acc (line ++ [LF] ++ rest) = (acc ++ line) :: splitlines rest.
Proof.
  revert acc. induction line as [|c line IH]; intros acc H.
  - cbn [app splitlines_from]. change (Ascii.eqb LF LF) with true. cbn iota. now rewrite app_nil_r.
  - cbn [app splitlines_from].
    assert (Hc: line_end c = false) by (apply H; left; auto). apply orb_false_iff in Hc as [H1 H2].
    change (Ascii.eqb c LF = false) in H1. change (Ascii.eqb c CR = false) in H2. rewrite H1, H2.
    change (line ++ LF :: rest) with (line ++ [LF] ++ rest).
    rewrite IH by (intros x Hx; apply H; right; auto). now rewrite <- app_assoc.
Qed.
Lemma splitlines_text lines : Forall one_line lines -> splitlines (lines_text lines) = lines.
Proof.
  induction 1 as [|l lines H F IH]; [reflexivity|]. unfold lines_text in *. cbn [map concat].
  rewrite <- app_assoc. unfold splitlines. change ["010"%char] with [LF]. rewrite splitlines_line by auto.
  cbn [app]. f_equal. exact IH.
Qed.
Lemma split_text lines : (forall l, In l lines -> one_line l) -> removelast (split LF (lines_text lines)) = lines.
Proof.
  induction lines as [|l lines IH]; intros H; [reflexivity|]. unfold lines_text in *. cbn [map concat].
  rewrite <- app_assoc. change (["010"%char] ++ concat (map (fun l => l ++ ["010"%char]) lines)) with
    (LF :: concat (map (fun l => l ++ ["010"%char]) lines)).
  rewrite split_app_no_sep.
  2:{ intros C. apply (H l) in C; [|left; auto]. discriminate C. }
  pose proof (split_nonempty LF (concat (map (fun l => l ++ ["010"%char]) lines))) as N.
  rewrite <- IH at 2 by (intros; apply H; right; auto).
  destruct (split LF _); [congruence|]. reflexivity.
Qed.

Lemma map_gen_ok {A B} (f : A -> result B) l rs fin : Forall2 (fun a b => f a = Ok b) l rs ->
  map_gen f l fin = (rs, fin).
Proof.
  induction 1 as [|a b l rs H F IH]; [reflexivity|]. cbn [map_gen]. rewrite H, IH. reflexivity.
Qed.
Lemma map_gen_damage {A B} (f : A -> result B) good bad after rs e fin :
  Forall2 (fun a b => f a = Ok b) good rs -> f bad = Raise e ->
  map_gen f (good ++ bad :: after) fin = (rs, Some e).
Proof.
  intros F Hb. induction F as [|a b l rs H F IH]; cbn [map_gen app]; [rewrite Hb; reflexivity|].
  rewrite H, IH. reflexivity.
Qed.
Lemma map_gen_until f lines records fin : until_damage f lines records ->
  fst (map_gen f lines fin) = records.
Proof.
  intros (good & rest & -> & F & [->|(bad & after & e & -> & He)]).
  - rewrite app_nil_r, (map_gen_ok _ _ _ _ F). reflexivity.
  - rewrite (map_gen_damage _ _ _ _ _ _ _ F He). reflexivity.
Qed.
Lemma until_damage_exists f lines : exists records, until_damage f lines records.
Proof.
  induction lines as [|l lines (rs & good & rest & E & F & D)].
  - exists [], [], []. split; [auto|]. split; auto.
  - destruct (f l) as [r|e] eqn:El.
    + exists (r :: rs), (l :: good), rest. subst lines. split; [auto|]. split; auto.
    + exists [], [], (l :: lines). split; auto. split; auto. right. eauto.
Qed.

(** ** Extensions *)
Lemma rfind_dot_app i a e f : ~ In "."%char e -> rfind_dot_from i (a ++ "."%char :: e) f = Some (i + length a)%nat.
Proof.
  intros H. revert i f. induction a as [|c a IH]; intros i f; cbn [app rfind_dot_from length].
  - rewrite rfind_dot_from_none by auto. cbn. f_equal. lia.
  - rewrite IH. f_equal. lia.
Qed.
Lemma stem_suffix_dot stem e : stem <> [] -> e <> [] -> ~ In "."%char e ->
  stem_suffix (stem ++ "."%char :: e) = (stem, "."%char :: e).
Proof.
  intros Hs He Hd. unfold stem_suffix, rfind_dot. rewrite rfind_dot_app by auto. cbn [plus].
  rewrite app_length. cbn [length].
  assert (L1: (0 < length stem)%nat) by (destruct stem; [congruence|cbn; lia]).
  assert (L2: (0 < length e)%nat) by (destruct e; [congruence|cbn; lia]).
  destruct (Nat.ltb_spec 0 (length stem)); [|lia].
  destruct (Nat.ltb_spec (length stem) (length stem + S (length e) - 1)); [|lia]. cbn [andb].
  rewrite firstn_app, firstn_all, Nat.sub_diag, skipn_app, skipn_all, Nat.sub_diag. cbn. now rewrite app_nil_r.
Qed.
Lemma some_component dir c : In c dir -> c <> "/"%char -> c <> "."%char -> components_of dir <> [].
Proof.
  intros Hc Hs Hd.
  assert (H: exists w, In w (split "/"%char dir) /\ In c w).
  { rewrite <- (join_split "/"%char dir) in Hc. revert Hc.
    generalize (split "/"%char dir) as ws. intros ws. induction ws as [|w ws IH]; cbn [join]; [intros []|].
    destruct ws as [|w' ws].
    - intros H. exists w. split; [left|]; auto.
    - intros H. apply in_app_or in H as [H|H]; [exists w; split; [left|]; auto|].
      apply in_app_or in H as [[H|[]]|H]; [congruence|]. destruct (IH H) as (x & Hx & Hcx). exists x. split; [right|]; auto. }
  destruct H as (w & Hw & Hcw). intros E.
  assert (Hin: In w (components_of dir)).
  { unfold components_of. apply filter_In. split; auto. apply andb_true_iff. split; apply negb_true_iff.
    - destruct w; [destruct Hcw|reflexivity].
    - destruct (str_eqb w $".") eqn:Ew; auto. apply str_eqb_eq in Ew. subst w. destruct Hcw as [<-|[]]. congruence. }
  rewrite E in Hin. destruct Hin.
Qed.
Lemma get_parts_extension ext name : file_with_extension ext name ->
  exists bucket folder stem, get_parts name = Ok (bucket, folder, stem, Some ext).
Proof.
  intros (dir & stem & e & -> & -> & He & Hs & Hed & Hes & Hss & Hr & c & Hc & Hc1 & Hc2).
  set (file := stem ++ $"." ++ e).
  assert (Cf: component file).
  { unfold file. split; [destruct stem; [congruence|discriminate]|]. split.
    - destruct stem as [|x stem]; [congruence|]. intros E. injection E as _ E. destruct stem; discriminate.
    - rewrite !in_app_iff. intros [H|[[H|[]]|H]]; auto. discriminate. }
  assert (Hcomp: components_of (dir ++ $"/" ++ file) = components_of dir ++ [file]).
  { rewrite components_app_slash, (components_single _ Cf). reflexivity. }
  assert (Hne: components_of dir <> []) by (eapply some_component; eauto).
  assert (Hrel: relative (dir ++ $"/" ++ file)).
  { destruct dir as [|d dir]; [destruct Hc|]. intros r E. injection E as -> _. apply (Hr dir). reflexivity. }
  destruct (components_of dir) as [|b mid] eqn:Ec; [congruence|]. clear Hne.
  rewrite (get_parts_eq _ b mid file Hrel) by (rewrite Hcomp; reflexivity).
  unfold file. change (stem ++ $"." ++ e) with (stem ++ "."%char :: e).
  rewrite stem_suffix_dot by auto. cbn [fst snd]. eauto.
Qed.
Lemma split_last_of c a e : ~ In c e -> split c (a ++ c :: e) = split c a ++ [e].
Proof.
  intros H. induction a as [|d a IH].
  - cbn [app]. change (c :: e) with ([] ++ c :: e). rewrite split_app_no_sep by (intros []).
    rewrite (split_single c e) by auto. reflexivity.
  - cbn [app split]. rewrite IH. destruct (Ascii.eqb c d); auto.
    pose proof (split_nonempty c a). destruct (split c a); [congruence|]. reflexivity.
Qed.
Lemma last_extension_eq ext name : file_with_extension ext name -> last_extension name = ext.
Proof.
  intros (dir & stem & e & -> & -> & He & Hs & Hed & Hes & Hss & _). unfold last_extension.
  assert (H: forall a, last (split "."%char (a ++ "."%char :: e)) [] = e).
  { intros a. rewrite split_last_of by auto. apply last_last. }
  change (dir ++ $"/" ++ stem ++ $"." ++ e) with (dir ++ ($"/" ++ (stem ++ "."%char :: e))).
  rewrite !app_assoc, H. reflexivity.
Qed.
