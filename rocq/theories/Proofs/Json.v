(** Proofs: JSON texts. *)
From Verif.Base Require Import Py PyFacts Value ValueFacts.
From Verif.Model Require Import Json.
From Verif.Spec Require Import Json.

(** ** One step of the mutual definitions *)
Lemma load_value_S f s : load_value (S f) s =
      match skip_ws s with
      | [] => Raise ValueError
      | c :: s1 =>
          if Ascii.eqb c """" then let* (t, r) := load_text [] s1 in Ok (VStr t, r)
          else if Ascii.eqb c "[" then
            match skip_ws s1 with
            | "]"%char :: r => Ok (VList [], r)
            | _ => load_members f [] s1
            end
          else if Ascii.eqb c "{" then
            match skip_ws s1 with
            | "}"%char :: r => Ok (VDict [], r)
            | _ => load_items f [] s1
            end
          else if Ascii.eqb c "-" then load_number true s1
          else if is_digit c then load_number false (c :: s1)
          else match take_word $"null" (c :: s1) with
          | Some r => Ok (VNull, r)
          | None =>
          match take_word $"true" (c :: s1) with
          | Some r => Ok (VBool true, r)
          | None =>
          match take_word $"false" (c :: s1) with
          | Some r => Ok (VBool false, r)
          | None => Raise ValueError
          end end end
      end.
Proof. reflexivity. Qed.
Lemma load_members_S f acc s : load_members (S f) acc s =
      let* (v, r) := load_value f s in
      match skip_ws r with
      | ","%char :: r' => load_members f (acc ++ [v]) r'
      | "]"%char :: r' => Ok (VList (acc ++ [v]), r')
      | _ => Raise ValueError
      end.
Proof. reflexivity. Qed.
Lemma load_items_S f acc s : load_items (S f) acc s =
      match skip_ws s with
      | """"%char :: s1 =>
          let* (k, r) := load_text [] s1 in
          match skip_ws r with
          | ":"%char :: r1 =>
              let* (v, r2) := load_value f r1 in
              match skip_ws r2 with
              | ","%char :: r' => load_items f (dset str_eqb k v acc) r'
              | "}"%char :: r' => Ok (VDict (dset str_eqb k v acc), r')
              | _ => Raise ValueError
              end
          | _ => Raise ValueError
          end
      | _ => Raise ValueError
      end.
Proof. reflexivity. Qed.

(** ** Texts *)
Lemma load_escape c acc rest : load_text acc (escape c ++ rest) = load_text (c :: acc) rest.
Proof. destruct c as [[] [] [] [] [] [] [] []]; reflexivity. Qed.

Lemma load_escapes s : forall acc rest, load_text acc (flat_map escape s ++ """"%char :: rest) = Ok (rev acc ++ s, rest).
Proof.
  induction s as [|c s IH]; intros acc rest; cbn [flat_map app].
  - cbn. now rewrite app_nil_r.
  - rewrite <- app_assoc, load_escape, IH. cbn [rev]. now rewrite <- app_assoc.
Qed.

Lemma load_dump_text s rest : load_text [] (flat_map escape s ++ [""""%char] ++ rest) = Ok (s, rest).
Proof. cbn [app]. now rewrite load_escapes. Qed.

(** ** Numbers *)
Definition no_digit (s : str) : Prop := match s with c :: _ => is_digit c = false | [] => True end.

Lemma span_all ds rest : (forall c, In c ds -> is_digit c = true) -> no_digit rest -> span_digits (ds ++ rest) = (ds, rest).
Proof.
  induction ds as [|c ds IH]; intros H Hr; cbn.
  - destruct rest as [|d r]; auto. cbn in Hr |- *. now rewrite Hr.
  - rewrite H by now left. rewrite IH; auto. intros d Hd. apply H. now right.
Qed.

Lemma dec_fuel_pos f : forall n acc, (0 < n)%N -> (N.to_nat (N.log2 n) < f)%nat -> exists r, dec_fuel f n acc = r /\
  hd_error r <> Some "0"%char.
Proof.
  induction f as [|f IH]; intros n acc Hn Hf; [lia|]. eexists. split; [reflexivity|]. cbn [dec_fuel].
  destruct (N.eqb_spec (n / 10) 0) as [E|E].
  - cbn [hd_error]. assert (Hm : (n mod 10 = n)%N) by (apply N.mod_small; apply N.div_small_iff in E; lia).
    rewrite Hm. apply N.div_small_iff in E; [|lia].
    assert (C : (n = 1 \/ n = 2 \/ n = 3 \/ n = 4 \/ n = 5 \/ n = 6 \/ n = 7 \/ n = 8 \/ n = 9)%N) by lia.
    decompose [or] C; subst; discriminate.
  - destruct (IH (n / 10)%N (digit (n mod 10) :: acc)) as (r & <- & Hr); auto; [lia|].
    assert (HL : (N.log2 (n / 10) < N.log2 n)%N); [|lia].
    assert (H2 : (n / 10 <= n / 2)%N) by (apply N.div_le_compat_l; lia).
    apply N.le_lt_trans with (N.log2 (n / 2)); [now apply N.log2_le_mono|].
    assert (H10 : (10 <= n)%N) by (destruct (N.lt_ge_cases n 10); auto; exfalso; apply E; apply N.div_small; auto).
    rewrite <- N.div2_div. replace (N.log2 n) with (N.succ (N.log2 (N.div2 n))); [lia|].
    rewrite N.div2_div. rewrite (N.div2_odd n) at 2. rewrite N.div2_div.
    destruct (N.odd n); cbn [N.b2n].
    + rewrite N.log2_succ_double; lia.
    + rewrite N.add_0_r, N.log2_double; lia.
Qed.

Lemma dec_no_zero n : match dec n with "0"%char :: _ :: _ => False | _ => True end.
Proof.
  destruct (N.eq_dec n 0) as [->|Hn]; [exact I|].
  destruct (dec_fuel_pos (S (N.to_nat (N.log2 n))) n [] ltac:(lia) ltac:(lia)) as (r & E & H).
  unfold dec. rewrite E. destruct r as [|c [|d r]]; auto.
  - destruct c as [[] [] [] [] [] [] [] []]; auto.
  - destruct c as [[] [] [] [] [] [] [] []]; auto; now destruct H.
Qed.

Lemma load_dec neg n rest : no_digit rest ->
  load_number neg (dec n ++ rest) = Ok (VInt (if neg then - Z.of_N n else Z.of_N n)%Z, rest).
Proof.
  intro Hr. unfold load_number. rewrite span_all; [|apply dec_digits|auto]. rewrite undec_dec.
  pose proof (dec_no_zero n) as H. destruct (dec n) as [|c [|d r]]; auto.
  - destruct c as [[] [] [] [] [] [] [] []]; auto.
  - destruct c as [[] [] [] [] [] [] [] []]; auto; destruct H.
Qed.

(** ** First characters *)
Lemma skip_ws_nonspace c s : json_space c = false -> skip_ws (c :: s) = c :: s.
Proof. intro H. cbn [skip_ws]. now rewrite H. Qed.

Definition starts_value (c : ascii) : bool :=
  Ascii.eqb c """" || Ascii.eqb c "[" || Ascii.eqb c "{" || Ascii.eqb c "-" || is_digit c ||
  Ascii.eqb c "n" || Ascii.eqb c "t" || Ascii.eqb c "f".

Lemma dumps_first v : exists c r, dumps v = c :: r /\ starts_value c = true.
Proof.
  destruct v as [|b|z|s|l|d]; cbn [dumps].
  - eexists _, _. split; reflexivity.
  - destruct b; eexists _, _; split; reflexivity.
  - unfold decZ. destruct (z <? 0)%Z; [eexists _, _; split; reflexivity|].
    pose proof (dec_nonempty (Z.to_N z)) as Hne. pose proof (dec_digits (Z.to_N z)) as Hd.
    destruct (dec (Z.to_N z)) as [|c r]; [congruence|]. exists c, r. split; auto.
    specialize (Hd c (or_introl eq_refl)). unfold starts_value. rewrite Hd. now rewrite !orb_true_r.
  - eexists _, _. split; reflexivity.
  - eexists _, _. split; reflexivity.
  - eexists _, _. split; reflexivity.
Qed.

Lemma starts_value_not c : starts_value c = true -> json_space c = false /\ c <> "]"%char /\ c <> "}"%char /\ c <> ","%char.
Proof.
  intro H. destruct c as [[] [] [] [] [] [] [] []]; try discriminate H; repeat split; try reflexivity; discriminate.
Qed.

Definition stops (s : str) : Prop := no_digit s.

(** ** Round trip *)
Definition reads_back (v : value) : Prop :=
  distinct_keys v -> forall fuel rest, length (dumps v) <= fuel -> no_digit rest ->
  load_value fuel (dumps v ++ rest) = Ok (v, rest).

Lemma join_cons sep x (y : str) l : join sep (x :: y :: l) = x ++ sep ++ join sep (y :: l).
Proof. reflexivity. Qed.

Lemma comma_app (s : str) : $"," ++ s = ","%char :: s.
Proof. reflexivity. Qed.

Lemma members_back l : Forall reads_back l -> forall x, reads_back x -> distinct_keys (VList (x :: l)) ->
  forall fuel acc rest,
  length (join $"," (map dumps (x :: l))) + 1 <= fuel ->
  load_members fuel acc (join $"," (map dumps (x :: l)) ++ "]"%char :: rest) = Ok (VList (acc ++ x :: l), rest).
Proof.
  induction 1 as [|y l Hy Hl IH]; intros x Hx Hd fuel acc rest Hf.
  - cbn [map join] in *. destruct fuel as [|f]; [lia|]. rewrite load_members_S. destruct Hd as [Hd _].
    rewrite (Hx Hd); [|lia|reflexivity]. cbn [bind]. rewrite skip_ws_nonspace by reflexivity. reflexivity.
  - cbn [map] in *. rewrite join_cons in *. destruct Hd as [Hdx Hd]. rewrite !app_length in Hf. change (length $",") with 1 in Hf.
    destruct fuel as [|f]; [lia|]. rewrite load_members_S. rewrite <- !app_assoc.
    rewrite (Hx Hdx); [|lia|reflexivity]. cbn [bind]. rewrite comma_app. rewrite skip_ws_nonspace by reflexivity.
    rewrite (IH y Hy Hd); [|lia]. now rewrite <- app_assoc.
Qed.

Definition dump_item (kv : str * value) : str := dump_text (fst kv) ++ ":"%char :: dumps (snd kv).

Lemma dset_new k v (d : record) : ~ In k (map fst d) -> dset str_eqb k v d = d ++ [(k, v)].
Proof. intro H. apply dset_notin; auto. apply str_keqb. Qed.

Lemma item_step f acc k v r : reads_back v -> distinct_keys v -> length (dumps v) <= f -> no_digit r ->
  load_items (S f) acc (dump_item (k, v) ++ r) =
      match skip_ws r with
      | ","%char :: r' => load_items f (dset str_eqb k v acc) r'
      | "}"%char :: r' => Ok (VDict (dset str_eqb k v acc), r')
      | _ => Raise ValueError
      end.
Proof.
  intros Hv Hd Hf Hr. rewrite load_items_S. unfold dump_item, dump_text. cbn [fst snd app].
  rewrite skip_ws_nonspace by reflexivity. rewrite <- !app_assoc. cbn [app].
  rewrite load_escapes. cbn [bind rev app]. rewrite skip_ws_nonspace by reflexivity.
  rewrite (Hv Hd); auto.
Qed.

Lemma items_back d : Forall (fun kv => reads_back (snd kv)) d -> forall kv, reads_back (snd kv) ->
  distinct_keys (VDict (kv :: d)) -> forall fuel acc rest,
  length (join $"," (map dump_item (kv :: d))) + 1 <= fuel ->
  (forall k, In k (map fst acc) -> ~ In k (map fst (kv :: d))) ->
  load_items fuel acc (join $"," (map dump_item (kv :: d)) ++ "}"%char :: rest) = Ok (VDict (acc ++ kv :: d), rest).
Proof.
  induction 1 as [|kv' d Hkv' Hd IH]; intros [k v] Hv Hdk fuel acc rest Hf Hn.
  - cbn [map join] in *. destruct fuel as [|f]; [lia|]. destruct Hdk as [_ [Hdv _]].
    unfold dump_item, dump_text in Hf. cbn [fst snd] in Hf. rewrite !app_length in Hf. cbn [length app] in Hf.
    rewrite item_step; auto; [|lia|reflexivity]. rewrite skip_ws_nonspace by reflexivity.
    rewrite dset_new; [reflexivity|]. intro Hin. apply (Hn k Hin). now left.
  - cbn [map] in *. rewrite join_cons in *. rewrite !app_length in Hf. change (length $",") with 1 in Hf.
    destruct fuel as [|f]; [lia|]. rewrite <- !app_assoc.
    destruct Hdk as [Hnd [Hdv Hdd]].
    assert (Hlen : length (dumps v) <= f).
    { clear - Hf. assert (E : length (dump_item (k, v)) = length (dump_text k) + S (length (dumps v))) by (unfold dump_item; now rewrite app_length).
      rewrite E in Hf. lia. }
    rewrite item_step; auto; [|reflexivity]. rewrite comma_app.
    rewrite skip_ws_nonspace by reflexivity. cbn [map fst] in Hnd. inversion Hnd as [|? ? Hk Hnd']; subst.
    rewrite dset_new by (intro Hin; apply (Hn k Hin); now left).
    rewrite (IH kv'); auto.
    + now rewrite <- app_assoc.
    + split; auto.
    + cbn [map]. lia.
    + intros k' Hk' Hin. rewrite map_app in Hk'. apply in_app_or in Hk' as [Hk'|[<-|[]]].
      * apply (Hn k' Hk'). now right.
      * now apply Hk.
Qed.

Lemma dumps_back v : reads_back v.
Proof.
  induction v as [|b|z|s|l IH|d IH] using value_ind'; intros Hd fuel rest Hf Hr;
    (destruct fuel as [|f]; [destruct (dumps_first) with (v := VNull); exfalso; revert Hf;
       match goal with |- length (dumps ?v) <= 0 -> _ => destruct (dumps_first v) as (c0 & r0 & -> & _); cbn; lia end|]);
    rewrite load_value_S.
  - reflexivity.
  - destruct b; reflexivity.
  - cbn [dumps]. unfold decZ. destruct (Z.ltb_spec z 0).
    + change ($"-" ++ dec (Z.to_N (- z))) with ("-"%char :: dec (Z.to_N (- z))). rewrite <- app_comm_cons.
      rewrite skip_ws_nonspace by reflexivity.
      change (Ascii.eqb "-" """") with false. change (Ascii.eqb "-" "[") with false. change (Ascii.eqb "-" "{") with false.
      change (Ascii.eqb "-" "-") with true. cbv iota. rewrite load_dec by auto. do 3 f_equal. lia.
    + pose proof (load_dec false (Z.to_N z) rest Hr) as HL. pose proof (dec_nonempty (Z.to_N z)) as Hne.
      pose proof (dec_digits (Z.to_N z)) as Hdg. destruct (dec (Z.to_N z)) as [|c r]; [congruence|].
      specialize (Hdg c (or_introl eq_refl)). cbn [app] in *. rewrite skip_ws_nonspace.
      * replace (Ascii.eqb c """") with false; [|destruct c as [[] [] [] [] [] [] [] []]; try discriminate Hdg; reflexivity].
        replace (Ascii.eqb c "[") with false; [|destruct c as [[] [] [] [] [] [] [] []]; try discriminate Hdg; reflexivity].
        replace (Ascii.eqb c "{") with false; [|destruct c as [[] [] [] [] [] [] [] []]; try discriminate Hdg; reflexivity].
        replace (Ascii.eqb c "-") with false; [|destruct c as [[] [] [] [] [] [] [] []]; try discriminate Hdg; reflexivity].
        rewrite Hdg, HL. do 3 f_equal. lia.
      * destruct c as [[] [] [] [] [] [] [] []]; try discriminate Hdg; reflexivity.
  - cbn [dumps]. unfold dump_text. cbn [app]. rewrite skip_ws_nonspace by reflexivity. cbn [Ascii.eqb Bool.eqb].
    rewrite <- app_assoc. change (Ascii.eqb """" """") with true. cbn iota. rewrite load_dump_text. reflexivity.
  - cbn [dumps]. cbn [app]. rewrite skip_ws_nonspace by reflexivity.
    change (Ascii.eqb "[" """") with false. change (Ascii.eqb "[" "[") with true. cbn iota.
    destruct l as [|x l]; [reflexivity|]. inversion IH as [|? ? Hx Hl]; subst. rewrite <- app_assoc. cbn [app].
    assert (E : exists c r, skip_ws (join $"," (map dumps (x :: l)) ++ "]"%char :: rest) = c :: r /\ c <> "]"%char).
    { destruct (dumps_first x) as (c & r & Ec & Hc). apply starts_value_not in Hc as (H1 & H2 & _).
      destruct l as [|y l]; cbn [map join]; rewrite Ec; cbn [app]; rewrite skip_ws_nonspace by auto; eauto. }
    destruct E as (c & r & E & Hc). rewrite E.
    transitivity (load_members f [] (join $"," (map dumps (x :: l)) ++ "]"%char :: rest)).
    { destruct c as [[] [] [] [] [] [] [] []]; try reflexivity. now destruct Hc. }
    rewrite members_back; auto. cbn [dumps] in Hf. cbn [length] in Hf. rewrite app_length in Hf. cbn [length] in Hf. lia.
  - cbn [dumps]. cbn [app]. rewrite skip_ws_nonspace by reflexivity.
    change (Ascii.eqb "{" """") with false. change (Ascii.eqb "{" "[") with false. change (Ascii.eqb "{" "{") with true. cbn iota.
    destruct d as [|kv d]; [reflexivity|]. inversion IH as [|? ? Hx Hl]; subst. rewrite <- app_assoc. cbn [app].
    change (map (fun kv0 : str * value => dump_text (fst kv0) ++ ":"%char :: dumps (snd kv0)) (kv :: d)) with (map dump_item (kv :: d)).
    assert (E : exists r, skip_ws (join $"," (map dump_item (kv :: d)) ++ "}"%char :: rest) = """"%char :: r).
    { destruct d as [|kv' d]; cbn [map join]; unfold dump_item at 1, dump_text; cbn [app]; rewrite skip_ws_nonspace by reflexivity; eauto. }
    destruct E as (r & E). rewrite E.
    rewrite items_back; auto. cbn [dumps] in Hf. cbn [length] in Hf. rewrite app_length in Hf. cbn [length] in Hf.
    change (map (fun kv0 : str * value => dump_text (fst kv0) ++ ":"%char :: dumps (snd kv0)) (kv :: d)) with (map dump_item (kv :: d)) in Hf.
    lia.
Qed.

Lemma loads_dumps v ws : distinct_keys v -> (forall c, In c ws -> json_space c = true) -> loads (dumps v ++ ws) = Ok v.
Proof.
  intros Hd Hw. unfold loads. rewrite dumps_back; auto.
  - cbn [bind]. assert (E : skip_ws ws = []).
    { clear - Hw. induction ws as [|c ws IH]; auto. cbn [skip_ws]. rewrite Hw by now left. apply IH. intros d Hd. apply Hw. now right. }
    now rewrite E.
  - rewrite app_length. lia.
  - destruct ws as [|c ws]; [exact I|]. specialize (Hw c (or_introl eq_refl)).
    destruct c as [[] [] [] [] [] [] [] []]; try reflexivity; discriminate.
Qed.

(** ** No control characters in what is written *)
Lemma dumps_printable v c : In c (dumps v) -> (32 <= N_of_ascii c)%N.
Proof.
  assert (Hesc : forall s c, In c (dump_text s) -> (32 <= N_of_ascii c)%N).
  { intros s x [<-|H]; [cbn; lia|]. apply in_app_or in H as [H|[<-|[]]]; [|cbn; lia].
    apply in_flat_map in H as (d & _ & Hd).
    revert x Hd. apply Forall_forall. destruct d as [[] [] [] [] [] [] [] []]; repeat constructor; discriminate. }
  assert (Hj : forall l, (forall s, In s l -> forall c, In c s -> (32 <= N_of_ascii c)%N) ->
               forall c, In c (join $"," l) -> (32 <= N_of_ascii c)%N).
  { induction l as [|s l IH]; intros H x Hx; [destruct Hx|]. destruct l as [|s' l].
    - apply (H s); auto. now left.
    - rewrite join_cons in Hx. apply in_app_or in Hx as [Hx|Hx]; [apply (H s); auto; now left|].
      apply in_app_or in Hx as [[<-|[]]|Hx]; [cbn; lia|]. apply IH; auto. intros t Ht. apply H. now right. }
  revert c. induction v as [|b|z|s|l IH|d IH] using value_ind'; intros c H.
  - cbn in H. repeat destruct H as [<-|H]; cbn; try lia.
  - destruct b; cbn in H; repeat destruct H as [<-|H]; cbn; try lia.
  - assert (Hdig : forall n c, In c (dec n) -> (32 <= N_of_ascii c)%N).
    { intros n x Hx. apply dec_digits in Hx. destruct x as [[] [] [] [] [] [] [] []]; try discriminate Hx; cbn; lia. }
    cbn [dumps] in H. unfold decZ in H. destruct (z <? 0)%Z; [|exact (Hdig _ _ H)].
    apply in_app_or in H as [[<-|[]]|H]; [cbn; lia|exact (Hdig _ _ H)].
  - now apply (Hesc s).
  - cbn [dumps] in H. destruct H as [<-|H]; [cbn; lia|]. apply in_app_or in H as [H|[<-|[]]]; [|cbn; lia].
    apply (Hj (map dumps l)); auto. intros s Hs. apply in_map_iff in Hs as (v & <- & Hv). rewrite Forall_forall in IH. now apply IH.
  - cbn [dumps] in H. destruct H as [<-|H]; [cbn; lia|]. apply in_app_or in H as [H|[<-|[]]]; [|cbn; lia].
    eapply Hj; [|exact H]. intros s Hs. apply in_map_iff in Hs as (kv & <- & Hkv). intros x Hx.
    apply in_app_or in Hx as [Hx|[<-|Hx]]; [eauto|cbn; lia|]. rewrite Forall_forall in IH. now apply (IH kv).
Qed.

(** ** The reference texts are faithful *)
Lemma json_faithful : faithful_json dumps loads.
Proof.
  intros v Hv. split; [|split].
  - rewrite <- (app_nil_r (dumps v)). apply loads_dumps; auto; intros c Hc; destruct Hc.
  - apply loads_dumps; auto. intros c [<-|Hc]; [|destruct Hc]. exact eq_refl.
  - intro H. apply dumps_printable in H. cbn in H. lia.
Qed.
