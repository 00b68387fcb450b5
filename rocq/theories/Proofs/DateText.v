(** The date and duration parsers. *)
From Verif.Base Require Import Py PyFacts.
From Verif.Model Require Import Paths Dates.
From Verif.Spec Require Import Paths Dates.
From Verif.Proofs Require Import Dates.
Local Open Scope Z_scope.

(** ** parse_delta *)
Fixpoint scan (unit : ascii) (s : str) (acc : Z) (seen : bool) : option (Z * str) :=
  match s with
  | c :: r => match digit_val c with
              | Some d => scan unit r (10 * acc + Z.of_N d)%Z true
              | None => if seen && Ascii.eqb (lower_c c) unit then Some (acc, r) else None
              end
  | [] => None
  end.
Definition sign_split (s : str) : bool * str :=
  match s with "-"%char :: r => (true, r) | _ => (false, s) end.
Lemma match_group_scan unit s :
  match_group unit s = let (neg, s1) := sign_split s in
    match scan unit s1 0 false with
    | Some (v, r) => (Some (if neg then - v else v), r)
    | None => (None, s)
    end.
Proof.
  unfold match_group. fold (sign_split s). destruct (sign_split s) as [neg s1].
  assert (E: forall s a b, (fix digits (s : str) (acc : Z) (seen : bool) : option (Z * str) :=
    match s with
    | c :: r => match digit_val c with
                | Some d => digits r (10 * acc + Z.of_N d)%Z true
                | None => if seen && Ascii.eqb (lower_c c) unit then Some (acc, r) else None
                end
    | [] => None
    end) s a b = scan unit s a b).
  { clear. induction s as [|c s IH]; intros a b; cbn [scan]; auto. destruct (digit_val c); auto. }
  rewrite E. reflexivity.
Qed.

Lemma digit_val_some c d : digit_val c = Some d -> is_digit c = true.
Proof. unfold digit_val. destruct (is_digit c); [auto|discriminate]. Qed.
Lemma unit_not_digit u : is_digit (lower_c u) = false -> digit_val u = None.
Proof.
  unfold digit_val. destruct (is_digit u) eqn:E; auto. intros H. exfalso.
  assert (lower_c u = u).
  { unfold lower_c. destruct (is_upper u) eqn:U; auto. unfold is_digit in E. unfold is_upper in U. lia. }
  congruence.
Qed.

Lemma scan_digits unit s : forall n acc b u r, undec_acc (Z.to_N acc) s = Some n -> 0 <= acc -> (s <> [] \/ b = true) ->
  digit_val u = None -> lower_c u = unit ->
  scan unit (s ++ u :: r) acc b = Some (Z.of_N n, r).
Proof.
  induction s as [|c s IH]; intros n acc b u r H Ha Hb Hu Hl; cbn [app scan].
  - rewrite Hu, Hl. destruct Hb as [Hb|Hb]; [congruence|]. rewrite Hb, Ascii.eqb_refl. cbn [andb].
    cbn in H. injection H as <-. rewrite Z2N.id by auto. reflexivity.
  - cbn [undec_acc] in H. destruct (digit_val c) as [d|]; [|discriminate].
    apply IH; auto; [|lia]. rewrite <- H. f_equal. lia.
Qed.

Lemma scan_other unit s : forall acc b u r, (forall c, In c s -> is_digit c = true) ->
  digit_val u = None -> lower_c u <> unit -> scan unit (s ++ u :: r) acc b = None.
Proof.
  induction s as [|c s IH]; intros acc b u r H Hu Hl; cbn [app scan].
  - rewrite Hu. destruct (Ascii.eqb_spec (lower_c u) unit); [congruence|]. rewrite andb_false_r. reflexivity.
  - assert (is_digit c = true) by (apply H; left; auto). unfold digit_val. rewrite H0. apply IH; auto.
    intros x Hx. apply H. right. auto.
Qed.

Lemma undec_digits s : forall n a, undec_acc a s = Some n -> forall c, In c s -> is_digit c = true.
Proof.
  induction s as [|c s IH]; intros n a H x Hx; [destruct Hx|]. cbn [undec_acc] in H.
  destruct (digit_val c) as [d|] eqn:E; [|discriminate]. destruct Hx as [<-|Hx]; [eapply digit_val_some; eauto|eauto].
Qed.
Lemma number_digits z s : number z s -> s <> [] /\ 0 <= z /\ undec_acc 0 s = Some (Z.to_N z) /\ forall c, In c s -> is_digit c = true.
Proof.
  intros (n & H & ->). unfold undec in H. destruct s as [|c s]; [discriminate|]. split; [discriminate|].
  split; [lia|]. rewrite N2Z.id. split; auto. eapply undec_digits; eauto.
Qed.

Definition is_unit (u : ascii) := is_digit u = false /\ lower_c "-"%char <> u.
Lemma quantity_match unit z s r : is_unit unit -> quantity unit z s -> match_group unit (s ++ r) = (Some z, r).
Proof.
  intros [Hu _] H. rewrite match_group_scan. destruct H as [z s u Hn Hl|z s u Hn Hl];
    destruct (number_digits _ _ Hn) as (N & Hz & Hd & Hc).
  - rewrite <- app_assoc. cbn [app].
    assert (E: sign_split (s ++ u :: r) = (false, s ++ u :: r)).
    { destruct s as [|c s]; [congruence|]. cbn [app sign_split]. specialize (Hc c (or_introl eq_refl)).
      destruct (Ascii.eqb_spec c "-"%char) as [->|Hne]; [discriminate Hc|].
      clear - Hne. destruct c as [[] [] [] [] [] [] [] []]; try reflexivity. congruence. }
    rewrite E. rewrite (scan_digits unit s (Z.to_N z)); auto; [rewrite Z2N.id by auto; reflexivity|lia|].
    apply unit_not_digit. congruence.
  - cbn [app sign_split]. rewrite <- app_assoc. cbn [app].
    rewrite (scan_digits unit s (Z.to_N z)); auto; [rewrite Z2N.id by auto; reflexivity|lia|].
    apply unit_not_digit. congruence.
Qed.

Lemma quantity_other unit unit' z s r : is_unit unit' -> unit <> unit' -> quantity unit' z s ->
  match_group unit (s ++ r) = (None, s ++ r).
Proof.
  intros [Hu _] Hne H. rewrite match_group_scan. destruct H as [z s u Hn Hl|z s u Hn Hl];
    destruct (number_digits _ _ Hn) as (N & Hz & Hd & Hc).
  - rewrite <- app_assoc. cbn [app].
    assert (E: sign_split (s ++ u :: r) = (false, s ++ u :: r)).
    { destruct s as [|c s]; [congruence|]. cbn [app sign_split]. specialize (Hc c (or_introl eq_refl)).
      destruct (Ascii.eqb_spec c "-"%char) as [->|Hne']; [discriminate Hc|].
      clear - Hne'. destruct c as [[] [] [] [] [] [] [] []]; try reflexivity. congruence. }
    rewrite E. rewrite scan_other; auto; [|congruence]. apply unit_not_digit. congruence.
  - cbn [app sign_split]. rewrite <- app_assoc. cbn [app].
    rewrite scan_other; auto; [|congruence]. apply unit_not_digit. congruence.
Qed.

Lemma match_group_nil unit : match_group unit [] = (None, []).
Proof. reflexivity. Qed.

Lemma scan_sound unit s : forall acc b v r, scan unit s acc b = Some (v, r) -> 0 <= acc ->
  exists ds u, s = ds ++ u :: r /\ lower_c u = unit /\ undec_acc (Z.to_N acc) ds = Some (Z.to_N v) /\ 0 <= v /\ (b = true \/ ds <> []).
Proof.
  induction s as [|c s IH]; intros acc b v r H Ha; cbn [scan] in H; [discriminate|].
  destruct (digit_val c) as [d|] eqn:E.
  - apply IH in H; [|lia]. destruct H as (ds & u & -> & Hl & Hd & Hv & _).
    exists (c :: ds), u. repeat split; auto; [|right; discriminate]. cbn [undec_acc]. rewrite E, <- Hd. f_equal. lia.
  - destruct b; cbn [andb] in H; [|discriminate]. destruct (Ascii.eqb_spec (lower_c c) unit); [|discriminate].
    injection H as <- <-. exists [], c. repeat split; auto.
Qed.

Lemma match_group_sound unit s : exists z g r,
  opt_quantity unit z g /\ s = g ++ r /\ or0 (fst (match_group unit s)) = z /\ snd (match_group unit s) = r.
Proof.
  rewrite match_group_scan. destruct (sign_split s) as [neg s1] eqn:Es.
  destruct (scan unit s1 0 false) as [[v r]|] eqn:Eg.
  - apply scan_sound in Eg; [|lia]. destruct Eg as (ds & u & -> & Hl & Hd & Hv & Hne).
    destruct Hne as [Hne|Hne]; [discriminate|].
    assert (Hn: number v ds).
    { exists (Z.to_N v). split; [|lia]. destruct ds; [congruence|]. exact Hd. }
    destruct neg; cbn [fst snd or0].
    + assert (s = "-"%char :: ds ++ u :: r).
      { unfold sign_split in Es. destruct s as [|c s]; [discriminate|].
        destruct c as [[] [] [] [] [] [] [] []]; try discriminate Es. injection Es as ->. reflexivity. }
      exists (- v), ("-"%char :: ds ++ [u]), r. split; [constructor; constructor; auto|].
      split; [|auto]. subst s. cbn [app]. rewrite <- app_assoc. reflexivity.
    + assert (s = ds ++ u :: r).
      { unfold sign_split in Es. destruct s as [|c s]; [injection Es; auto|].
        destruct c as [[] [] [] [] [] [] [] []]; try discriminate Es; injection Es as <-; reflexivity. }
      exists v, (ds ++ [u]), r. split; [constructor; constructor; auto|].
      split; [|auto]. subst s. rewrite <- app_assoc. reflexivity.
  - exists 0, [], s. split; [constructor|]. auto.
Qed.

Lemma make_timedelta_spec d h m s :
  (timedelta_range (total_seconds d h m s) -> make_timedelta d h m s = Ok (total_seconds d h m s)) /\
  (~ timedelta_range (total_seconds d h m s) -> make_timedelta d h m s = Raise OverflowError).
Proof.
  unfold make_timedelta, timedelta_range, total_seconds. cbv zeta.
  replace (d * 86400 + h * 3600 + m * 60 + s) with (86400 * d + 3600 * h + 60 * m + s) by lia.
  set (t := 86400 * d + 3600 * h + 60 * m + s). clearbody t.
  destruct (Z.leb_spec (-999999999) (t / 86400)), (Z.leb_spec (t / 86400) 999999999); cbn [andb]; split; intros; auto; lia.
Qed.

Lemma opt_match unit z g r : is_unit unit -> opt_quantity unit z g ->
  (g = [] -> match_group unit r = (None, r)) ->
  exists o, match_group unit (g ++ r) = (o, r) /\ or0 o = z.
Proof.
  intros Hu H Hr. destruct H as [|z s H].
  - exists None. split; [apply Hr; auto|auto].
  - exists (Some z). split; [apply quantity_match; auto|reflexivity].
Qed.

Lemma opt_other unit unit' z g r : is_unit unit' -> unit <> unit' -> opt_quantity unit' z g ->
  match_group unit r = (None, r) -> match_group unit (g ++ r) = (None, g ++ r).
Proof. intros Hu Hne H Hr. destruct H; auto. eapply quantity_other; eauto. Qed.

Theorem parse_delta_exact d h m s gd gh gm gs :
  opt_quantity "d"%char d gd -> opt_quantity "h"%char h gh -> opt_quantity "m"%char m gm -> opt_quantity "s"%char s gs ->
  (timedelta_range (total_seconds d h m s) -> parse_delta (gd ++ gh ++ gm ++ gs) = Ok (total_seconds d h m s)) /\
  (~ timedelta_range (total_seconds d h m s) -> parse_delta (gd ++ gh ++ gm ++ gs) = Raise OverflowError).
Proof.
  intros Hd Hh Hm Hs.
  assert (Ud: is_unit "d"%char) by (split; [reflexivity|discriminate]).
  assert (Uh: is_unit "h"%char) by (split; [reflexivity|discriminate]).
  assert (Um: is_unit "m"%char) by (split; [reflexivity|discriminate]).
  assert (Us: is_unit "s"%char) by (split; [reflexivity|discriminate]).
  unfold parse_delta.
  assert (Ns: forall u, u <> "s"%char -> match_group u gs = (None, gs)).
  { intros u Hu. rewrite <- (app_nil_r gs). eapply opt_other; eauto. }
  destruct (opt_match "d"%char d gd (gh ++ gm ++ gs) Ud Hd) as (od & Ed & Od).
  { intros _. eapply opt_other; [apply Uh|discriminate|eauto|]. eapply opt_other; [apply Um|discriminate|eauto|]. apply Ns. discriminate. }
  rewrite Ed.
  destruct (opt_match "h"%char h gh (gm ++ gs) Uh Hh) as (oh & Eh & Oh).
  { intros _. eapply opt_other; [apply Um|discriminate|eauto|]. apply Ns. discriminate. }
  rewrite Eh.
  destruct (opt_match "m"%char m gm gs Um Hm) as (om & Em & Om).
  { intros _. apply Ns. discriminate. }
  rewrite Em.
  destruct (opt_match "s"%char s gs [] Us Hs) as (os & Es & Os).
  { intros _. reflexivity. }
  rewrite app_nil_r in Es. rewrite Es, Od, Oh, Om, Os. apply make_timedelta_spec.
Qed.

(** the groups take the longest prefix which is a duration *)
Fixpoint taken (units : list ascii) (text : str) : str :=
  match units with [] => text | u :: units' => taken units' (snd (match_group u text)) end.
Inductive chain : list ascii -> str -> str -> Prop :=
| c_nil t : chain [] t t
| c_cons u us z g t rest : opt_quantity u z g -> chain us t rest -> chain (u :: us) (g ++ t) rest.

Lemma match_group_shorter u t : (length (snd (match_group u t)) <= length t)%nat.
Proof. destruct (match_group_sound u t) as (z & g & r & _ & E & _ & R). rewrite R, E, app_length. lia. Qed.
Lemma taken_shorter us : forall t, (length (taken us t) <= length t)%nat.
Proof.
  induction us as [|u us IH]; intros t; cbn [taken]; auto. etransitivity; [apply IH|]. apply match_group_shorter.
Qed.
Lemma chain_other u z g r us : forall text rest, is_unit u -> quantity u z g -> ~ In u us -> Forall is_unit us ->
  chain us text rest -> text = g ++ r -> rest = text.
Proof.
  intros text rest U Q. revert text. induction us as [|v us IH]; intros text N FU C E; inversion C as [|? ? z' g' t ? Hq Hc]; subst; auto.
  inversion FU as [|? ? Uv FUs]; subst.
  inversion Hq as [|z0 s0 Hq']; subst.
  - cbn [app] in *. apply (IH t); auto. intro X. apply N. now right.
  - exfalso. pose proof (quantity_match v _ g' t Uv Hq') as M. rewrite H1 in M.
    rewrite (quantity_other v u z g r U) in M; [discriminate| |auto]. intros ->. apply N. now left.
Qed.
Lemma taken_longest us : forall text rest, NoDup us -> Forall is_unit us -> chain us text rest ->
  (length (taken us text) <= length rest)%nat.
Proof.
  induction us as [|u us IH]; intros text rest ND FU C; inversion C as [|? ? z g t ? Hq Hc]; subst; cbn [taken]; auto.
  inversion ND as [|? ? N1 N2]; subst. inversion FU as [|? ? Uu FUs]; subst.
  inversion Hq as [|z0 s0 Hq']; subst.
  - cbn [app]. destruct (match_group_sound u t) as (z & g & r & Q & E & _ & R).
    inversion Q as [|z1 s1 Q']; subst z g.
    + cbn [app] in E. rewrite R. subst r. apply IH; auto.
    + assert (rest = t) by (eapply chain_other; eauto). subst rest.
      etransitivity; [apply taken_shorter|]. apply match_group_shorter.
  - rewrite (quantity_match u z g t Uu Hq'). cbn [snd]. apply IH; auto.
Qed.

Theorem parse_delta_prefix text : exists d h m s gd gh gm gs rest,
  text = gd ++ gh ++ gm ++ gs ++ rest /\
  opt_quantity "d"%char d gd /\ opt_quantity "h"%char h gh /\ opt_quantity "m"%char m gm /\ opt_quantity "s"%char s gs /\
  (forall d' h' m' s' gd' gh' gm' gs' rest', text = gd' ++ gh' ++ gm' ++ gs' ++ rest' ->
     opt_quantity "d"%char d' gd' -> opt_quantity "h"%char h' gh' -> opt_quantity "m"%char m' gm' -> opt_quantity "s"%char s' gs' ->
     (length rest <= length rest')%nat) /\
  (timedelta_range (total_seconds d h m s) -> parse_delta text = Ok (total_seconds d h m s)) /\
  (~ timedelta_range (total_seconds d h m s) -> parse_delta text = Raise OverflowError).
Proof.
  assert (L : forall rest', chain ["d"; "h"; "m"; "s"]%char text rest' ->
                (length (taken ["d"; "h"; "m"; "s"]%char text) <= length rest')%nat).
  { intros rest'. apply taken_longest.
    - repeat constructor; cbn; intuition discriminate.
    - repeat constructor; cbn; discriminate. }
  cbn [taken] in L. unfold parse_delta.
  destruct (match_group_sound "d"%char text) as (d & gd & r1 & Q1 & E1 & V1 & R1).
  destruct (match_group "d"%char text) as [od r1'] eqn:M1. cbn [fst snd] in *. subst r1'.
  destruct (match_group_sound "h"%char r1) as (h & gh & r2 & Q2 & E2 & V2 & R2).
  destruct (match_group "h"%char r1) as [oh r2'] eqn:M2. cbn [fst snd] in *. subst r2'.
  destruct (match_group_sound "m"%char r2) as (m & gm & r3 & Q3 & E3 & V3 & R3).
  destruct (match_group "m"%char r2) as [om r3'] eqn:M3. cbn [fst snd] in *. subst r3'.
  destruct (match_group_sound "s"%char r3) as (s & gs & r4 & Q4 & E4 & V4 & R4).
  destruct (match_group "s"%char r3) as [os r4'] eqn:M4. cbn [fst snd] in *. subst r4'.
  exists d, h, m, s, gd, gh, gm, gs, r4. split; [congruence|]. repeat (split; [assumption|]). split.
  - intros d' h' m' s' gd' gh' gm' gs' rest' E' D' H' M' S'. apply L. rewrite E'.
    apply (c_cons _ _ d' gd'); auto. apply (c_cons _ _ h' gh'); auto. apply (c_cons _ _ m' gm'); auto.
    apply (c_cons _ _ s' gs'); auto. constructor.
  - rewrite V1, V2, V3, V4. apply make_timedelta_spec.
Qed.

(** ** parse_iso *)
Definition body2 (value : str) : result (option datetime) :=
      let val_len := length value in
      let* s4 := char_in value 4 $"-:" in
      let* seps := (if negb s4 then Ok true
                    else let* s7 := char_in value 7 $"-:" in Ok (negb s7)) in
      if seps then Ok None
      else if (val_len =? 10)%nat then
        let* y := py_int (sub value 0 4) in let* m := py_int (sub value 5 7) in
        let* d := py_int (sub value 8 10) in
        let* t := make_datetime y m d 0 0 0 in Ok (Some t)
      else if (16 <=? val_len)%nat then
        let* s10 := char_in value 10 $"T " in
        let* ok := (if s10 then char_in value 13 $"-:" else Ok false) in
        if negb ok then Ok None
        else
          let* secs := (if (19 <=? val_len)%nat then char_in value 16 $"-:" else Ok false) in
          if secs then
            let* y := py_int (sub value 0 4) in let* m := py_int (sub value 5 7) in
            let* d := py_int (sub value 8 10) in let* hh := py_int (sub value 11 13) in
            let* mm := py_int (sub value 14 16) in let* ss := py_int (sub value 17 19) in
            let* t := make_datetime y m d hh mm ss in Ok (Some t)
          else if (val_len =? 16)%nat then
            let* y := py_int (sub value 0 4) in let* m := py_int (sub value 5 7) in
            let* d := py_int (sub value 8 10) in let* hh := py_int (sub value 11 13) in
            let* mm := py_int (sub value 14 16) in
            let* t := make_datetime y m d hh mm 0 in Ok (Some t)
          else Ok None
      else Ok None.
Definition dropZ (v : str) : str := match rev v with "Z"%char :: r => rev r | _ => v end.

Lemma py_index_last (v : str) x : py_index (v ++ [x]) (-1) = Ok x.
Proof.
  unfold py_index. rewrite app_length. cbn [length]. cbn [Z.ltb Z.compare]. cbv zeta.
  match goal with |- context [Z.to_nat ?e] => replace e with (Z.of_nat (length v)) by lia end.
  destruct (Z.ltb_spec (Z.of_nat (length v)) 0); [lia|]. rewrite Nat2Z.id.
  rewrite nth_error_app2, Nat.sub_diag by lia. reflexivity.
Qed.

Lemma rev_last (v : str) : v <> [] -> exists w x, v = w ++ [x].
Proof. intros H. destruct (exists_last H) as (w & x & ->). eauto. Qed.

Lemma body_eq v : (10 <= length v <= 33)%nat ->
  parse_iso_body v =
  (let v1 := dropZ v in
   let v2 := hd [] (split "+"%char v1) in
   if contains $"+" v1 && negb ((10 <=? length v2)%nat && (length v2 <=? 28)%nat) then Ok None
   else body2 v2).
Proof.
  intros [H1 H2]. unfold parse_iso_body.
  rewrite (proj2 (Nat.leb_le _ _) H1), (proj2 (Nat.leb_le _ _) H2). cbn [andb].
  destruct (rev_last v) as (w & x & ->); [destruct v; [cbn in H1; lia|discriminate]|].
  rewrite py_index_last. cbn [bind].
  assert (E1: (if Ascii.eqb x "Z"%char then slice_to (w ++ [x]) (-1) else w ++ [x]) = dropZ (w ++ [x])).
  { unfold dropZ. rewrite rev_app_distr. cbn [rev app]. destruct (Ascii.eqb_spec x "Z"%char) as [->|N].
    - rewrite rev_involutive. unfold slice_to, slice_bound. rewrite app_length. cbn [length].
      cbn [Z.ltb Z.compare]. cbv zeta. match goal with |- firstn ?k _ = _ => replace k with (length w) by lia end.
      rewrite firstn_app, firstn_all, Nat.sub_diag. cbn [firstn]. apply app_nil_r.
    - destruct x as [[] [] [] [] [] [] [] []]; try reflexivity. congruence. }
  rewrite E1. set (v1 := dropZ (w ++ [x])). cbv zeta.
  destruct (contains $"+" v1) eqn:E.
  - cbn [andb]. destruct (negb _); reflexivity.
  - cbn [andb]. assert (hd [] (split "+"%char v1) = v1).
    { rewrite split_single; auto. intros Hin. apply in_split in Hin. destruct Hin as (a & b & Hv).
      rewrite contains_false in E. apply (E a b). exact Hv. }
    rewrite H. reflexivity.
Qed.

Lemma py_int_digits s n : undec s = Some n -> py_int s = Ok (Z.of_N n).
Proof.
  intros H. destruct s as [|c s]; [discriminate|]. unfold undec in H.
  pose proof (undec_digits _ _ _ H) as Hd.
  assert (Hsp: forall c, is_digit c = true -> is_uspace c = false).
  { intros x. assert (G: forallb (fun x => negb (is_digit x) || negb (is_uspace x)) all_chars = true) by (vm_compute; reflexivity).
    pose proof (forall_chars _ G x) as Gx. cbn beta in Gx. destruct (is_digit x), (is_uspace x); auto; discriminate. }
  assert (Hu: forall s, (forall c, In c s -> is_digit c = true) -> ulstrip s = s).
  { intros [|x s'] Hx; auto. cbn [ulstrip]. rewrite (Hsp x) by (apply Hx; left; auto). reflexivity. }
  unfold py_int, ustrip. rewrite (Hu (c :: s)) by auto.
  rewrite (Hu (rev (c :: s))) by (intros x Hx; apply in_rev in Hx; auto). rewrite rev_involutive.
  transitivity (int_unsigned (c :: s)).
  { assert (Hc: is_digit c = true) by (apply Hd; left; auto). clear - Hc.
    destruct c as [[] [] [] [] [] [] [] []]; try reflexivity; discriminate Hc. }
  cbn [int_unsigned]. cbn [undec_acc] in H. destruct (digit_val c) as [d|] eqn:Ec; [|discriminate].
  assert (G: forall s a n, undec_acc a s = Some n -> int_digits (Z.of_N a) s = Ok (Z.of_N n)).
  { clear. induction s as [|x s IH]; intros a n H; cbn [undec_acc int_digits] in *; [congruence|].
    destruct (digit_val x); [|discriminate]. rewrite <- (IH _ _ H). f_equal. lia. }
  rewrite <- (G s (10 * 0 + d)%N n H). f_equal.
Qed.

Lemma dec_pad2 n : (n < 100)%N -> exists a b, dec_pad 2 n = [a; b] /\ is_digit a = true /\ is_digit b = true /\ py_int [a; b] = Ok (Z.of_N n).
Proof.
  intros H. pose proof (dec_pad_length 2 n ltac:(lia) ltac:(exact H)) as L.
  pose proof (py_int_digits _ _ (undec_dec_pad 2 n)) as P. pose proof (dec_pad_digits 2 n) as D.
  destruct (dec_pad 2 n) as [|a [|b [|c l]]]; try discriminate L. exists a, b. repeat split; auto; apply D; simpl; auto.
Qed.
Lemma dec_pad4 n : (n < 10000)%N -> exists a b c d, dec_pad 4 n = [a; b; c; d] /\ is_digit a = true /\ is_digit b = true
  /\ is_digit c = true /\ is_digit d = true /\ py_int [a; b; c; d] = Ok (Z.of_N n).
Proof.
  intros H. pose proof (dec_pad_length 4 n ltac:(lia) ltac:(exact H)) as L.
  pose proof (py_int_digits _ _ (undec_dec_pad 4 n)) as P. pose proof (dec_pad_digits 4 n) as D.
  destruct (dec_pad 4 n) as [|a [|b [|c [|d [|e l]]]]]; try discriminate L. exists a, b, c, d. repeat split; auto; apply D; simpl; auto 6.
Qed.

Lemma make_datetime_ok y m d hh mm ss : valid_date y m d -> y <= 9999 -> valid_time hh mm ss ->
  make_datetime y m d hh mm ss = Ok (of_fields y m d hh mm ss).
Proof.
  intros V H9 (A & B & C). apply valid_date_spec in V. destruct V as (D & E & F). unfold make_datetime.
  match goal with |- (if ?b then _ else _) = _ => replace b with true; [reflexivity|] end.
  symmetry. rewrite !andb_true_iff, !Z.leb_le. repeat split; lia.
Qed.

Lemma char_in_at v i x set : nth_error v i = Some x -> char_in v i set = Ok (mem Ascii.eqb x set).
Proof.
  intros H. unfold char_in, py_index. assert (i < length v)%nat by (apply nth_error_Some; congruence).
  destruct (Z.ltb_spec (Z.of_nat i) 0); [lia|]. cbv zeta.
  destruct (Z.ltb_spec (Z.of_nat i) 0); [lia|]. rewrite Nat2Z.id, H. reflexivity.
Qed.

Lemma digit_ne c x : is_digit c = true -> is_digit x = false -> c <> x.
Proof. intros H H' ->. congruence. Qed.

(** dropping the zone keeps the date and time *)
Lemma strip_core core last tail : (forall c, In c (core ++ [last]) -> c <> "+"%char) -> last <> "Z"%char ->
  exists tail', hd [] (split "+"%char (dropZ ((core ++ [last]) ++ tail))) = (core ++ [last]) ++ tail'
    /\ (tail = [] -> tail' = []) /\ (tail = $"Z" -> tail' = [])
    /\ (forall r, tail = "+"%char :: r -> tail' = [])
    /\ (forall a b, tail = a ++ b -> zone_text b -> ~ In "+"%char a -> (length tail' <= length a)%nat)
    /\ (contains $"+" (dropZ ((core ++ [last]) ++ tail)) = true -> In "+"%char tail).
Proof.
  intros Hc Hz. set (K := core ++ [last]).
  assert (Hnc: ~ In "+"%char K) by (intros X; exact (Hc _ X eq_refl)).
  assert (D: exists t1, dropZ (K ++ tail) = K ++ t1 /\ ((t1 = tail /\ forall w, tail <> w ++ $"Z") \/ tail = t1 ++ $"Z")).
  { destruct tail as [|t0 tail'] eqn:Et.
    - exists []. split; [|left; split; auto; intros w X; destruct w; discriminate X]. rewrite app_nil_r. unfold dropZ, K. rewrite rev_app_distr. cbn [rev app].
      destruct last as [[] [] [] [] [] [] [] []]; try reflexivity. congruence.
    - rewrite <- Et in *. destruct (rev_last tail) as (w & x & Ew); [rewrite Et; discriminate|].
      rewrite Ew. unfold dropZ. rewrite rev_app_distr, rev_app_distr. cbn [rev app].
      destruct (Ascii.eqb_spec x "Z"%char) as [->|N].
      + exists w. split; [|right; auto]. rewrite rev_app_distr, !rev_involutive. reflexivity.
      + exists (w ++ [x]). split; [|left; split; auto; intros w' X; apply app_single_inj in X; destruct X; congruence].
        destruct x as [[] [] [] [] [] [] [] []]; try reflexivity. congruence. }
  destruct D as (t1 & -> & Ht1).
  exists (hd [] (split "+"%char t1)).
  pose proof (split_nonempty "+"%char t1) as N. rewrite split_prefix by auto.
  destruct (split "+"%char t1) as [|w l] eqn:Es; [congruence|]. cbn [hd].
  assert (Hw: forall a b, t1 = a ++ b -> ~ In "+"%char a -> (b = [] \/ exists r, b = "+"%char :: r) -> w = a).
  { intros a b E Ha Hb. subst t1. destruct Hb as [->|(r & ->)].
    - rewrite app_nil_r, split_single in Es by auto. injection Es as <- _. reflexivity.
    - rewrite split_app_no_sep in Es by auto. injection Es as <- _. reflexivity. }
  assert (Hin: contains $"+" (K ++ t1) = true -> In "+"%char tail).
  { intros X. apply contains_iff in X. destruct X as (a & b & X).
    assert (In "+"%char (K ++ t1)) by (rewrite X; apply in_app_iff; right; left; auto).
    apply in_app_iff in H. destruct H as [H|H]; [contradiction|].
    destruct Ht1 as [[-> _]| ->]; auto. apply in_app_iff. auto. }
  split; [reflexivity|]. split; [|split; [|split; [|split]]]; auto.
  - intros ->. destruct Ht1 as [[-> _]|X]; [|destruct t1; discriminate X]. apply (Hw [] []); auto.
  - intros ->. destruct Ht1 as [[_ X]|X]; [exfalso; exact (X [] eq_refl)|].
    destruct t1 as [|c [|c' t1]]; try discriminate X. apply (Hw [] []); auto.
  - intros r ->. destruct Ht1 as [[-> _]|X].
    + apply (Hw [] ("+"%char :: r)); eauto.
    + destruct t1 as [|c t1]; [discriminate X|]. injection X as <- X.
      apply (Hw [] ("+"%char :: t1)); eauto.
  - intros a b Et Hb Ha. destruct Hb as [->|[->|(r & ->)]].
    + rewrite app_nil_r in Et. subst a. destruct Ht1 as [[-> _]|X].
      * rewrite (Hw tail []); auto. rewrite app_nil_r. auto.
      * rewrite (Hw t1 []); auto; [|rewrite app_nil_r; auto|].
        { rewrite X, app_length. lia. }
        intros Y. apply Ha. rewrite X. apply in_app_iff. auto.
    + destruct Ht1 as [[_ X]|X]; [exfalso; exact (X a Et)|].
      rewrite Et in X. apply app_inv_tail in X. subst t1. rewrite (Hw a []); auto. rewrite app_nil_r; auto.
    + destruct Ht1 as [[-> _]|X].
      * rewrite (Hw a ("+"%char :: r)); eauto.
      * rewrite Et in X.
        assert (Y: exists r', t1 = a ++ "+"%char :: r').
        { destruct r as [|r0 r1] eqn:Er.
          - exfalso. apply app_single_inj in X. destruct X; discriminate.
          - destruct (rev_last (r0 :: r1)) as (r' & z & Ez); [discriminate|]. rewrite Ez in X.
            exists r'. change ("+"%char :: r' ++ [z]) with (("+"%char :: r') ++ [z]) in X.
            rewrite app_assoc in X. apply app_single_inj in X. destruct X as [X _]. auto. }
        destruct Y as (r' & Y). rewrite (Hw a ("+"%char :: r')); eauto.
Qed.

Ltac digits_ne := let x := fresh in let H := fresh in
  intros x H; cbn [In] in H; repeat (destruct H as [<-|H]; [try (apply digit_ne; [assumption|reflexivity]); try discriminate|]); try destruct H.

Section IsoTexts.
  Variables (y m d hh mm ss : Z).
  Hypothesis Hd : valid_date y m d.
  Hypothesis H9 : y <= 9999.
  Hypothesis Ht : valid_time hh mm ss.

  Lemma Yb : (Z.to_N y < 10000)%N. Proof. apply valid_date_spec in Hd. destruct Hd. lia. Qed.
  Lemma Mb : (Z.to_N m < 100)%N. Proof. apply valid_date_spec in Hd. destruct Hd as (_ & ? & _). lia. Qed.
  Lemma Db : (Z.to_N d < 100)%N.
  Proof. apply valid_date_spec in Hd. destruct Hd as (_ & Hm & ?). pose proof (dim_bounds y m Hm). lia. Qed.
  Lemma Hb : (Z.to_N hh < 100)%N. Proof. destruct Ht. lia. Qed.
  Lemma Nb : (Z.to_N mm < 100)%N. Proof. destruct Ht as (_ & ? & _). lia. Qed.
  Lemma Sb : (Z.to_N ss < 100)%N. Proof. destruct Ht as (_ & _ & ?). lia. Qed.
  Lemma pos : 0 <= y /\ 0 <= m /\ 0 <= d /\ 0 <= hh /\ 0 <= mm /\ 0 <= ss.
  Proof. apply valid_date_spec in Hd. destruct Hd as (? & ? & ?). destruct Ht as (? & ? & ?). lia. Qed.

  Ltac open_digits :=
    pose proof pos as (P1 & P2 & P3 & P4 & P5 & P6);
    destruct (dec_pad4 _ Yb) as (y1 & y2 & y3 & y4 & Ey & ? & ? & ? & ? & Iy);
    destruct (dec_pad2 _ Mb) as (m1 & m2 & Em & ? & ? & Im);
    destruct (dec_pad2 _ Db) as (d1 & d2 & Ed & ? & ? & Id);
    destruct (dec_pad2 _ Hb) as (h1 & h2 & Eh & ? & ? & Ih);
    destruct (dec_pad2 _ Nb) as (n1 & n2 & En & ? & ? & In');
    destruct (dec_pad2 _ Sb) as (s1 & s2 & Es & ? & ? & Is);
    rewrite Z2N.id in Iy, Im, Id, Ih, In', Is by assumption.

  Lemma parse_date_text : parse_iso (iso_date y m d) = Ok (Some (of_fields y m d 0 0 0)).
  Proof.
    open_digits. unfold iso_date. rewrite Ey, Em, Ed. cbn [app list_ascii_of_string].
    unfold parse_iso. rewrite body_eq by (cbn [length]; lia).
    pose proof (strip_core [y1;y2;y3;y4;"-"%char;m1;m2;"-"%char;d1] d2 []) as S. cbn [app] in S.
    destruct S as (t & Et & T1 & _ & _ & _ & Tp); [digits_ne|apply digit_ne; auto|].
    rewrite (T1 eq_refl) in Et. cbv zeta. rewrite Et.
    destruct (contains _ _); [destruct (Tp eq_refl)|]. cbn [andb].
    unfold body2. cbn [length]. rewrite !(char_in_at _ _ "-"%char) by reflexivity. cbn [bind].
    replace (mem Ascii.eqb "-"%char $"-:") with true by reflexivity. cbn [negb Nat.eqb].
    unfold sub. cbn [firstn skipn Nat.sub]. rewrite Iy. cbn [bind]. rewrite Im. cbn [bind]. rewrite Id. cbn [bind].
    rewrite make_datetime_ok; auto. unfold valid_time. lia.
  Qed.

  Lemma parse_minutes_text sep zone : In sep $"T " -> zone_text zone -> (length zone <= 17)%nat ->
    parse_iso (iso_minutes sep y m d hh mm ++ zone) = Ok (Some (of_fields y m d hh mm 0)).
  Proof.
    intros Hsep Hz Hl. open_digits. unfold iso_minutes, iso_date. rewrite Ey, Em, Ed, Eh, En. cbn [app list_ascii_of_string].
    unfold parse_iso.
    assert (Sp: sep <> "+"%char) by (cbn in Hsep; intuition congruence).
    rewrite body_eq by (cbn [length]; lia).
    pose proof (strip_core [y1;y2;y3;y4;"-"%char;m1;m2;"-"%char;d1;d2;sep;h1;h2;":"%char;n1] n2 zone) as S. cbn [app] in S.
    destruct S as (t & Et & T1 & T2 & T3 & _ & Tp); [digits_ne; congruence|apply digit_ne; auto|].
    assert (t = []) by (destruct Hz as [->|[->|(r & ->)]]; eauto). subst t.
    cbv zeta. rewrite Et. cbn [length Nat.leb andb negb]. rewrite andb_false_r.
    unfold body2. cbn [length]. rewrite !(char_in_at _ 4 "-"%char), !(char_in_at _ 7 "-"%char) by reflexivity. cbn [bind].
    replace (mem Ascii.eqb "-"%char $"-:") with true by reflexivity. cbn [negb Nat.eqb Nat.leb bind].
    rewrite (char_in_at _ 10 sep) by reflexivity. cbn [bind].
    replace (mem Ascii.eqb sep $"T ") with true by (symmetry; apply (mem_In Ascii.eqb ascii_eqb_iff); auto).
    rewrite (char_in_at _ 13 ":"%char) by reflexivity. cbn [bind].
    replace (mem Ascii.eqb ":"%char $"-:") with true by reflexivity. cbn [negb].
    unfold sub. cbn [firstn skipn Nat.sub]. rewrite Iy. cbn [bind]. rewrite Im. cbn [bind]. rewrite Id. cbn [bind].
    rewrite Ih. cbn [bind]. rewrite In'. cbn [bind].
    rewrite make_datetime_ok; auto. unfold valid_time in *. lia.
  Qed.

  Lemma parse_seconds_text sep frac zone : In sep $"T " -> ~ In "+"%char frac -> zone_text zone ->
    (length frac <= 9)%nat -> (length (frac ++ zone) <= 14)%nat ->
    parse_iso (iso_seconds sep y m d hh mm ss ++ frac ++ zone) = Ok (Some (of_fields y m d hh mm ss)).
  Proof.
    intros Hsep Hf Hz Hl1 Hl2. open_digits. unfold iso_seconds, iso_minutes, iso_date. rewrite Ey, Em, Ed, Eh, En, Es.
    cbn [app list_ascii_of_string]. unfold parse_iso.
    assert (Sp: sep <> "+"%char) by (cbn in Hsep; intuition congruence).
    rewrite body_eq by (cbn [length]; lia).
    pose proof (strip_core [y1;y2;y3;y4;"-"%char;m1;m2;"-"%char;d1;d2;sep;h1;h2;":"%char;n1;n2;":"%char;s1] s2 (frac ++ zone)) as S.
    cbn [app] in S.
    destruct S as (t & Et & T1 & T2 & T3 & T4 & Tp); [digits_ne; congruence|apply digit_ne; auto|].
    specialize (T4 frac zone eq_refl Hz Hf).
    cbv zeta. rewrite Et. cbn [length Nat.leb andb negb].
    match goal with |- context [Nat.leb ?a ?b] => rewrite (proj2 (Nat.leb_le a b)) by lia end. cbn [negb]. rewrite andb_false_r.
    unfold body2. cbn [length]. rewrite !(char_in_at _ 4 "-"%char), !(char_in_at _ 7 "-"%char) by reflexivity. cbn [bind].
    replace (mem Ascii.eqb "-"%char $"-:") with true by reflexivity. cbn [negb Nat.eqb Nat.leb bind].
    rewrite (char_in_at _ 10 sep) by reflexivity. cbn [bind].
    replace (mem Ascii.eqb sep $"T ") with true by (symmetry; apply (mem_In Ascii.eqb ascii_eqb_iff); auto).
    rewrite (char_in_at _ 13 ":"%char), (char_in_at _ 16 ":"%char) by reflexivity. cbn [bind].
    replace (mem Ascii.eqb ":"%char $"-:") with true by reflexivity. cbn [negb].
    unfold sub. cbn [firstn skipn Nat.sub]. rewrite Iy. cbn [bind]. rewrite Im. cbn [bind]. rewrite Id. cbn [bind].
    rewrite Ih. cbn [bind]. rewrite In'. cbn [bind]. rewrite Is. cbn [bind].
    rewrite make_datetime_ok; auto.
  Qed.
End IsoTexts.

(** *** it never raises *)
Definition only_value {A} (r : result A) : Prop := match r with Ok _ => True | Raise e => e = ValueError end.
Lemma only_value_bind {A B} (r : result A) (f : A -> result B) :
  only_value r -> (forall a, only_value (f a)) -> only_value (bind r f).
Proof. destruct r; cbn; auto. Qed.
Lemma int_digits_ov s : forall a, only_value (int_digits a s).
Proof.
  induction s as [s IH] using (well_founded_induction (well_founded_ltof _ (@length ascii))). intros a.
  destruct s as [|c s]; cbn [int_digits]; [exact I|].
  destruct (digit_val c); [apply IH; unfold ltof; cbn; lia|].
  destruct (Ascii.eqb c "_"%char); [|reflexivity]. destruct s as [|c' s]; [reflexivity|].
  destruct (digit_val c'); [apply IH; unfold ltof; cbn; lia|reflexivity].
Qed.
Lemma int_unsigned_ov s : only_value (int_unsigned s).
Proof. destruct s as [|c s]; cbn; auto. destruct (digit_val c); [apply int_digits_ov|reflexivity]. Qed.
Lemma py_int_ov s : only_value (py_int s).
Proof.
  unfold py_int. destruct (ustrip s) as [|c s']; [reflexivity|].
  assert (N: only_value (let* z := int_unsigned s' in Ok (- z))) by (apply only_value_bind; [apply int_unsigned_ov|exact (fun _ => I)]).
  pose proof (int_unsigned_ov s'). pose proof (int_unsigned_ov (c :: s')).
  destruct c as [[] [] [] [] [] [] [] []]; assumption.
Qed.
Lemma make_datetime_ov y m d hh mm ss : only_value (make_datetime y m d hh mm ss).
Proof. unfold make_datetime. destruct (_ && _); cbn; auto. Qed.
Lemma char_in_ov v i set : (i < length v)%nat -> only_value (char_in v i set).
Proof.
  intros H. destruct (nth_error v i) as [x|] eqn:E; [|apply nth_error_None in E; lia].
  rewrite (char_in_at _ _ _ _ E). exact I.
Qed.

Lemma body2_ov v : (9 <= length v)%nat -> only_value (body2 v).
Proof.
  intros H. unfold body2.
  apply only_value_bind; [apply char_in_ov; lia|]. intros s4. apply only_value_bind.
  { destruct (negb s4); [exact I|]. apply only_value_bind; [apply char_in_ov; lia|exact (fun _ => I)]. }
  intros seps. destruct seps; [exact I|].
  destruct (length v =? 10)%nat.
  { repeat (apply only_value_bind; [first [apply py_int_ov|apply make_datetime_ov]|intros ?]). exact I. }
  destruct (Nat.leb_spec 16 (length v)); [|exact I].
  apply only_value_bind; [apply char_in_ov; lia|]. intros s10. apply only_value_bind.
  { destruct s10; [apply char_in_ov; lia|exact I]. }
  intros ok. destruct (negb ok); [exact I|].
  apply only_value_bind.
  { destruct (Nat.leb_spec 19 (length v)); [apply char_in_ov; lia|exact I]. }
  intros secs. destruct secs.
  { repeat (apply only_value_bind; [first [apply py_int_ov|apply make_datetime_ov]|intros ?]). exact I. }
  destruct (length v =? 16)%nat; [|exact I].
  repeat (apply only_value_bind; [first [apply py_int_ov|apply make_datetime_ov]|intros ?]). exact I.
Qed.

Theorem parse_iso_never_raises v : exists o, parse_iso v = Ok o.
Proof.
  assert (G: only_value (parse_iso_body v)).
  { destruct (Nat.leb_spec 10 (length v)); [destruct (Nat.leb_spec (length v) 33)|].
    - rewrite body_eq by lia. cbv zeta.
      destruct (contains $"+" (dropZ v)) eqn:E; cbn [andb].
      + destruct (Nat.leb_spec 10 (length (hd [] (split "+"%char (dropZ v))))); cbn [andb negb]; [|exact I].
        destruct (_ <=? 28)%nat; [|exact I]. apply body2_ov. lia.
      + rewrite split_single.
        * apply body2_ov. cbn [hd]. unfold dropZ. destruct (rev v) as [|c r] eqn:Er; [lia|].
          assert (length r = length v - 1)%nat by (rewrite <- (rev_length v), Er; cbn; lia).
          assert (length (rev r) = length v - 1)%nat by (rewrite rev_length; auto).
          destruct c as [[] [] [] [] [] [] [] []]; lia.
        * intros X. apply in_split in X. destruct X as (a & b & X). rewrite contains_false in E. apply (E a b). exact X.
    - unfold parse_iso_body. rewrite (proj2 (Nat.leb_gt (length v) 33)) by auto. rewrite andb_false_r. exact I.
    - unfold parse_iso_body. rewrite (proj2 (Nat.leb_gt 10 (length v))) by auto. exact I. }
  unfold parse_iso. destruct (parse_iso_body v) as [o|e]; cbn in *; [eauto|]. subst e. cbn. eauto.
Qed.

Lemma iso_date_ok y m d : valid_date y m d -> y <= 9999 ->
  parse_iso (iso_date y m d) = Ok (Some (of_fields y m d 0 0 0)).
Proof. intros H1 H2. apply (parse_date_text y m d 0 0 0); auto. unfold valid_time; lia. Qed.
Lemma iso_minutes_ok y m d hh mm sep zone : valid_date y m d -> y <= 9999 -> valid_time hh mm 0 ->
  In sep $"T " -> zone_text zone -> (length zone <= 17)%nat ->
  parse_iso (iso_minutes sep y m d hh mm ++ zone) = Ok (Some (of_fields y m d hh mm 0)).
Proof. intros. eapply parse_minutes_text; eauto. Qed.
Lemma iso_seconds_ok y m d hh mm ss sep frac zone : valid_date y m d -> y <= 9999 -> valid_time hh mm ss ->
  In sep $"T " -> ~ In "+"%char frac -> zone_text zone ->
  (length frac <= 9)%nat -> (length (frac ++ zone) <= 14)%nat ->
  parse_iso (iso_seconds sep y m d hh mm ss ++ frac ++ zone) = Ok (Some (of_fields y m d hh mm ss)).
Proof. intros. apply parse_seconds_text; auto. Qed.
Lemma blank_not_iso y m d : valid_date y m d -> y <= 9999 -> $"2020- 1- 1" <> iso_date y m d.
Proof.
  intros V H9 E.
  destruct (dec_pad4 _ (Yb y m d V H9)) as (y1 & y2 & y3 & y4 & Ey & _).
  destruct (dec_pad2 _ (Mb y m d V)) as (m1 & m2 & Em & D & _).
  unfold iso_date in E. rewrite Ey, Em in E. cbn in E. injection E as _ _ _ _ E _. subst m1. discriminate D.
Qed.
