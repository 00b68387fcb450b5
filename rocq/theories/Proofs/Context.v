(** Contexts, names of fields and drawings. *)
From Verif.Base Require Import Py PyFacts Value ValueFacts.
From Verif.Model Require Import Context.

Lemma dupdate_get (d e : record) k : NoDup (dkeys e) ->
  dget str_eqb k (dupdate str_eqb d e) = match dget str_eqb k e with Some v => Some v | None => dget str_eqb k d end.
Proof.
  unfold dupdate. revert d. induction e as [|[k' v] e IH]; intros d N; [reflexivity|]. cbn [fold_left fst snd dget].
  inversion N as [|? ? N1 N2]; subst. rewrite IH by exact N2. destruct (str_eqb k k') eqn:E.
  - apply str_eqb_eq in E. subst. assert (H : dget str_eqb k' e = None) by (apply (dget_None str_eqb str_keqb); exact N1).
    rewrite H. apply dget_dset_same, str_keqb.
  - destruct (dget str_eqb k e); [reflexivity|]. apply dget_dset_other; [apply str_keqb|]. intros ->. rewrite str_eqb_refl in E. discriminate.
Qed.

Section Build.
  Context (glob : str -> list str) (open_read : str -> result str) (loads : str -> result value).
  Notation build := (build_context glob open_read loads).
  Notation file_of kwargs := (match dget str_eqb $"config_file" kwargs with Some (VStr f) => f | _ => $"config.json" end).
  Lemma build_merges kwargs files file text config :
    (forall v, dget str_eqb $"config_file" kwargs = Some v -> exists f, v = VStr f) ->
    glob ($"**/" ++ file_of kwargs) = files ++ [file] -> open_read file = Ok text -> loads text = Ok (VDict config) ->
    NoDup (dkeys kwargs) ->
    exists context, build kwargs = Ok context /\
      forall k, dget str_eqb k context =
        match dget str_eqb k kwargs with
        | Some v => Some v
        | None => if str_eqb k $"config" && negb (truthy (rget $"config" config)) then Some (VDict []) else dget str_eqb k config
        end.
  Proof.
    intros HF G O L N. unfold build_context.
    assert (E : (match dget str_eqb $"config_file" kwargs with None => Ok $"config.json" | Some (VStr f) => Ok f | Some _ => Raise TypeError end)
                = Ok (file_of kwargs)).
    { destruct (dget str_eqb $"config_file" kwargs) as [v|] eqn:E; [|reflexivity]. destruct (HF v eq_refl) as (f & ->). reflexivity. }
    rewrite E. cbn [bind]. unfold read_config. rewrite G, rev_unit, O. cbn [bind]. rewrite L. cbn [bind].
    eexists. split; [reflexivity|]. intros k. rewrite dupdate_get by exact N. destruct (dget str_eqb k kwargs); [reflexivity|].
    destruct (truthy (rget $"config" config)); cbn [negb]; [now rewrite andb_false_r|]. rewrite andb_true_r.
    destruct (str_eqb k $"config") eqn:Ek.
    - apply str_eqb_eq in Ek. subst. apply dget_dset_same, str_keqb.
    - apply dget_dset_other; [apply str_keqb|]. intros ->. rewrite str_eqb_refl in Ek. discriminate.
  Qed.
  Lemma build_missing kwargs f : dget str_eqb $"config_file" kwargs = Some (VStr f) -> glob ($"**/" ++ f) = [] -> build kwargs = Raise IndexError.
  Proof. intros H G. unfold build_context, read_config. rewrite H. cbn [bind]. rewrite G. reflexivity. Qed.
  Lemma build_not_json kwargs f files file text : dget str_eqb $"config_file" kwargs = Some (VStr f) -> glob ($"**/" ++ f) = files ++ [file] ->
    open_read file = Ok text -> loads text = Raise ValueError -> build kwargs = Raise ValueError.
  Proof. intros H G O L. unfold build_context, read_config. rewrite H. cbn [bind]. rewrite G, rev_unit, O. cbn [bind]. now rewrite L. Qed.
  Lemma build_not_dict kwargs f files file text v : dget str_eqb $"config_file" kwargs = Some (VStr f) -> glob ($"**/" ++ f) = files ++ [file] ->
    open_read file = Ok text -> loads text = Ok v -> (forall d, v <> VDict d) -> build kwargs = Raise AttributeError.
  Proof.
    intros H G O L D. unfold build_context, read_config. rewrite H. cbn [bind]. rewrite G, rev_unit, O. cbn [bind]. rewrite L. cbn [bind].
    destruct v; try reflexivity. now destruct (D d).
  Qed.
End Build.

Lemma safe_filter s : safe_field_name s = filter name_character s.
Proof.
  assert (G : forall n s, length s <= n -> safe_field_name s = filter name_character s /\
    (fix skip (s : str) : str := match s with [] => [] | c :: s' => if name_character c then c :: safe_field_name s' else skip s' end) s = filter name_character s).
  { induction n as [|n IH]; intros [|c s0] L; cbn in L; try lia; [split; reflexivity..|].
    destruct (IH s0) as [I1 I2]; [lia|]. cbn [safe_field_name filter]. destruct (name_character c); [rewrite I1; auto|]. split; exact I2. }
  apply (G (length s)). reflexivity.
Qed.
Lemma safe_chars s c : In c (safe_field_name s) -> name_character c = true.
Proof. rewrite safe_filter. now intros H%filter_In. Qed.

(** ** drawings *)
Lemma fold_max_ge l : forall a, a <= fold_left Nat.max l a /\ forall x, In x l -> x <= fold_left Nat.max l a.
Proof.
  induction l as [|b l IH]; intros a; [split; [reflexivity|intros x []]|]. cbn [fold_left]. destruct (IH (Nat.max a b)) as [H1 H2].
  split; [lia|]. intros x [<-|H]; [lia|auto].
Qed.
Lemma fold_max_in l : forall a, In (fold_left Nat.max l a) (a :: l).
Proof.
  induction l as [|b l IH]; intros a; [left; reflexivity|]. cbn [fold_left]. destruct (IH (Nat.max a b)) as [H|H].
  - rewrite <- H. destruct (Nat.max_spec a b) as [[_ ->]|[_ ->]]; [right; left|left]; reflexivity.
  - right. right. exact H.
Qed.
Lemma draw_exact bins mx : In mx bins -> (forall b, In b bins -> b <= mx) -> 0 < mx ->
  draw bins = Ok (map (fun b => 8 * b / mx) bins).
Proof.
  intros I H L. destruct bins as [|b bs]; [destruct I|]. unfold draw.
  assert (E : fold_left Nat.max bs b = mx).
  { destruct (fold_max_ge bs b) as [H1 H2]. pose proof (H _ (fold_max_in bs b)). destruct I as [<-|I]; [lia|]. specialize (H2 _ I). lia. }
  rewrite E. destruct (Nat.eqb_spec mx 0) as [->|_]; [lia|]. clear E.
  assert (G : forall l, (forall b, In b l -> b <= mx) -> mapM (fun value => if value =? 0 then Ok 0
      else match nth_error BAR_CHARS (8 * value / mx) with Some c => Ok c | None => Raise IndexError end) l = Ok (map (fun b => 8 * b / mx) l)).
  { induction l as [|x l IH]; intros Hl; [reflexivity|]. cbn [mapM map]. specialize (IH (fun b Hb => Hl b (or_intror Hb))).
    pose proof (Hl x (or_introl eq_refl)) as Hx. destruct (Nat.eqb_spec x 0) as [->|Nx].
    - rewrite Nat.mul_0_r, Nat.div_0_l by lia. cbn [bind]. now rewrite IH.
    - assert (Q : 8 * x / mx <= 8). { apply Nat.div_le_upper_bound; lia. }
      assert (B : nth_error BAR_CHARS (8 * x / mx) = Some (8 * x / mx)).
      { revert Q. generalize (8 * x / mx). intros q Q. do 9 (destruct q as [|q]; [reflexivity|]). lia. }
      rewrite B. cbn [bind]. now rewrite IH. }
  apply G. exact H.
Qed.
Lemma draw_height b mx h : 0 < mx -> (8 * b / mx = h <-> h * mx <= 8 * b /\ 8 * b < S h * mx).
Proof.
  intros L. split.
  - intros <-. pose proof (Nat.div_mod (8 * b) mx ltac:(lia)) as D. pose proof (Nat.mod_upper_bound (8 * b) mx ltac:(lia)).
    split; nia.
  - intros [H1 H2]. symmetry. apply (Nat.div_unique _ _ _ (8 * b - h * mx)); nia.
Qed.
Lemma draw_shown bins mx : In mx bins -> (forall b, In b bins -> b <= mx) -> 0 < mx ->
  exists heights, draw bins = Ok heights /\ Forall2 (fun b h => h * mx <= 8 * b /\ 8 * b < S h * mx) bins heights.
Proof.
  intros I H L. exists (map (fun b => 8 * b / mx) bins). split; [exact (draw_exact bins mx I H L)|]. clear I H. induction bins as [|b bs IH]; constructor; auto.
  now apply (draw_height b mx).
Qed.
Lemma draw_nothing bins : bins <> [] -> (forall b, In b bins -> b = 0) -> draw bins = Ok (repeat 0 (length bins)).
Proof.
  intros N H. destruct bins as [|b bs]; [congruence|]. unfold draw. rewrite (H _ (fold_max_in bs b)). reflexivity.
Qed.

(** ** As stated *)
Lemma build_stated (glob : str -> list str) (open_read : str -> result str) (loads : str -> result value)
         (arguments config : record) (files : list str) (name file text : str) :
    NoDup (map fst arguments) ->
    (dget str_eqb $"config_file" arguments = Some (VStr name) \/
     dget str_eqb $"config_file" arguments = None /\ name = $"config.json") ->
    glob ($"**/" ++ name) = files ++ [file] -> open_read file = Ok text -> loads text = Ok (VDict config) ->
    exists context, build_context glob open_read loads arguments = Ok context /\
      (forall k v, dget str_eqb k arguments = Some v -> dget str_eqb k context = Some v) /\
      (forall k, dget str_eqb k arguments = None -> k <> $"config" -> dget str_eqb k context = dget str_eqb k config) /\
      (dget str_eqb $"config" arguments = None ->
         (forall v, dget str_eqb $"config" config = Some v -> truthy v = true -> dget str_eqb $"config" context = Some v) /\
         (forall v, dget str_eqb $"config" config = Some v -> truthy v = false -> dget str_eqb $"config" context = Some (VDict [])) /\
         (dget str_eqb $"config" config = None -> dget str_eqb $"config" context = Some (VDict []))).
Proof.
  intros N HF G O L.
  destruct (build_merges glob open_read loads arguments files file text config) as (context & E & C); auto.
  - intros v Hv. destruct HF as [HF|[HF _]]; rewrite HF in Hv; [injection Hv as <-; eauto|discriminate].
  - destruct HF as [HF|[HF ->]]; rewrite HF; exact G.
  - exists context. split; [exact E|]. split; [intros k v Hk; rewrite C, Hk; reflexivity|]. split.
    + intros k Hk Nk. rewrite C, Hk. destruct (str_eqb k $"config") eqn:Ek; [|reflexivity]. apply str_eqb_eq in Ek. congruence.
    + intros Hk. pose proof (C $"config") as C'. rewrite Hk in C'. unfold rget in C'. rewrite C'. clear C C'.
      split; [|split]; intros.
      * rewrite H, H0. reflexivity.
      * rewrite H, H0. reflexivity.
      * rewrite H. reflexivity.
Qed.
Lemma safe_stated name :
  safe_field_name name = filter (fun c => existsb (Ascii.eqb c) ($"abcdefghijklmnopqrstuvwxyzABCDEFGHIJKLMNOPQRSTUVWXYZ0123456789_-")) name.
Proof.
  rewrite safe_filter. apply filter_ext. intros [[] [] [] [] [] [] [] []]; vm_compute; reflexivity.
Qed.
Lemma safe_again name : safe_field_name (safe_field_name name) = safe_field_name name.
Proof. rewrite !safe_filter. apply filter_all. intros c Hc. now apply filter_In in Hc. Qed.
