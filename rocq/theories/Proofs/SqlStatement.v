(** Proofs: whole SQL statements. *)
From Coq Require Import Lia.
From Verif.Base Require Import Py Value PyFacts.
From Verif.Model Require Import Dates Tokens Splitter Evaluator Sql.
From Verif.Spec Require Import Tokens Evaluator Sql.
From Verif.Proofs Require Import Tokens Labels Splitter Sql SqlParse SqlText.
From Verif.Proofs Require Evaluator Functions.

Inductive applied_all : statement -> list part -> statement -> Prop :=
| applied_none st : applied_all st [] st
| applied_more st p st1 ps st2 : applied st p st1 -> applied_all st1 ps st2 -> applied_all st (p :: ps) st2.

Definition or_else {A} (a b : option A) : option A := match a with Some x => Some x | None => b end.
Definition source_matches (f : option (str + str)) (a : option source) : Prop :=
  match f with
  | Some (inl d) => a = Some (Name (dots_to_slashes d))
  | Some (inr q) => exists ts, concat ts = q /\ a = Some (Query ts)
  | None => True
  end.

Lemma applied_attributes st cs st' : applied_all st cs st' ->
  select_expression st' = or_else (last_of select_of cs) (select_expression st) /\
  where_expression st' = or_else (last_of where_of cs) (where_expression st) /\
  group_by st' = or_else (last_of group_of cs) (group_by st) /\
  having st' = or_else (last_of having_of cs) (having st) /\
  order_by st' = or_else (last_of order_of cs) (order_by st) /\
  limit st' = or_else (last_of limit_of cs) (limit st) /\
  distinct_rows st' = distinct_rows st || existsb asks_distinct cs /\
  order_descending st' = match last_of descending_of cs with Some b => b | None => order_descending st end /\
  source_matches (last_of from_of cs) (from st') /\ (last_of from_of cs = None -> from st' = from st).
Proof.
  induction 1 as [st|st p st1 cs st2 A _ IH].
  - cbn. rewrite orb_false_r. repeat split; auto.
  - destruct IH as (I1 & I2 & I3 & I4 & I5 & I6 & I7 & I8 & I9 & I10).
    cbn [last_of existsb].
    destruct p; cbn [applied] in A; try subst st1;
      try (destruct A as (ts & Ets & ->));
      cbn [set_select set_from set_where set_group set_having set_order set_limit select_expression where_expression group_by having
           order_by limit distinct_rows order_descending from select_of where_of group_of having_of order_of limit_of descending_of
           from_of asks_distinct orb] in *;
      repeat split;
      try (rewrite ?I1, ?I2, ?I3, ?I4, ?I5, ?I6, ?I7, ?I8;
           repeat match goal with |- context [last_of ?f cs] => destruct (last_of f cs) end;
           rewrite ?orb_false_r, ?orb_assoc; cbn; try match goal with d : option bool |- _ => destruct d end; reflexivity).
    all: try (destruct (last_of from_of cs) as [[|]|]; cbn in *; auto; try discriminate).
    rewrite I10 by reflexivity. eauto.
Qed.

Lemma full_shorter l : (forall t : str, In t l -> t <> []) -> length l <= length (concat l).
Proof.
  induction l as [|t l IH]; intros H; [cbn; lia|]. cbn [length concat]. rewrite app_length.
  pose proof (IH (fun u Hu => H u (or_intror Hu))). assert (1 <= length t) by (destruct t; [destruct (H [] (or_introl eq_refl)); auto|cbn; lia]). lia.
Qed.

Section Statement.
  Context (float_of date_of : str -> option value) (HF : reads_floats float_of).

  Lemma written_starts ps s : written_parts ps s -> exists k r, s = k ++ r /\ is_part k = true /\ nonword_start r.
  Proof.
    assert (P : forall p s rest, written_part p s -> (rest = [] \/ ends_apart s) -> exists k r, s ++ rest = k ++ r /\ is_part k = true /\ nonword_start r).
    { intros p u rest W Hr.
      assert (B : forall k b w, upper k = w -> str_mem w SQL_PARTS = true -> body b -> u = k ++ b ->
        exists k r, u ++ rest = k ++ r /\ is_part k = true /\ nonword_start r).
      { intros k b w Hk Hm [Hb _] ->. assert (Q : is_part k = true) by (eapply is_part_upper; eauto).
        exists k, (b ++ rest). split; [now rewrite app_assoc|]. split; auto. destruct b as [|c b]; [|apply starts_nonword; auto; discriminate].
        destruct Hr as [->|He]; [exact I|]. rewrite app_nil_r in He. destruct (part_end k Q He). }
      destruct W; try (eapply B; [eassumption|reflexivity|eassumption|reflexivity]).
      - exists k, (a ++ d ++ b ++ rest). split; [now rewrite <- !app_assoc|]. split; [eapply is_part_upper; eauto; reflexivity|]. now apply blank_starts.
      - exists k, (a ++ $"(" ++ q ++ $")" ++ b ++ rest). split; [now rewrite <- !app_assoc|]. split; [eapply is_part_upper; eauto; reflexivity|].
        destruct a as [|c a]; [reflexivity|]. apply blank_starts; auto. discriminate.
      - exists k, (b ++ d ++ b' ++ rest). split; [now rewrite <- !app_assoc|]. split; [eapply is_part_upper; eauto; reflexivity|].
        apply starts_nonword; auto. apply H0. }
    intros [p u W|p u ps' u' W He _ _].
    - destruct (P p u [] W (or_introl eq_refl)) as (k & r & E & H). rewrite app_nil_r in E. eauto.
    - exact (P p u u' W (or_intror He)).
  Qed.

  Lemma parts_tokens ps s : written_parts ps s -> forall prev, not_word_at_end prev = true ->
    let ts := ne (scut 0 prev [] s) in concat ts = s /\ next ts /\
    forall st, exists st' n, applied_all st ps st' /\ n <= length ts /\
      forall f, clauses float_of date_of (n + f) st ts = Ok st'.
  Proof.
    induction 1 as [p s W|p s ps s' W He Ho Ws IH]; intros prev Hp ts.
    - destruct (part_tokens float_of date_of HF p s W prev [] Hp (or_introl eq_refl)) as (us & E & Ec & Hn & _ & D).
      rewrite app_nil_r in E. change (ne (scut 0 (last_or prev s) [] [])) with (@nil str) in E. rewrite app_nil_r in E. subst ts. rewrite E.
      split; auto. split; auto. intros st. destruct (D [] st I (fun _ => eq_refl)) as (st' & n & A & L & F).
      exists st', n. split; [econstructor; eauto; constructor|]. split; auto. intros f. specialize (F f). rewrite app_nil_r in F. rewrite F.
      now destruct f.
    - assert (Fo : follows s s') by (right; split; auto; now apply written_starts in Ws).
      destruct (part_tokens float_of date_of HF p s W prev s' Hp Fo) as (us & E & Ec & Hn & Hne & D).
      assert (Hs : s <> []) by (intros ->; destruct us as [|u us]; [auto|]; cbn in Hn; destruct u; [discriminate Hn|discriminate Ec]).
      pose proof (last_not_word prev s He Hs) as L. destruct (IH _ L) as (Ic & In_ & Is). subst ts. rewrite E.
      set (R := ne (scut 0 (last_or prev s) [] s')) in *.
      split; [rewrite concat_app; congruence|]. split; [destruct us; [congruence|exact Hn]|].
      intros st. destruct (D R st In_ ltac:(intros (c & ->); destruct (Ho c eq_refl))) as (st1 & n & A & Ln & F).
      destruct (Is st1) as (st2 & m & A2 & Lm & F2). exists st2, (n + m). split; [econstructor; eauto|].
      split; [rewrite app_length; lia|]. intros f. rewrite <- Nat.add_assoc, F. apply F2.
  Qed.

  Lemma statement_parts ps ws cs : good_pieces ps -> spread ws (text_of (without_comments ps)) -> written_parts cs (join $" " ws) ->
    last_of select_of cs <> None ->
    match last_of from_of cs with Some (inl d) => safe_name (dots_to_slashes d) | Some (inr _) => True | None => False end ->
    exists st, (forall fuel, length (text_of ps) <= fuel -> parse_statement float_of date_of fuel (text_of ps) = Ok st) /\
      select_expression st = last_of select_of cs /\ distinct_rows st = existsb asks_distinct cs /\
      where_expression st = last_of where_of cs /\ group_by st = last_of group_of cs /\ having st = last_of having_of cs /\
      order_by st = last_of order_of cs /\ order_descending st = match last_of descending_of cs with Some b => b | None => false end /\
      limit st = last_of limit_of cs /\
      match last_of from_of cs with
      | Some (inl d) => from st = Some (Name (dots_to_slashes d))
      | Some (inr q) => exists ts, concat ts = q /\ from st = Some (Query ts)
      | None => False
      end.
  Proof.
    intros Hg Hs Hw Hsel Hfrom. destruct (parts_tokens cs _ Hw None eq_refl) as (Ec & _ & T).
    destruct (T empty_statement) as (st & n & A & Ln & F).
    apply applied_attributes in A as (I1 & I2 & I3 & I4 & I5 & I6 & I7 & I8 & I9 & I10). cbn in I1, I2, I3, I4, I5, I6, I7, I8, I10.
    assert (OE : forall (a : option str), or_else a None = a) by (intros [|]; reflexivity).
    rewrite !OE in *. exists st. repeat split; auto.
    - intros fuel Hfuel. unfold parse_statement, sql_parts. rewrite (remove_comments_of ps Hg), (clean_spread ws _ Hs).
      assert (Lt : n <= fuel).
      { pose proof (spread_shorter ws _ Hs). pose proof (without_shorter ps). rewrite <- Ec in H.
        assert (length (ne (scut 0 None [] (join $" " ws))) <= length (concat (ne (scut 0 None [] (join $" " ws))))).
        { apply full_shorter. intros t Ht. apply filter_In in Ht as [_ Ht]. intros ->. discriminate Ht. }
        lia. }
      replace fuel with (n + (fuel - n)) by lia. rewrite F. cbn [bind].
      destruct (last_of from_of cs) as [[d|q]|]; [| |contradiction]; cbn in I9.
      + rewrite I9. apply validate_spec in Hfrom. rewrite Hfrom. cbn [bind]. rewrite I1. destruct (last_of select_of cs); [reflexivity|congruence].
      + destruct I9 as (ts & _ & ->). cbn [bind]. rewrite I1. destruct (last_of select_of cs); [reflexivity|congruence].
    - destruct (last_of limit_of cs); auto.
    - destruct (last_of from_of cs) as [[d|q]|]; [exact I9|exact I9|contradiction].
  Qed.
End Statement.
