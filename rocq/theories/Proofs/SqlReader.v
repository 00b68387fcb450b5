(** Proofs: what reading with SQL gives. *)
From Coq Require Import Lia.
From Verif.Base Require Import Py Value PyFacts.
From Verif.Model Require Import Dates Tokens Splitter Evaluator DictSet Sql.
From Verif.Spec Require Import Tokens DictSet Evaluator Sql.
From Verif.Proofs Require Import Tokens Labels Splitter Sql SqlParse SqlText SqlStatement SqlEnds.
From Verif.Proofs Require Evaluator Functions Sorting DictSet.

(** ** Names *)
Section Names.
  Context (float_of date_of : str -> option value).
  Definition named_well (st : statement) : Prop :=
    match from st with Some (Name d) => exists e, d = dots_to_slashes e | _ => True end.

  Lemma one_named st t ts st' rest : named_well st -> one_clause float_of date_of st t ts = Ok (st', rest) -> named_well st'.
  Proof.
    intros H. unfold one_clause. destruct (str_eqb (strip t) []); [intros E; now injection E as <- <-|].
    destruct (str_eqb (upper t) $"SELECT").
    { destruct (skip_empty _ _ ts) as [|t' ts']; [discriminate|].
      destruct (collector _) as [e r]. intros E. now injection E as <- <-. }
    destruct (str_eqb (upper t) $"FROM").
    { destruct (skip_empty _ _ ts) as [|t' ts']; [discriminate|]. destruct (ttype_beq _ LEFTPAREN).
      - destruct (query_tokens _ _ 1 ts') as [[q r]|e]; cbn [bind]; [|discriminate]. intros E. injection E as <- <-. exact I.
      - destruct (collector _) as [e r]. intros E. injection E as <- <-. exists e. reflexivity. }
    destruct (collector ts) as [e r].
    destruct (str_eqb (upper t) $"WHERE"); [intros E; now injection E as <- <-|].
    destruct (str_eqb (upper t) $"GROUP BY"); [intros E; now injection E as <- <-|].
    destruct (str_eqb (upper t) $"HAVING"); [intros E; now injection E as <- <-|].
    destruct (str_eqb (upper t) $"ORDER BY"); [destruct r; intros E; now injection E as <- <-|].
    destruct (str_eqb (upper t) $"LIMIT"); [destruct (py_int e); cbn [bind]; [|discriminate]; intros E; now injection E as <- <-|].
    intros E. now injection E as <- <-.
  Qed.
  Lemma clauses_named fuel : forall st ts st', named_well st -> clauses float_of date_of fuel st ts = Ok st' -> named_well st'.
  Proof.
    induction fuel as [|f IH]; intros st [|t ts] st' H E; cbn [clauses] in E; try (injection E as <-; exact H); [discriminate|].
    destruct (one_clause float_of date_of st t ts) as [[st1 rest]|] eqn:O; [|discriminate]. cbn [bind] in E.
    eapply IH; [|exact E]. eapply one_named; eauto.
  Qed.

  Lemma accepted_names fuel s st d : parse_statement float_of date_of fuel s = Ok st -> from st = Some (Name d) ->
    safe_name d /\ ~ In "."%char d.
  Proof.
    unfold parse_statement. destruct (clauses _ _ fuel _ _) as [st1|] eqn:C; [|discriminate]. cbn [bind].
    intros H F. assert (st = st1).
    { destruct (match from st1 with Some (Name _) => _ | _ => _ end) as [u|] in H; [|discriminate]. cbn [bind] in H.
      destruct (from st1), (select_expression st1); try discriminate. now injection H. }
    subst st1. rewrite F in H. split.
    - apply validate_spec. destruct (validate_dataset d) as [[]|]; [reflexivity|discriminate].
    - apply clauses_named in C; [|exact I]. unfold named_well in C. rewrite F in C. destruct C as (e & ->).
      unfold dots_to_slashes. intros G. apply in_map_iff in G as (c & E & _). destruct (Ascii.eqb c ".") eqn:B; [discriminate|].
      subst c. discriminate B.
  Qed.

  Lemma split_at c s a x b : split c s = a ++ x :: b -> b <> [] -> a <> [] -> exists u v, s = u ++ [c] ++ x ++ [c] ++ v.
  Proof.
    intros E Hb Ha. rewrite <- (join_split c s), E. rewrite join_app by (auto; discriminate).
    rewrite join_cons by auto. exists (join [c] a), (join [c] b). reflexivity.
  Qed.
  Lemma in_split c s x : In x (split c s) -> forall d, In d x -> In d s /\ d <> c.
  Proof.
    intros Hx d Hd. split.
    - rewrite <- (join_split c s). revert Hx. generalize (split c s) as l. induction l as [|y l IH]; intros H; [destruct H|].
      destruct l as [|z l]; [destruct H as [->|[]]; exact Hd|]. rewrite join_cons by discriminate. apply in_or_app.
      destruct H as [->|H]; [now left|]. right. apply in_or_app. right. apply IH. exact H.
    - intros ->. exact (split_no_sep c s x Hx Hd).
  Qed.
  (** the folders of an accepted name *)
  Lemma accepted_components fuel s st d : parse_statement float_of date_of fuel s = Ok st -> from st = Some (Name d) ->
    forall a x b, split "/" d = a ++ x :: b ->
      (forall c, In c x -> is_alpha c = true \/ is_digit c = true \/ In c $"-_") /\
      (b <> [] -> x <> []) /\ (a = [] -> exists c x', x = c :: x' /\ is_alpha c = true).
  Proof.
    intros P F a x b E. destruct (accepted_names fuel s st d P F) as [(Hfirst & Hchars & _ & Hslash & _) Hdot].
    assert (Hin : In x (split "/" d)) by (rewrite E; apply in_or_app; right; now left).
    assert (First : a = [] -> exists c x', x = c :: x' /\ is_alpha c = true).
    { intros ->. destruct Hfirst as (c & d' & -> & Hc). cbn [app] in E. exists c.
      pose proof (join_split "/"%char (c :: d')) as J. rewrite E in J. destruct x as [|c' x'].
      - exfalso. destruct b as [|y b]; [discriminate J|]. rewrite join_cons in J by discriminate. cbn in J. injection J as J _. subst c. discriminate Hc.
      - exists x'. split; auto. destruct b; [cbn in J|rewrite join_cons in J by discriminate; cbn in J]; injection J as -> _; reflexivity. }
    repeat split; auto.
    - intros c Hc. destruct (in_split _ _ _ Hin c Hc) as [H1 H2]. destruct (Hchars c H1) as [H|[H|H]]; auto.
      right. right. cbn in *. destruct H as [H|[H|[H|[H|[]]]]]; subst; auto; try contradiction; try congruence.
    - intros Hb ->. destruct a as [|y a]; [destruct (First eq_refl) as (? & ? & ? & _); discriminate|].
      destruct (split_at _ _ _ _ _ E Hb ltac:(discriminate)) as (u & v & ->). exact (Hslash u v eq_refl).
  Qed.
End Names.

(** ** Answers *)
Lemma last_of_filter {A} (f : part -> option A) cs : (forall e, f (Where e) = None) ->
  last_of f (filter (fun p => negb (is_where p)) cs) = last_of f cs.
Proof.
  intros H. induction cs as [|p cs IH]; auto. cbn [filter last_of]. destruct (is_where p) eqn:W; cbn [negb].
  - rewrite IH. destruct p; try discriminate. rewrite H. now destruct (last_of f cs).
  - cbn [last_of]. now rewrite IH.
Qed.

Section Answers.
  Context (float_of date_of : str -> option value) (HF : reads_floats float_of).
  Context (reader : str -> str -> option str -> result (list record)) (where_ : str -> list record -> result (list record))
          (quotient : Z -> Z -> value) (hash : str -> Z) (xxh : str -> N).
  Notation answer := (sql_reader float_of date_of reader where_ quotient hash xxh).
  Notation label := (get_token_type float_of date_of).

  (** with a sub-query WHERE makes no difference *)
  Lemma query_ignores_where ps ws cs ps' ws' q in_memory :
    good_pieces ps -> spread ws (text_of (without_comments ps)) -> written_parts cs (join $" " ws) ->
    good_pieces ps' -> spread ws' (text_of (without_comments ps')) ->
    written_parts (filter (fun p => negb (is_where p)) cs) (join $" " ws') ->
    last_of select_of cs <> None -> last_of from_of cs = Some (inr q) ->
    forall fuel, length (text_of ps) <= fuel -> length (text_of ps') <= fuel ->
      answer fuel in_memory (text_of ps) = answer fuel in_memory (text_of ps').
  Proof.
    intros G1 S1 W1 G2 S2 W2 Hsel Hfrom fuel L1 L2.
    destruct (statement_parts float_of date_of HF ps ws cs G1 S1 W1 Hsel) as (st & P & A1 & A2 & A3 & A4 & A5 & A6 & A7 & A8 & A9).
    { now rewrite Hfrom. }
    destruct (statement_parts float_of date_of HF ps' ws' _ G2 S2 W2) as (st' & P' & B1 & B2 & B3 & B4 & B5 & B6 & B7 & B8 & B9).
    { now rewrite last_of_filter. } { rewrite last_of_filter by reflexivity. now rewrite Hfrom. }
    rewrite last_of_filter in B1, B4, B5, B6 by reflexivity. rewrite last_of_filter in B7 by reflexivity.
    rewrite last_of_filter in B8 by reflexivity. rewrite last_of_filter in B9 by reflexivity. rewrite Hfrom in A9, B9. destruct A9 as (ts & Ets & A9), B9 as (ts' & Ets' & B9).
    assert (D : distinct_rows st' = distinct_rows st).
    { rewrite A2, B2. clear. induction cs as [|p cs IH]; auto. cbn [filter existsb]. destruct p; cbn [is_where negb existsb]; now rewrite IH. }
    destruct fuel as [|f]; [reflexivity|]. cbn [sql_reader]. unfold sql_parser. rewrite P, P' by lia. cbn [bind].
    rewrite B1, <- A1. destruct (select_expression st) as [e|] eqn:Es; [|reflexivity].
    destruct (new_evaluator float_of date_of e) as [items|]; [|reflexivity]. cbn [bind].
    rewrite A9, B9, Ets, Ets'. destruct (answer f in_memory q) as [rows|]; [|reflexivity]. cbn [bind].
    unfold sql_rows, group_rows. rewrite D, A4, B4, A5, B5, A6, B6, A7, B7, A8, B8. reflexivity.
  Qed.
End Answers.
