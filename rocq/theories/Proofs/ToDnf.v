(** The disjunctive normal form of an expression. *)
From Verif.Base Require Import Py PyFacts Value.
From Verif.Model Require Import Filters Tokens Expression ToDnf.
From Verif.Spec Require Import Expression ToDnf.

Section Dnf.
  Context (float_of date_of : str -> option value) (py_is : value -> value -> bool)
          (matches : value -> value -> result bool).
  Notation eval := (evaluate_recursive float_of date_of py_is matches).

  Lemma to_dnf_total t : proper t -> exists d, to_dnf t = Ok d.
  Proof.
    induction t as [ty v|n| |op a IHa b IHb|a IHa|a IHa b IHb|a IHa b IHb]; cbn [proper to_dnf]; intros P.
    - destruct ty; eauto.
    - eauto.
    - destruct P.
    - destruct P as [Pa Pb]. destruct (IHa Pa) as [x ->], (IHb Pb) as [y ->]. cbn [bind]. eauto.
    - destruct (IHa P) as [x ->]. cbn [bind]. eauto.
    - destruct P as [Pa Pb]. destruct (IHa Pa) as [x ->], (IHb Pb) as [y ->]. cbn [bind]. eauto.
    - destruct P as [Pa Pb]. destruct (IHa Pa) as [x ->], (IHb Pb) as [y ->]. cbn [bind]. eauto.
  Qed.

  Definition agrees (t : tree) (r : record) (d : dnf) : Prop :=
    to_dnf t = Ok d /\ exists v b, eval t r = Ok v /\ evaluate_dnf matches d r = Ok b /\ truthy v = b.

  Lemma test_agrees t r : number_test t -> numbers_for t r -> exists d, agrees t r d /\ is_tuple d = true.
  Proof.
    intros [name op n Hop Hw] [[m Hm] _].
    exists (DTest (DValue (VStr name)) op (DValue (VInt n))). split; [|reflexivity].
    split; [reflexivity|]. cbn [evaluate_recursive bind]. rewrite Hw, Hm. cbn [interpret_value].
    cbn [evaluate_dnf operand_of].
    assert (G: rget name r = VInt m) by (unfold rget; rewrite Hm; auto). rewrite G.
    unfold plain_comparisons in Hop. cbn [In] in Hop.
    repeat match type of Hop with _ \/ _ => destruct Hop as [<-|Hop] end; [..|destruct Hop];
      (do 2 eexists; split; [reflexivity|]; split; [reflexivity|reflexivity]).
  Qed.

  (** a part alone in a list: what it says itself *)
  Lemma alone d r b : is_tuple d = true \/ is_list d = true -> evaluate_dnf matches d r = Ok b ->
    evaluate_dnf matches (DList [d]) r = Ok b.
  Proof.
    intros H E. cbn [evaluate_dnf forallb]. destruct H as [H|H].
    - rewrite H. cbn [andb allM]. rewrite E. cbn [bind]. destruct b; auto.
    - assert (is_tuple d = false) as -> by (destruct d; auto; discriminate). rewrite H. cbn [andb anyM].
      rewrite E. cbn [bind]. destruct b; auto.
  Qed.

  Lemma alternatives_agree t r : alternatives t -> numbers_for t r ->
    exists d, agrees t r d /\ (is_tuple d = true \/ is_list d = true).
  Proof.
    intros A. induction A as [t T|a b Ta Tb|a b A IHa B IHb]; intros N.
    - destruct (test_agrees t r T N) as (d & H & I). eauto.
    - destruct N as [Na Nb].
      destruct (test_agrees a r Ta Na) as (da & (Ea & va & ba & Va & Da & <-) & Ia).
      destruct (test_agrees b r Tb Nb) as (db & (Eb & vb & bb & Vb & Db & <-) & Ib).
      exists (DList [da; db]). split; [|auto]. split.
      + cbn [to_dnf]. rewrite Ea, Eb. reflexivity.
      + exists (if truthy va then vb else va), (truthy va && truthy vb). split; [|split].
        * cbn [evaluate_recursive]. rewrite Va, Vb. reflexivity.
        * cbn [evaluate_dnf forallb]. rewrite Ia, Ib. cbn [andb allM]. rewrite Da, Db. cbn [bind].
          destruct (truthy va); auto. destruct (truthy vb); auto.
        * destruct (truthy va) eqn:E; cbn [andb]; auto.
    - destruct N as [Na Nb].
      destruct (IHa Na) as (da & (Ea & va & ba & Va & Da & <-) & Ia).
      destruct (IHb Nb) as (db & (Eb & vb & bb & Vb & Db & <-) & Ib).
      exists (DList [DList [da]; DList [db]]). split; [|auto]. split.
      + cbn [to_dnf]. rewrite Ea, Eb. reflexivity.
      + exists (if truthy va then va else vb), (truthy va || truthy vb). split; [|split].
        * cbn [evaluate_recursive]. rewrite Va, Vb. reflexivity.
        * pose proof (alone da r _ Ia Da) as La. pose proof (alone db r _ Ib Db) as Lb.
          remember (DList [da]) as xa eqn:Exa. remember (DList [db]) as xb eqn:Exb.
          cbn [evaluate_dnf forallb].
          assert (is_tuple xa = false) as -> by (subst; auto). assert (is_list xa = true) as -> by (subst; auto).
          assert (is_list xb = true) as -> by (subst; auto). cbn [andb anyM]. rewrite La. cbn [bind].
          destruct (truthy va); auto. rewrite Lb. cbn [bind]. destruct (truthy vb); auto.
        * destruct (truthy va) eqn:E; cbn [orb]; auto.
  Qed.

  Theorem dnf_right t r : alternatives t -> numbers_for t r ->
    exists v, eval t r = Ok v /\ dnf_selects matches t r = Ok (truthy v).
  Proof.
    intros A N. destruct (alternatives_agree t r A N) as (d & (E & v & b & V & D & <-) & _).
    exists v. split; auto. unfold dnf_selects. rewrite E. auto.
  Qed.

  (** ** where it is wrong *)
  (** an AND of two parts that are themselves ANDs or ORs is taken for an OR *)
  Theorem and_of_groups a b r x y :
    match a with TAnd _ _ | TOr _ _ => True | _ => False end -> match b with TAnd _ _ | TOr _ _ => True | _ => False end ->
    dnf_selects matches a r = Ok x -> dnf_selects matches b r = Ok y ->
    dnf_selects matches (TAnd a b) r = Ok (x || y).
  Proof.
    intros Ga Gb. unfold dnf_selects. cbn [to_dnf].
    destruct (to_dnf a) as [da|] eqn:Ea; [|discriminate]. destruct (to_dnf b) as [db|] eqn:Eb; [|discriminate]. cbn [bind].
    assert (La: is_list da = true).
    { destruct a; try contradiction; cbn [to_dnf] in Ea; destruct (to_dnf a1), (to_dnf a2); try discriminate;
        injection Ea as <-; reflexivity. }
    assert (Lb: is_list db = true).
    { destruct b; try contradiction; cbn [to_dnf] in Eb; destruct (to_dnf b1), (to_dnf b2); try discriminate;
        injection Eb as <-; reflexivity. }
    intros X Y. cbn [evaluate_dnf forallb].
    assert (is_tuple da = false) as -> by (destruct da; auto; discriminate). rewrite La, Lb. cbn [andb anyM].
    rewrite X. cbn [bind]. destruct x; auto. rewrite Y. cbn [bind]. destruct y; auto.
  Qed.
  (** an AND of a comparison and a group cannot be evaluated *)
  Theorem mixed_and g op x y r dg : proper (TOp op x y) ->
    match g with TAnd _ _ | TOr _ _ => True | _ => False end -> to_dnf g = Ok dg ->
    dnf_selects matches (TAnd g (TOp op x y)) r = Raise InvalidSyntaxError /\
    dnf_selects matches (TAnd (TOp op x y) g) r = Raise InvalidSyntaxError.
  Proof.
    intros P G E. destruct (to_dnf_total _ P) as (dt & Et).
    assert (Lg: is_list dg = true /\ is_tuple dg = false).
    { destruct g; try contradiction; cbn [to_dnf] in E; destruct (to_dnf g1), (to_dnf g2); try discriminate;
        injection E as <-; auto. }
    assert (Lt: is_tuple dt = true /\ is_list dt = false).
    { cbn [to_dnf] in Et. destruct (to_dnf x), (to_dnf y); try discriminate. injection Et as <-. auto. }
    destruct Lg as [G1 G2], Lt as [T1 T2].
    unfold dnf_selects. cbn [to_dnf]. cbn [to_dnf] in Et. rewrite E, Et. cbn [bind].
    cbn [evaluate_dnf forallb]. rewrite G1, G2, T1, T2. split; reflexivity.
  Qed.
  (** NOT cannot be evaluated *)
  Theorem not_fails t r d : to_dnf t = Ok d -> dnf_selects matches (TNot t) r = Raise ValueError.
  Proof. intros E. unfold dnf_selects. cbn [to_dnf]. rewrite E. reflexivity. Qed.
  (** a column compared for equality with a text: only a value with the quotes around it is selected *)
  Theorem text_equality name op s w r : In op [$"="; $"=="] -> rget name r = VStr w ->
    dnf_selects matches (TOp op (TVar name) (TLeaf LITERAL (VStr s))) r = Ok (str_eqb w ($"""" ++ s ++ $"""")).
  Proof.
    intros Hop Hw. unfold dnf_selects. cbn [to_dnf bind py_str evaluate_dnf operand_of]. rewrite Hw.
    destruct Hop as [<-|[<-|[]]]; reflexivity.
  Qed.
End Dnf.
