(** Sorting by a column: [sort_and_take] is a stable sort followed by taking the first records. *)
From Verif.Base Require Import Py PyFacts Value.
From Verif.Model Require Import DictSet.
From Verif.Spec Require Import DictSet.

Lemma insert_ext {A} (f g : A -> A -> bool) x l :
  (forall y, In y l -> f x y = g x y) -> insert f x l = insert g x l.
Proof.
  induction l as [|y l IH]; intros H; simpl; auto.
  rewrite (H y) by (left; auto). rewrite IH by (intros; apply H; right; auto). reflexivity.
Qed.

Lemma isort_ext {A} (f g : A -> A -> bool) l :
  (forall x y, In x l -> In y l -> f x y = g x y) -> isort f l = isort g l.
Proof.
  induction l as [|x l IH]; intros H; simpl; auto.
  rewrite IH by (intros; apply H; right; auto). apply insert_ext. intros y Hy.
  apply isort_In in Hy. apply H; [left|right]; auto.
Qed.

(** inserting to the right of ties *)
Section Right.
  Context {A : Type} (leb : A -> A -> bool).
  Context (Htot : forall x y, leb x y = true \/ leb y x = true).
  Context (Htrans : forall x y z, leb x y = true -> leb y z = true -> leb x z = true).

  Fixpoint insert_right (x : A) (l : list A) : list A :=
    match l with
    | [] => [x]
    | y :: l' => if leb y x then y :: insert_right x l' else x :: y :: l'
    end.

  Lemma firstn_insert_right n x l :
    firstn n (insert_right x (firstn n l)) = firstn n (insert_right x l).
  Proof.
    revert n. induction l as [|y l IH]; intros n.
    - rewrite firstn_nil. reflexivity.
    - destruct n as [|n]; [reflexivity|]. simpl firstn at 2. simpl insert_right.
      destruct (leb y x).
      + simpl. f_equal. apply IH.
      + change (x :: firstn n (firstn (S n) (y :: l)) = x :: firstn n (y :: l)). f_equal.
        rewrite firstn_firstn. f_equal. lia.
  Qed.

  Lemma insert_right_insert x y l : StronglySorted (fun a b => leb a b = true) l ->
    insert leb y (insert_right x l) = insert_right x (insert leb y l).
  Proof.
    induction l as [|z l IH]; intros Hs; simpl.
    - destruct (leb y x) eqn:E; auto.
    - inversion Hs as [|? ? Hs' Hf]; subst. rewrite Forall_forall in Hf.
      destruct (leb z x) eqn:Ezx; simpl.
      + destruct (leb y z) eqn:Eyz; simpl.
        * rewrite (Htrans y z x) by auto. simpl. rewrite Ezx. reflexivity.
        * rewrite Ezx. rewrite IH; auto.
      + destruct (leb y x) eqn:Eyx; simpl.
        * assert (leb x z = true) as Exz by (destruct (Htot x z); congruence).
          rewrite (Htrans y x z) by auto. simpl. rewrite Eyx. rewrite Ezx. reflexivity.
        * destruct (leb y z) eqn:Eyz; simpl.
          -- rewrite Eyx. reflexivity.
          -- rewrite Ezx. reflexivity.
  Qed.

  Lemma isort_snoc l x : isort leb (l ++ [x]) = insert_right x (isort leb l).
  Proof.
    induction l as [|y l IH]; simpl; auto. rewrite IH.
    apply insert_right_insert, isort_sorted; auto.
  Qed.

  Lemma isort_truncate n a b :
    firstn n (isort leb (firstn n (isort leb a) ++ b)) = firstn n (isort leb (a ++ b)).
  Proof.
    induction b as [|x b IH] using rev_ind.
    - rewrite !app_nil_r. rewrite isort_id.
      + rewrite firstn_firstn. f_equal. lia.
      + pose proof (isort_sorted leb Htot Htrans a) as S.
        rewrite <- (firstn_skipn n (isort leb a)) in S.
        apply StronglySorted_app_inv in S as (S & _ & _). exact S.
    - rewrite !app_assoc, !isort_snoc.
      rewrite <- firstn_insert_right, IH, firstn_insert_right. reflexivity.
  Qed.
End Right.

(** ** A clean total order for a column of numbers or of texts *)
Definition kind_ok (texts : bool) (v : value) : Prop :=
  v = VNull \/ (if texts then exists s, v = VStr s else exists z, num_of v = Some z).

Definition rank_le (texts : bool) (v w : value) : bool :=
  match is_none v, is_none w with
  | true, _ => true
  | false, true => false
  | false, false =>
      if texts then str_leb (match v with VStr s => s | _ => [] end) (match w with VStr s => s | _ => [] end)
      else (number v <=? number w)%Z
  end.

Lemma rank_total t v w : rank_le t v w = true \/ rank_le t w v = true.
Proof.
  unfold rank_le. destruct (is_none v), (is_none w); auto. destruct t.
  - apply str_leb_total.
  - destruct (number v <=? number w)%Z eqn:E; auto. right. lia.
Qed.

Lemma rank_trans t u v w : rank_le t u v = true -> rank_le t v w = true -> rank_le t u w = true.
Proof.
  unfold rank_le. destruct (is_none u), (is_none v), (is_none w); auto; try discriminate.
  destruct t; [apply str_leb_trans|lia].
Qed.

Lemma py_eq_num v w x y : num_of v = Some x -> num_of w = Some y -> py_eq v w = (x =? y)%Z.
Proof.
  destruct v as [|b|z| | |], w as [|c|u| | |]; simpl; intros H1 H2; try discriminate;
    injection H1 as <-; injection H2 as <-; auto.
  - destruct b, c; reflexivity.
  - destruct b; lia.
Qed.

Lemma py_lt_num v w x y : num_of v = Some x -> num_of w = Some y -> py_lt v w = Ok (x <? y)%Z.
Proof.
  destruct v, w; simpl; intros H1 H2; try discriminate; injection H1 as <-; injection H2 as <-; auto.
Qed.

Lemma str_ltb_leb s t : str_ltb s t = negb (str_leb t s).
Proof.
  unfold str_ltb, str_leb.
  assert (str_compare t s = CompOpp (str_compare s t)) as ->.
  { revert t. induction s as [|c s IH]; intros [|d t]; simpl; auto.
    rewrite N.compare_antisym. destruct (N.compare (N_of_ascii c) (N_of_ascii d)); simpl; auto. }
  destruct (str_compare s t); reflexivity.
Qed.

Lemma str_leb_refl s : str_leb s s = true.
Proof. destruct (str_leb_total s s); auto. Qed.

Lemma is_none_num v x : num_of v = Some x -> is_none v = false.
Proof. destruct v; simpl; congruence. Qed.

(** the comparison of the model, on values of the same kind *)
Lemma key_lt_kind t c a b : kind_ok t (rget c a) -> kind_ok t (rget c b) ->
  key_lt c a b = Ok (negb (rank_le t (rget c b) (rget c a))).
Proof.
  unfold key_lt. generalize (rget c a) (rget c b). intros v w [-> | Hv] [-> | Hw]; simpl; auto.
  - unfold rank_le. destruct t.
    + destruct Hw as [s ->]. reflexivity.
    + destruct Hw as [z Hz]. rewrite (is_none_num _ _ Hz). reflexivity.
  - unfold rank_le. destruct t.
    + destruct Hv as [s ->]. reflexivity.
    + destruct Hv as [z Hz]. rewrite (is_none_num _ _ Hz). reflexivity.
  - unfold rank_le. destruct t.
    + destruct Hv as [s ->], Hw as [u ->]. simpl. destruct (str_eqb s u) eqn:E.
      * apply str_eqb_eq in E. subst. rewrite str_leb_refl. reflexivity.
      * rewrite str_ltb_leb. reflexivity.
    + destruct Hv as [x Hx], Hw as [y Hy].
      rewrite (is_none_num _ _ Hx), (is_none_num _ _ Hy), (py_eq_num _ _ _ _ Hx Hy), (py_lt_num _ _ _ _ Hx Hy).
      unfold number. rewrite Hx, Hy. destruct (x =? y)%Z eqn:E; f_equal; lia.
Qed.

Definition rows_kind t c (rows : list record) := forall r, In r rows -> kind_ok t (rget c r).
Definition rle (t : bool) (c : str) (desc : bool) (a b : record) : bool :=
  if desc then rank_le t (rget c b) (rget c a) else rank_le t (rget c a) (rget c b).

Lemma rle_total t c d a b : rle t c d a b = true \/ rle t c d b a = true.
Proof. unfold rle. destruct d; apply rank_total. Qed.
Lemma rle_trans t c d x y z : rle t c d x y = true -> rle t c d y z = true -> rle t c d x z = true.
Proof. unfold rle. destruct d; eauto using rank_trans. Qed.

Lemma sort_by_kind t c desc rows : rows_kind t c rows ->
  sort_by (key_lt c) desc rows = Ok (isort (rle t c desc) rows).
Proof.
  intros H. unfold sort_by.
  replace (forallb _ rows) with true.
  - f_equal. apply isort_ext. intros x y Hx Hy. unfold rle. destruct desc.
    + rewrite (key_lt_kind t) by auto. destruct (rank_le t (rget c y) (rget c x)); reflexivity.
    + rewrite (key_lt_kind t) by auto. destruct (rank_le t (rget c x) (rget c y)); reflexivity.
  - symmetry. apply forallb_forall. intros x Hx. apply forallb_forall. intros y Hy.
    rewrite (key_lt_kind t) by auto. reflexivity.
Qed.

Lemma slice_to_nat {A} (l : list A) n : slice_to l (Z.of_nat n) = firstn n l.
Proof. unfold slice_to, slice_bound. replace (Z.of_nat n <? 0)%Z with false by lia. f_equal. lia. Qed.

Lemma cached_sort_kind t c desc n dbl rows : forall cache pre,
  rows_kind t c (pre ++ rows) -> rows_kind t c cache ->
  (forall later, firstn n (isort (rle t c desc) (cache ++ later)) = firstn n (isort (rle t c desc) (pre ++ later))) ->
  exists out, cached_sort (key_lt c) desc (Z.of_nat n) dbl cache rows = Ok out /\
              firstn n out = firstn n (isort (rle t c desc) (pre ++ rows)).
Proof.
  induction rows as [|r rows IH]; intros cache pre Hk Hc Heq; simpl.
  - rewrite (sort_by_kind t) by auto. eexists. split; [reflexivity|].
    specialize (Heq []). rewrite app_nil_r in Heq. exact Heq.
  - assert (rows_kind t c (cache ++ [r])) as Hc'.
    { intros x Hx. apply in_app_or in Hx as [Hx|[<-|[]]]; auto. apply Hk, in_or_app. right. left. auto. }
    assert (forall later, firstn n (isort (rle t c desc) ((cache ++ [r]) ++ later)) =
                          firstn n (isort (rle t c desc) ((pre ++ [r]) ++ later))) as Heq'.
    { intros later. rewrite <- !app_assoc. apply Heq. }
    replace (pre ++ r :: rows) with ((pre ++ [r]) ++ rows) in * by (rewrite <- app_assoc; reflexivity).
    destruct (dbl <? Z.of_nat (length (cache ++ [r])))%Z.
    + rewrite (sort_by_kind t) by auto. cbn [bind]. rewrite slice_to_nat.
      apply IH; auto.
      * intros x Hx. apply In_firstn in Hx. apply isort_In in Hx. auto.
      * intros later. rewrite isort_truncate; auto using rle_total.
        intros; eapply rle_trans; eauto.
    + apply IH; auto.
Qed.

Lemma sort_and_take_kind t mem c n desc rows : rows_kind t c rows ->
  sort_and_take mem c (Z.of_nat n) desc rows = Ok (firstn n (isort (rle t c desc) rows)).
Proof.
  intros H. unfold sort_and_take. destruct mem.
  - rewrite (sort_by_kind t) by auto. cbn [bind]. rewrite slice_to_nat. reflexivity.
  - destruct (cached_sort_kind t c desc n (Z.max (Z.of_nat n * 2) 1 + 1) rows [] []) as (out & E & F); auto.
    + intros x [].
    + rewrite E. cbn [bind]. rewrite slice_to_nat. f_equal. exact F.
Qed.

(** ** The specification *)
Lemma rank_le_spec t v w : kind_ok t v -> kind_ok t w -> rank_le t v w = true <-> value_le v w.
Proof.
  intros Hv Hw. unfold rank_le. split.
  - destruct Hv as [->|Hv]; [constructor|]. destruct Hw as [->|Hw].
    + simpl. destruct t; destruct Hv as [z Hz]; [subst; discriminate|].
      rewrite (is_none_num _ _ Hz). discriminate.
    + destruct t; destruct Hv as [x Hx], Hw as [y Hy]; subst; simpl.
      * intros H. apply texts_le. auto.
      * rewrite (is_none_num _ _ Hx), (is_none_num _ _ Hy). unfold number. rewrite Hx, Hy.
        intros H. eapply numbers_le; eauto. lia.
  - intros H. destruct H as [w|v w x y Hx Hy Hle|s u Hle]; simpl; auto.
    + rewrite (is_none_num _ _ Hx), (is_none_num _ _ Hy). destruct t.
      * destruct Hv as [->|[s ->]]; discriminate.
      * unfold number. rewrite Hx, Hy. lia.
    + destruct t; auto.
Qed.

Lemma row_le_spec t c d a b : kind_ok t (rget c a) -> kind_ok t (rget c b) ->
  rle t c d a b = true <-> row_le c d a b.
Proof. intros. unfold rle, row_le. destruct d; apply rank_le_spec; auto. Qed.

Lemma kinds c rows : number_column c rows \/ text_column c rows -> exists t, rows_kind t c rows.
Proof.
  intros [H|H]; [exists false|exists true]; intros r Hr; specialize (H r Hr); unfold kind_ok; auto.
Qed.

Lemma Sorted_impl_in {A} (R Q : A -> A -> Prop) l : (forall a b, In a l -> In b l -> R a b -> Q a b) ->
  StronglySorted R l -> StronglySorted Q l.
Proof.
  intros H Hs. induction Hs as [|x l Hs IH Hf]; constructor.
  - apply IH. intros a b Ha Hb. apply H; right; auto.
  - rewrite Forall_forall in *. intros y Hy. apply H; [left|right|]; auto.
Qed.

Lemma isort_stable_spec t c desc rows : rows_kind t c rows ->
  stable_sort (row_le c desc) rows (isort (rle t c desc) rows).
Proof.
  intros H. split; [|split].
  - apply isort_perm.
  - eapply Sorted_impl_in; [|apply isort_sorted; [apply rle_total|intros ? ? ?; apply rle_trans]].
    intros a b Ha Hb Hab. apply isort_In in Ha. apply isort_In in Hb. apply row_le_spec in Hab; auto.
  - intros tied Ht.
    (* ties among the rows only matter for the elements of the list *)
    assert (forall l, (forall r, In r l -> In r rows) ->
                      filter tied (isort (rle t c desc) l) = filter tied l) as G.
    { induction l as [|x l IH]; intros Hin; auto. simpl isort.
      rewrite (filter_insert_eq (rle t c desc)).
      - simpl. rewrite IH by (intros; apply Hin; right; auto). reflexivity.
      - intros y Hy Ty Tx. apply isort_In in Hy. apply row_le_spec.
        + apply H, Hin. left. auto.
        + apply H, Hin. right. auto.
        + apply Ht; auto. }
    apply G. auto.
Qed.

Lemma sort_and_take_spec mem c n desc rows : number_column c rows \/ text_column c rows ->
  exists full, stable_sort (row_le c desc) rows full /\
               sort_and_take mem c (Z.of_nat n) desc rows = Ok (firstn n full).
Proof.
  intros H. destruct (kinds _ _ H) as [t Ht].
  exists (isort (rle t c desc) rows). split; [apply isort_stable_spec; auto|apply sort_and_take_kind; auto].
Qed.

(** a stable sort is unique, so the theorem above determines the answer *)
Lemma value_le_dec_rows t c desc rows : rows_kind t c rows ->
  forall a b, In a rows -> In b rows -> row_le c desc a b \/ row_le c desc b a.
Proof.
  intros H a b Ha Hb. destruct (rle_total t c desc a b) as [E|E]; apply row_le_spec in E; auto.
Qed.

Lemma stable_unique (le : record -> record -> bool)
  (Htot : forall x y, le x y = true \/ le y x = true)
  (Htr : forall x y z, le x y = true -> le y z = true -> le x z = true) : forall a b,
  StronglySorted (fun x y => le x y = true) a -> StronglySorted (fun x y => le x y = true) b ->
  (forall tied, (forall x y, tied x = true -> tied y = true -> le x y = true) -> filter tied a = filter tied b) ->
  a = b.
Proof.
  assert (forall a x, StronglySorted (fun x y => le x y = true) (x :: a) ->
            exists l, filter (fun y => le x y && le y x) (x :: a) = x :: l) as Hd.
  { intros a x Hs. simpl. assert (le x x = true) as -> by (destruct (Htot x x); auto). simpl. eauto. }
  assert (forall x p q, ((le x p && le p x) = true -> (le x q && le q x) = true -> le p q = true)) as He.
  { intros x p q Hp Hq. apply andb_prop in Hp, Hq. destruct Hp, Hq. eapply Htr; eauto. }
  induction a as [|x a IH]; intros b Ha Hb Hf.
  - destruct b as [|y b]; auto. exfalso. destruct (Hd b y Hb) as [l Hl].
    specialize (Hf (fun z => le y z && le z y) (fun p q Hp Hq => He y p q Hp Hq)). rewrite Hl in Hf. discriminate.
  - destruct b as [|y b].
    + exfalso. destruct (Hd a x Ha) as [l Hl].
      specialize (Hf (fun z => le x z && le z x) (fun p q Hp Hq => He x p q Hp Hq)). rewrite Hl in Hf. discriminate.
    + assert (In x (y :: b)) as Hxin.
      { destruct (Hd a x Ha) as [l Hl].
        specialize (Hf (fun z => le x z && le z x) (fun p q Hp Hq => He x p q Hp Hq)). rewrite Hl in Hf.
        assert (In x (filter (fun z => le x z && le z x) (y :: b))) as G by (rewrite <- Hf; left; auto).
        apply filter_In in G as [G _]. exact G. }
      assert (In y (x :: a)) as Hyin.
      { destruct (Hd b y Hb) as [l Hl].
        specialize (Hf (fun z => le y z && le z y) (fun p q Hp Hq => He y p q Hp Hq)). rewrite Hl in Hf.
        assert (In y (filter (fun z => le y z && le z y) (x :: a))) as G by (rewrite Hf; left; auto).
        apply filter_In in G as [G _]. exact G. }
      inversion Ha as [|? ? Ha' Hfa]; inversion Hb as [|? ? Hb' Hfb]; subst.
      rewrite Forall_forall in Hfa, Hfb.
      assert (le x y = true) as Exy.
      { destruct Hyin as [->|]; auto. destruct (Htot y y); auto. }
      assert (le y x = true) as Eyx.
      { destruct Hxin as [<-|]; auto. }
      assert (x = y) as <-.
      { specialize (Hf (fun z => le x z && le z x) (fun p q Hp Hq => He x p q Hp Hq)).
        simpl in Hf. rewrite Exy, Eyx in Hf.
        assert (le x x = true) as Exx by (destruct (Htot x x); auto). rewrite Exx in Hf.
        simpl in Hf. congruence. }
      f_equal. apply IH; auto. intros tied Ht. specialize (Hf tied Ht). simpl in Hf.
      destruct (tied x); congruence.
Qed.

Definition kindb (t : bool) (v : value) : bool :=
  match v with
  | VNull => true
  | VStr _ => t
  | VInt _ | VBool _ => negb t
  | _ => false
  end.
Lemma kindb_ok t v : kindb t v = true <-> kind_ok t v.
Proof.
  unfold kind_ok. destruct t, v; simpl; split; intros H; try discriminate; auto;
    try (right; eexists; reflexivity); destruct H as [H|[? H]]; try discriminate; auto.
Qed.

Lemma stable_sort_unique c desc rows p q : number_column c rows \/ text_column c rows ->
  stable_sort (row_le c desc) rows p -> stable_sort (row_le c desc) rows q -> p = q.
Proof.
  intros H (Pp & Sp & Tp) (Pq & Sq & Tq). destruct (kinds _ _ H) as [t Ht].
  apply (stable_unique (rle t c desc)).
  - apply rle_total.
  - intros ? ? ?. apply rle_trans.
  - eapply Sorted_impl_in; [|exact Sp]. intros a b Ha Hb Hab. apply (row_le_spec t c desc a b); try exact Hab; apply Ht, (Permutation_in _ Pp); auto.
  - eapply Sorted_impl_in; [|exact Sq]. intros a b Ha Hb Hab. apply (row_le_spec t c desc a b); try exact Hab; apply Ht, (Permutation_in _ Pq); auto.
  - intros tied Htie.
    (* restrict the ties to values of the right kind: no others occur *)
    set (tied' := fun r => tied r && kindb t (rget c r)).
    assert (forall x y, tied' x = true -> tied' y = true -> row_le c desc x y) as Htie'.
    { intros x y Hx Hy. unfold tied' in *. apply andb_prop in Hx as [Hx Kx]. apply andb_prop in Hy as [Hy Ky].
      apply (row_le_spec t c desc x y); try (apply kindb_ok; assumption). apply Htie; auto. }
    assert (forall l, Permutation l rows -> filter tied l = filter tied' l) as G.
    { intros l Hl. apply filter_ext_in. intros r Hr. unfold tied'. rewrite (proj2 (kindb_ok t _)).
      - rewrite andb_true_r. reflexivity.
      - apply Ht. eapply Permutation_in; eauto. }
    rewrite (G p), (G q) by auto. rewrite Tp, Tq by auto. reflexivity.
Qed.
