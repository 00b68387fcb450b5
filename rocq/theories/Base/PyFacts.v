(** Facts about the primitives of [Py]. *)
From Verif.Base Require Import Py.
From Coq Require Import Permutation Sorted.

(** ** equality tests *)
Lemma list_eqb_spec {A} (eqb : A -> A -> bool) (H : forall x y, eqb x y = true <-> x = y) :
  forall a b, list_eqb eqb a b = true <-> a = b.
Proof.
  induction a as [|x a IH]; destruct b as [|y b]; simpl; split; try discriminate; auto.
  - intros E. apply andb_prop in E as [E1 E2]. apply H in E1. apply IH in E2. subst; auto.
  - intros E. injection E as -> ->. apply andb_true_intro. split; [apply H; auto | apply IH; auto].
Qed.

Lemma ascii_eqb_iff x y : Ascii.eqb x y = true <-> x = y.
Proof. apply Ascii.eqb_eq. Qed.

Lemma str_eqb_eq a b : str_eqb a b = true <-> a = b.
Proof. apply list_eqb_spec, ascii_eqb_iff. Qed.

Lemma str_eqb_refl a : str_eqb a a = true.
Proof. apply str_eqb_eq; auto. Qed.

Lemma str_eqb_neq a b : str_eqb a b = false <-> a <> b.
Proof.
  split; intros H.
  - intros E. apply str_eqb_eq in E. congruence.
  - destruct (str_eqb a b) eqn:E; auto. apply str_eqb_eq in E. contradiction.
Qed.

Lemma str_eqb_reflect a b : Bool.reflect (a = b) (str_eqb a b).
Proof. apply iff_reflect. symmetry. apply str_eqb_eq. Qed.

Lemma str_eq_dec (a b : str) : {a = b} + {a <> b}.
Proof. destruct (str_eqb_reflect a b); auto. Qed.

Lemma mem_In {A} (eqb : A -> A -> bool) (H : forall x y, eqb x y = true <-> x = y) x l :
  mem eqb x l = true <-> In x l.
Proof.
  unfold mem. rewrite existsb_exists. split.
  - intros (y & Hy & E). apply H in E. subst; auto.
  - intros Hx. exists x. split; auto. apply H; auto.
Qed.

Lemma str_mem_In x l : str_mem x l = true <-> In x l.
Proof. apply mem_In, str_eqb_eq. Qed.

Lemma str_mem_false x l : str_mem x l = false <-> ~ In x l.
Proof.
  rewrite <- str_mem_In. destruct (str_mem x l); split; intros; try congruence; auto.
Qed.

(** ** startswith / endswith / contains *)
Lemma startswith_iff p s : startswith p s = true <-> exists t, s = p ++ t.
Proof.
  revert s. induction p as [|c p IH]; intros s; simpl.
  - split; eauto.
  - destruct s as [|d s].
    + split; [discriminate|]. intros [t E]. discriminate.
    + rewrite andb_true_iff, ascii_eqb_iff, IH. split.
      * intros [-> [t ->]]. exists t; auto.
      * intros [t E]. injection E as -> ->. split; eauto.
Qed.

Lemma startswith_app p t : startswith p (p ++ t) = true.
Proof. apply startswith_iff; eauto. Qed.

Lemma startswith_refl p : startswith p p = true.
Proof. apply startswith_iff. exists []. rewrite app_nil_r; auto. Qed.

Lemma endswith_iff p s : endswith p s = true <-> exists t, s = t ++ p.
Proof.
  unfold endswith. rewrite startswith_iff. split.
  - intros [t E]. exists (rev t). apply (f_equal (@rev ascii)) in E.
    rewrite rev_involutive, rev_app_distr, rev_involutive in E. exact E.
  - intros [t ->]. exists (rev t). apply rev_app_distr.
Qed.

Lemma contains_iff n h : contains n h = true <-> exists a b, h = a ++ n ++ b.
Proof.
  induction h as [|c h IH]; simpl.
  - rewrite orb_true_iff, startswith_iff. split.
    + intros [[t E]|]; [|discriminate]. exists [], t. exact E.
    + intros (a & b & E). left. destruct a; [|discriminate]. eauto.
  - rewrite orb_true_iff, startswith_iff, IH. split.
    + intros [[t E]|(a & b & ->)].
      * exists [], t. exact E.
      * exists (c :: a), b. reflexivity.
    + intros (a & b & E). destruct a as [|x a].
      * left. eauto.
      * right. injection E as -> ->. eauto.
Qed.

Lemma contains_false n h : contains n h = false <-> forall a b, h <> a ++ n ++ b.
Proof.
  split.
  - intros H a b E. assert (contains n h = true) by (apply contains_iff; eauto). congruence.
  - intros H. destruct (contains n h) eqn:E; auto.
    apply contains_iff in E as (a & b & E). exfalso. eapply H; eauto.
Qed.

Lemma contains_self n : contains n n = true.
Proof. apply contains_iff. exists [], []. rewrite app_nil_r; auto. Qed.

Lemma contains_app_l n a b : contains n b = true -> contains n (a ++ b) = true.
Proof.
  rewrite !contains_iff. intros (x & y & ->). exists (a ++ x), y. rewrite app_assoc; auto.
Qed.

Lemma contains_app_r n a b : contains n a = true -> contains n (a ++ b) = true.
Proof.
  rewrite !contains_iff. intros (x & y & ->). exists x, (y ++ b). rewrite !app_assoc; auto.
Qed.

(** ** split / join *)
Lemma split_nonempty c s : split c s <> [].
Proof.
  destruct s as [|d s]; simpl; [discriminate|].
  destruct (Ascii.eqb c d); [discriminate|]. destruct (split c s); discriminate.
Qed.

Lemma split_cons_neq c d s : c <> d ->
  exists w ws, split c s = w :: ws /\ split c (d :: s) = (d :: w) :: ws.
Proof.
  intros H. simpl. destruct (Ascii.eqb c d) eqn:E.
  { apply ascii_eqb_iff in E. contradiction. }
  destruct (split c s) as [|w ws] eqn:Es; [exfalso; eapply split_nonempty; eauto|].
  exists w, ws. auto.
Qed.

Lemma join_split c s : join [c] (split c s) = s.
Proof.
  induction s as [|d s IH]; simpl; auto.
  destruct (Ascii.eqb c d) eqn:E.
  - apply ascii_eqb_iff in E. subst d.
    pose proof (split_nonempty c s) as Hn. destruct (split c s) as [|w ws] eqn:Es; [congruence|].
    change (join [c] ([] :: w :: ws)) with ([] ++ [c] ++ join [c] (w :: ws)). rewrite IH. reflexivity.
  - pose proof (split_nonempty c s) as Hn. destruct (split c s) as [|w ws] eqn:Es; [congruence|].
    destruct ws; simpl in *; rewrite <- IH; reflexivity.
Qed.

Lemma split_no_sep c s w : In w (split c s) -> ~ In c w.
Proof.
  revert w. induction s as [|d s IH]; simpl; intros w Hw.
  - destruct Hw as [<-|[]]. simpl; auto.
  - destruct (Ascii.eqb c d) eqn:E.
    + destruct Hw as [<-|Hw]; auto.
    + destruct (split c s) as [|w0 ws].
      * destruct Hw as [<-|[]]. intros [->|[]]. rewrite Ascii.eqb_refl in E. discriminate.
      * destruct Hw as [<-|Hw].
        -- intros [->|Hin]; [rewrite Ascii.eqb_refl in E; discriminate|].
           apply (IH w0); simpl; auto.
        -- apply IH; simpl; auto.
Qed.

Lemma split_app_no_sep c a s : ~ In c a ->
  split c (a ++ c :: s) = a :: split c s.
Proof.
  induction a as [|d a IH]; intros H; simpl.
  - rewrite Ascii.eqb_refl. reflexivity.
  - simpl in H. destruct (Ascii.eqb c d) eqn:E.
    { apply ascii_eqb_iff in E. subst. exfalso; auto. }
    rewrite IH by auto. reflexivity.
Qed.

Lemma split_single c a : ~ In c a -> split c a = [a].
Proof.
  induction a as [|d a IH]; intros H; simpl; auto.
  simpl in H. destruct (Ascii.eqb c d) eqn:E.
  { apply ascii_eqb_iff in E. subst. exfalso; auto. }
  rewrite IH by auto. reflexivity.
Qed.

Lemma split_join c l : l <> [] -> (forall w, In w l -> ~ In c w) -> split c (join [c] l) = l.
Proof.
  induction l as [|w l IH]; intros Hn H; [congruence|].
  destruct l as [|w' l].
  - simpl. apply split_single. apply H; simpl; auto.
  - change (join [c] (w :: w' :: l)) with (w ++ c :: join [c] (w' :: l)).
    rewrite split_app_no_sep by (apply H; simpl; auto).
    rewrite IH; auto; [discriminate|]. intros v Hv. apply H. simpl in *; auto.
Qed.

Lemma join_cons sep x l : l <> [] -> join sep (x :: l) = x ++ sep ++ join sep l.
Proof. destruct l; [congruence|reflexivity]. Qed.

Lemma join_app sep a b : a <> [] -> b <> [] -> join sep (a ++ b) = join sep a ++ sep ++ join sep b.
Proof.
  induction a as [|x a IH]; intros Ha Hb; [congruence|].
  destruct a as [|y a].
  - simpl app. apply join_cons; auto.
  - change ((x :: y :: a) ++ b) with (x :: (y :: a) ++ b).
    rewrite join_cons by discriminate. rewrite IH; auto; [|discriminate].
    rewrite (join_cons sep x (y :: a)) by discriminate. rewrite <- !app_assoc. reflexivity.
Qed.

(** ** slices *)
Lemma slice_to_nonneg {A} (l : list A) n : (0 <= n)%Z -> slice_to l n = firstn (Z.to_nat n) l.
Proof.
  intros H. unfold slice_to, slice_bound. destruct (n <? 0)%Z eqn:E; [lia|]. reflexivity.
Qed.

Lemma slice_from_nonneg {A} (l : list A) n : (0 <= n)%Z -> slice_from l n = skipn (Z.to_nat n) l.
Proof.
  intros H. unfold slice_from, slice_bound. destruct (n <? 0)%Z eqn:E; [lia|]. reflexivity.
Qed.

Lemma slice_split {A} (l : list A) n : slice_to l n ++ slice_from l n = l.
Proof. apply firstn_skipn. Qed.

(** ** dedup *)
Section DedupFacts.
  Context {A : Type} (eqb : A -> A -> bool) (Heqb : forall x y, eqb x y = true <-> x = y).

  Lemma dedup_In x l : In x (dedup eqb l) <-> In x l.
  Proof.
    induction l as [|y l IH]; simpl; [tauto|].
    rewrite filter_In, IH. split; [tauto|].
    intros [->|H]; auto. destruct (eqb y x) eqn:E.
    - apply Heqb in E. auto.
    - right. split; auto.
  Qed.

  Lemma NoDup_filter' (f : A -> bool) l : NoDup l -> NoDup (filter f l).
  Proof. apply NoDup_filter. Qed.

  Lemma dedup_NoDup l : NoDup (dedup eqb l).
  Proof.
    induction l as [|y l IH]; simpl; constructor.
    - rewrite filter_In. intros [_ H]. rewrite (proj2 (Heqb y y) eq_refl) in H. discriminate.
    - apply NoDup_filter; auto.
  Qed.

  Lemma filter_all (f : A -> bool) l : (forall x, In x l -> f x = true) -> filter f l = l.
  Proof.
    induction l as [|x l IH]; simpl; intros H; auto.
    rewrite (H x) by auto. f_equal. apply IH. auto.
  Qed.

  Lemma dedup_NoDup_id l : NoDup l -> dedup eqb l = l.
  Proof.
    induction 1 as [|x l Hx Hl IH]; simpl; auto.
    rewrite IH. f_equal. apply filter_all. intros y Hy.
    destruct (eqb x y) eqn:E; auto. apply Heqb in E. subst; contradiction.
  Qed.
End DedupFacts.

Lemma filter_nil {A} (f : A -> bool) l : (forall x, In x l -> f x = false) -> filter f l = [].
Proof.
  induction l as [|x l IH]; simpl; intros H; auto.
  rewrite (H x) by auto. apply IH. auto.
Qed.

Lemma filter_ext_in' {A} (f g : A -> bool) l :
  (forall x, In x l -> f x = g x) -> filter f l = filter g l.
Proof. apply filter_ext_in. Qed.

Lemma filter_filter {A} (f g : A -> bool) l :
  filter f (filter g l) = filter (fun x => g x && f x) l.
Proof.
  induction l as [|x l IH]; simpl; auto.
  destruct (g x); simpl; [destruct (f x)|]; rewrite IH; auto.
Qed.

Lemma filter_comm {A} (f g : A -> bool) l : filter f (filter g l) = filter g (filter f l).
Proof. rewrite !filter_filter. apply filter_ext. intros; apply andb_comm. Qed.

(** ** dictionaries *)
Section DictFacts.
  Context {K V : Type} (keqb : K -> K -> bool) (Hk : forall x y, keqb x y = true <-> x = y).
  Notation get := (dget keqb).
  Notation set := (dset keqb).

  Lemma keqb_refl x : keqb x x = true. Proof. apply Hk; auto. Qed.
  Lemma keqb_neq x y : x <> y -> keqb x y = false.
  Proof. intros H. destruct (keqb x y) eqn:E; auto. apply Hk in E. contradiction. Qed.

  Lemma dget_dset_same k v (d : list (K * V)) : get k (set k v d) = Some v.
  Proof.
    induction d as [|[k' v'] d IH]; simpl.
    - rewrite keqb_refl; auto.
    - destruct (keqb k k') eqn:E; simpl; rewrite E; auto.
  Qed.

  Lemma dget_dset_other k k' v (d : list (K * V)) : k <> k' -> get k (set k' v d) = get k d.
  Proof.
    intros H. induction d as [|[k2 v2] d IH]; simpl.
    - rewrite keqb_neq; auto.
    - destruct (keqb k' k2) eqn:E; simpl.
      + apply Hk in E. subst k2. rewrite keqb_neq by auto. reflexivity.
      + destruct (keqb k k2); auto.
  Qed.

  Lemma dget_None k (d : list (K * V)) : get k d = None <-> ~ In k (dkeys d).
  Proof.
    induction d as [|[k' v'] d IH]; simpl; [tauto|].
    destruct (keqb k k') eqn:E.
    - apply Hk in E. subst. split; [discriminate|]. intros H; exfalso; auto.
    - rewrite IH. split; intros H; [intros [->|]; auto; rewrite keqb_refl in E; discriminate|auto].
  Qed.

  Lemma dget_Some_In k v (d : list (K * V)) : get k d = Some v -> In (k, v) d.
  Proof.
    induction d as [|[k' v'] d IH]; simpl; [discriminate|].
    destruct (keqb k k') eqn:E; intros H.
    - apply Hk in E. injection H as ->. subst; auto.
    - auto.
  Qed.

  Lemma In_dget k v (d : list (K * V)) : NoDup (dkeys d) -> In (k, v) d -> get k d = Some v.
  Proof.
    induction d as [|[k' v'] d IH]; simpl; [tauto|].
    intros Hn [E|H]; inversion Hn; subst.
    - injection E as -> ->. rewrite keqb_refl; auto.
    - rewrite keqb_neq; auto. intros ->. apply H2. apply (in_map fst) in H. exact H.
  Qed.

  Lemma dget_Some_keys k v (d : list (K * V)) : get k d = Some v -> In k (dkeys d).
  Proof. intros H. apply dget_Some_In in H. apply (in_map fst) in H. exact H. Qed.

  Lemma dkeys_dset k v (d : list (K * V)) :
    dkeys (set k v d) = if dhas keqb k d then dkeys d else dkeys d ++ [k].
  Proof.
    unfold dhas. induction d as [|[k' v'] d IH]; simpl; auto.
    destruct (keqb k k') eqn:E; simpl; auto.
    rewrite IH. destruct (get k d); auto.
  Qed.

  Lemma dkeys_dset_In k v (d : list (K * V)) x : In x (dkeys (set k v d)) <-> x = k \/ In x (dkeys d).
  Proof.
    induction d as [|[k' v'] d IH]; simpl.
    - intuition.
    - destruct (keqb k k') eqn:E; simpl.
      + apply Hk in E. subst. intuition.
      + rewrite IH. intuition.
  Qed.

  Lemma dset_NoDup k v (d : list (K * V)) : NoDup (dkeys d) -> NoDup (dkeys (set k v d)).
  Proof.
    induction d as [|[k' v'] d IH]; simpl; intros H.
    - constructor; auto; constructor.
    - inversion H; subst. destruct (keqb k k') eqn:E; simpl; constructor; auto.
      intros Hin. apply dkeys_dset_In in Hin as [->|]; auto. rewrite keqb_refl in E; discriminate.
  Qed.

  Lemma dset_notin k v (d : list (K * V)) : ~ In k (dkeys d) -> set k v d = d ++ [(k, v)].
  Proof.
    induction d as [|[k' v'] d IH]; simpl; intros H; auto.
    rewrite keqb_neq by (intros ->; auto). rewrite IH by auto. reflexivity.
  Qed.

  Lemma dget_app k (a b : list (K * V)) :
    get k (a ++ b) = match get k a with Some v => Some v | None => get k b end.
  Proof.
    induction a as [|[k' v'] a IH]; simpl; auto. destruct (keqb k k'); auto.
  Qed.
End DictFacts.

(** ** stable sort *)
Section SortFacts.
  Context {A : Type} (leb : A -> A -> bool).

  Lemma insert_perm x l : Permutation (insert leb x l) (x :: l).
  Proof.
    induction l as [|y l IH]; simpl; auto.
    destruct (leb x y); auto.
    rewrite IH. apply perm_swap.
  Qed.

  Lemma isort_perm l : Permutation (isort leb l) l.
  Proof.
    induction l as [|x l IH]; simpl; auto. rewrite insert_perm. auto.
  Qed.

  Lemma isort_In x l : In x (isort leb l) <-> In x l.
  Proof.
    split; apply Permutation_in; [|apply Permutation_sym]; apply isort_perm.
  Qed.

  Lemma isort_length l : length (isort leb l) = length l.
  Proof. apply Permutation_length, isort_perm. Qed.

  Lemma isort_NoDup l : NoDup l -> NoDup (isort leb l).
  Proof. apply Permutation_NoDup, Permutation_sym, isort_perm. Qed.

  Context (Htot : forall x y, leb x y = true \/ leb y x = true).
  Context (Htrans : forall x y z, leb x y = true -> leb y z = true -> leb x z = true).

  Definition le x y := leb x y = true.

  Lemma insert_sorted x l : StronglySorted le l -> StronglySorted le (insert leb x l).
  Proof.
    induction 1 as [|y l Hs IH Hf]; simpl.
    - constructor; constructor.
    - destruct (leb x y) eqn:E.
      + constructor.
        * constructor; auto.
        * constructor; auto. eapply Forall_impl; [|exact Hf]. intros z Hz. eapply Htrans; eauto.
      + constructor; auto. apply Forall_forall. intros z Hz.
        apply (Permutation_in _ (insert_perm x l)) in Hz. destruct Hz as [<-|Hz].
        * destruct (Htot x y); [congruence|auto].
        * rewrite Forall_forall in Hf. auto.
  Qed.

  Lemma isort_sorted l : StronglySorted le (isort leb l).
  Proof. induction l; simpl; [constructor|]. apply insert_sorted; auto. Qed.

  Lemma insert_min x l : Forall (le x) l -> insert leb x l = x :: l.
  Proof.
    destruct l as [|y l]; simpl; auto. intros H. inversion H; subst. unfold le in *.
    rewrite H2. reflexivity.
  Qed.

  Lemma isort_id l : StronglySorted le l -> isort leb l = l.
  Proof.
    induction 1 as [|x l Hs IH Hf]; simpl; auto. rewrite IH. apply insert_min; auto.
  Qed.

  Lemma isort_idem l : isort leb (isort leb l) = isort leb l.
  Proof. apply isort_id, isort_sorted. Qed.

  (** inserting elements of a list one by one into an already sorted tail *)
  Lemma isort_app a b : isort leb (a ++ b) = fold_right (insert leb) (isort leb b) a.
  Proof. induction a as [|x a IH]; simpl; auto. rewrite IH; auto. Qed.

  Lemma isort_app_r a b : isort leb (a ++ isort leb b) = isort leb (a ++ b).
  Proof. rewrite !isort_app, isort_idem; auto. Qed.

  Definition lt x y := leb y x = false.

  Lemma lt_le x y : lt x y -> le x y.
  Proof. unfold lt, le. intros H. destruct (Htot x y); congruence. Qed.

  (** inserting commutes when the elements are strictly ordered, or keeps arrival order *)
  Lemma insert_insert_le x y l : le x y -> StronglySorted le l ->
    insert leb x (insert leb y l) = insert leb x (insert leb y l).
  Proof. reflexivity. Qed.

  Lemma insert_comm_lt x y l : lt y x ->
    insert leb x (insert leb y l) = insert leb y (insert leb x l).
  Proof.
    unfold lt. intros H. assert (Hyx : leb y x = true) by (destruct (Htot x y); congruence).
    induction l as [|z l IH]; simpl.
    - rewrite H, Hyx. reflexivity.
    - destruct (leb y z) eqn:Eyz; simpl; destruct (leb x z) eqn:Exz; simpl; rewrite ?H, ?Hyx, ?Eyz, ?Exz; auto.
      + exfalso. assert (leb y z = true) by eauto. congruence.
      + rewrite IH. reflexivity.
  Qed.

  (** stability, in the form: an element goes after all elements of the prefix that are
      not greater than it, i.e. sorting a prefix first changes nothing *)
  Lemma isort_app_l a b : isort leb (isort leb a ++ b) = isort leb (a ++ b).
  Proof.
    rewrite !isort_app. set (s := isort leb b). clearbody s.
    induction a as [|x a IH]; simpl; auto. rewrite <- IH.
    generalize (isort_sorted a). generalize (isort leb a). clear IH a. intros l Hs. revert s.
    induction Hs as [|y l Hs IH Hf]; intros s; simpl; auto.
    destruct (leb x y) eqn:E; simpl; auto.
    rewrite IH. symmetry. apply insert_comm_lt. exact E.
  Qed.

  (** truncation: elements beyond the first n of a sorted prefix never make it in the first n *)
  Lemma firstn_insert n x l :
    firstn n (insert leb x (firstn n l)) = firstn n (insert leb x l).
  Proof.
    revert n. induction l as [|y l IH]; intros n.
    - rewrite firstn_nil. reflexivity.
    - destruct n as [|n]; [reflexivity|]. simpl firstn at 2. simpl insert.
      destruct (leb x y).
      + change (x :: firstn n (firstn (S n) (y :: l)) = x :: firstn n (y :: l)). f_equal.
        rewrite firstn_firstn. f_equal. lia.
      + simpl. f_equal. apply IH.
  Qed.

  Lemma firstn_fold_insert n a l :
    firstn n (fold_right (insert leb) (firstn n l) a) = firstn n (fold_right (insert leb) l a).
  Proof.
    induction a as [|x a IH]; simpl.
    - rewrite firstn_firstn. f_equal. lia.
    - rewrite <- firstn_insert, IH, firstn_insert. reflexivity.
  Qed.

  (** the same for a sorted prefix followed by later arrivals: needs the insertion of
      later arrivals to the right, expressed with the mirrored sort *)
  Lemma StronglySorted_app_inv (R : A -> A -> Prop) a b : StronglySorted R (a ++ b) ->
    StronglySorted R a /\ StronglySorted R b /\ forall x y, In x a -> In y b -> R x y.
  Proof.
    induction a as [|x a IH]; simpl; intros H.
    - repeat split; auto; [constructor|]. intros; contradiction.
    - inversion H as [|? ? H1 H2]; subst. apply IH in H1 as (Ha & Hb & Hab).
      apply Forall_app in H2 as [H2 H3]. repeat split; auto.
      + constructor; auto.
      + intros u v [<-|Hu] Hv; [rewrite Forall_forall in H3; auto|auto].
  Qed.

  (** uniqueness of sorting for antisymmetric orders *)
  Lemma sorted_perm_unique (R : A -> A -> Prop) (Hanti : forall x y, R x y -> R y x -> x = y) a b :
    StronglySorted R a -> StronglySorted R b -> Permutation a b -> a = b.
  Proof.
    intros Ha. revert b. induction Ha as [|x a Ha IH Hf]; intros b Hb Hp.
    - apply Permutation_nil in Hp. auto.
    - destruct b as [|y b]; [apply Permutation_sym, Permutation_nil in Hp; discriminate|].
      inversion Hb as [|? ? Hb1 Hb2]; subst.
      assert (x = y).
      { assert (Hx : In x (y :: b)) by (eapply Permutation_in; [exact Hp|left; auto]).
        assert (Hy : In y (x :: a)) by (eapply Permutation_in; [apply Permutation_sym; exact Hp|left; auto]).
        destruct Hx as [->|Hx]; auto. destruct Hy as [->|Hy]; auto.
        rewrite Forall_forall in Hf, Hb2. apply Hanti; auto. }
      subst y. f_equal. apply IH; auto. eapply Permutation_cons_inv; eauto.
  Qed.

  Lemma isort_perm_eq (Hanti : forall x y, leb x y = true -> leb y x = true -> x = y) a b :
    Permutation a b -> isort leb a = isort leb b.
  Proof.
    intros H. apply (sorted_perm_unique le Hanti); try apply isort_sorted.
    rewrite !isort_perm. exact H.
  Qed.

  (** the stable sort keeps the relative order of elements which are equivalent *)
  Lemma filter_insert_eq (f : A -> bool) x l :
    (forall y, In y l -> f y = true -> f x = true -> leb x y = true) ->
    filter f (insert leb x l) = filter f (x :: l).
  Proof.
    induction l as [|y l IH]; intros H; auto.
    simpl insert. destruct (leb x y) eqn:E; auto.
    simpl in *. rewrite IH by auto.
    destruct (f x) eqn:Ex; auto. destruct (f y) eqn:Ey; auto.
    rewrite H in E by auto. discriminate.
  Qed.

  Lemma isort_stable (f : A -> bool) l :
    (forall x y, f x = true -> f y = true -> leb x y = true) ->
    filter f (isort leb l) = filter f l.
  Proof.
    intros H. induction l as [|x l IH]; auto. simpl isort.
    rewrite filter_insert_eq by auto. simpl. rewrite IH. reflexivity.
  Qed.
End SortFacts.

(** ** order on strings *)
Lemma N_of_ascii_inj a b : N_of_ascii a = N_of_ascii b -> a = b.
Proof.
  intros H. rewrite <- (ascii_N_embedding a), <- (ascii_N_embedding b), H. reflexivity.
Qed.

Lemma str_compare_refl a : str_compare a a = Eq.
Proof. induction a as [|c a IH]; simpl; auto. rewrite N.compare_refl. auto. Qed.

Lemma str_compare_eq a b : str_compare a b = Eq -> a = b.
Proof.
  revert b. induction a as [|c a IH]; destruct b as [|d b]; simpl; try discriminate; auto.
  destruct (N.compare_spec (N_of_ascii c) (N_of_ascii d)); try discriminate.
  intros H1. apply N_of_ascii_inj in H. apply IH in H1. subst; auto.
Qed.

Lemma str_compare_antisym a b : str_compare b a = CompOpp (str_compare a b).
Proof.
  revert b. induction a as [|c a IH]; destruct b as [|d b]; simpl; auto.
  rewrite N.compare_antisym. destruct (N.compare (N_of_ascii c) (N_of_ascii d)); simpl; auto.
Qed.

Lemma str_compare_lt_trans a b c :
  str_compare a b = Lt -> str_compare b c = Lt -> str_compare a c = Lt.
Proof.
  revert b c. induction a as [|x a IH]; intros [|y b] [|z c]; simpl; try discriminate; auto.
  destruct (N.compare_spec (N_of_ascii x) (N_of_ascii y)); try discriminate;
  destruct (N.compare_spec (N_of_ascii y) (N_of_ascii z)); try discriminate; intros H1 H2.
  - replace (N.compare (N_of_ascii x) (N_of_ascii z)) with Eq by (symmetry; apply N.compare_eq_iff; congruence).
    eauto.
  - replace (N.compare (N_of_ascii x) (N_of_ascii z)) with Lt by (symmetry; apply N.compare_lt_iff; lia). auto.
  - replace (N.compare (N_of_ascii x) (N_of_ascii z)) with Lt by (symmetry; apply N.compare_lt_iff; lia). auto.
  - replace (N.compare (N_of_ascii x) (N_of_ascii z)) with Lt by (symmetry; apply N.compare_lt_iff; lia). auto.
Qed.

Lemma str_leb_total a b : str_leb a b = true \/ str_leb b a = true.
Proof.
  unfold str_leb. rewrite (str_compare_antisym a b). destruct (str_compare a b); simpl; auto.
Qed.

Lemma str_leb_trans a b c : str_leb a b = true -> str_leb b c = true -> str_leb a c = true.
Proof.
  unfold str_leb. destruct (str_compare a b) eqn:E1; try discriminate;
  destruct (str_compare b c) eqn:E2; try discriminate; intros _ _.
  - apply str_compare_eq in E1. subst. rewrite E2. auto.
  - apply str_compare_eq in E1. subst. rewrite E2. auto.
  - apply str_compare_eq in E2. subst. rewrite E1. auto.
  - rewrite (str_compare_lt_trans _ _ _ E1 E2). auto.
Qed.

Lemma str_leb_antisym a b : str_leb a b = true -> str_leb b a = true -> a = b.
Proof.
  unfold str_leb. rewrite (str_compare_antisym a b). destruct (str_compare a b) eqn:E; simpl; try discriminate.
  intros _ _. apply str_compare_eq; auto.
Qed.

Lemma str_leb_refl a : str_leb a a = true.
Proof. unfold str_leb. rewrite str_compare_refl. auto. Qed.

Lemma sorted_str_sorted l : StronglySorted (fun a b => str_leb a b = true) (sorted_str l).
Proof. apply (isort_sorted str_leb str_leb_total str_leb_trans). Qed.

Lemma sorted_str_In x l : In x (sorted_str l) <-> In x l.
Proof. apply isort_In. Qed.

Lemma sorted_str_perm_eq a b : Permutation a b -> sorted_str a = sorted_str b.
Proof. apply isort_perm_eq; [apply str_leb_total|apply str_leb_trans|apply str_leb_antisym]. Qed.

Lemma sorted_str_idem l : sorted_str (sorted_str l) = sorted_str l.
Proof. apply isort_idem; [apply str_leb_total|apply str_leb_trans]. Qed.

(** ** characters *)
Lemma N_of_ascii_bound c : (N_of_ascii c < 256)%N.
Proof. apply N_ascii_bounded. Qed.

Lemma ascii_of_N_of n : (n < 256)%N -> N_of_ascii (ascii_of_N n) = n.
Proof. apply N_ascii_embedding. Qed.

(** check a boolean property of all 256 characters by computation *)
Definition all_chars : list ascii := map (fun n => ascii_of_N (N.of_nat n)) (seq 0 256).
Lemma all_chars_complete c : In c all_chars.
Proof.
  unfold all_chars. apply in_map_iff. exists (N.to_nat (N_of_ascii c)). split.
  - rewrite N2Nat.id. apply ascii_N_embedding.
  - apply in_seq. pose proof (N_of_ascii_bound c). lia.
Qed.
Lemma forall_chars (f : ascii -> bool) : forallb f all_chars = true -> forall c, f c = true.
Proof. intros H c. rewrite forallb_forall in H. apply H, all_chars_complete. Qed.

(** ** decimal numbers *)
Lemma digit_is_digit n : (n < 10)%N -> is_digit (digit n) = true.
Proof.
  intros H. unfold is_digit, digit. rewrite ascii_of_N_of by lia. lia.
Qed.

Lemma digit_val_digit n : (n < 10)%N -> digit_val (digit n) = Some n.
Proof.
  intros H. unfold digit_val. rewrite digit_is_digit by auto. unfold digit.
  rewrite ascii_of_N_of by lia. f_equal. lia.
Qed.

Lemma undec_acc_app acc a b :
  undec_acc acc (a ++ b) = match undec_acc acc a with Some x => undec_acc x b | None => None end.
Proof.
  revert acc. induction a as [|c a IH]; intros acc; simpl; auto.
  destruct (digit_val c); auto.
Qed.

(** [dec_fuel] writes the digits of n in front of acc *)
Lemma dec_fuel_app f n acc : dec_fuel f n acc = dec_fuel f n [] ++ acc.
Proof.
  revert n acc. induction f as [|f IH]; intros n acc; simpl; auto.
  destruct (n / 10 =? 0)%N; auto. rewrite IH, (IH (n / 10)%N [_]), <- app_assoc. reflexivity.
Qed.

Lemma log2_div10 n : (n / 10 <> 0)%N -> (N.log2 (n / 10) < N.log2 n)%N.
Proof.
  intros H.
  assert (Hn : (10 <= n)%N). { destruct (N.lt_ge_cases n 10); auto. rewrite N.div_small in H by auto. congruence. }
  assert (H2 : (n / 10 <= n / 2)%N) by (zify; lia).
  apply N.log2_le_mono in H2.
  assert (H3 : N.log2 (n / 2) = N.pred (N.log2 n)).
  { rewrite <- N.div2_div. rewrite N.div2_spec. rewrite N.log2_shiftr. lia. }
  assert (0 < N.log2 n)%N by (apply N.log2_pos; lia). lia.
Qed.

Lemma undec_dec_fuel f n : (N.to_nat (N.log2 n) < f)%nat -> undec_acc 0 (dec_fuel f n []) = Some n.
Proof.
  revert n. induction f as [|f IH]; intros n H; [lia|].
  cbn [dec_fuel]. destruct (N.eqb_spec (n / 10) 0) as [E|E].
  - cbn [undec_acc]. rewrite digit_val_digit by (apply N.mod_lt; lia).
    f_equal. zify; lia.
  - rewrite dec_fuel_app, undec_acc_app, IH.
    + cbn [undec_acc]. rewrite digit_val_digit by (apply N.mod_lt; lia). f_equal. zify; lia.
    + pose proof (log2_div10 n E). lia.
Qed.

Lemma dec_nonempty n : dec n <> [].
Proof.
  unfold dec. cbn [dec_fuel]. destruct (n / 10 =? 0)%N; [discriminate|].
  rewrite dec_fuel_app. intros H. apply app_eq_nil in H as [_ H]. discriminate.
Qed.

Lemma undec_acc_dec n : undec_acc 0 (dec n) = Some n.
Proof. apply undec_dec_fuel. lia. Qed.

Lemma undec_dec n : undec (dec n) = Some n.
Proof.
  unfold undec. pose proof (dec_nonempty n). destruct (dec n) eqn:E; [congruence|].
  rewrite <- E. apply undec_acc_dec.
Qed.

Lemma dec_inj a b : dec a = dec b -> a = b.
Proof. intros H. apply (f_equal undec) in H. rewrite !undec_dec in H. congruence. Qed.

Lemma dec_digits n c : In c (dec n) -> is_digit c = true.
Proof.
  unfold dec. generalize (S (N.to_nat (N.log2 n))). intros f. revert n.
  induction f as [|f IH]; intros n; cbn [dec_fuel]; [contradiction|].
  destruct (n / 10 =? 0)%N.
  - intros [<-|[]]. apply digit_is_digit, N.mod_lt. lia.
  - rewrite dec_fuel_app. intros H. apply in_app_or in H as [H|[<-|[]]]; eauto.
    apply digit_is_digit, N.mod_lt. lia.
Qed.

Lemma undec_acc_zeros k s : undec_acc 0 (repeat "0"%char k ++ s) = undec_acc 0 s.
Proof. induction k; simpl; auto. Qed.

Lemma undec_dec_pad w n : undec (dec_pad w n) = Some n.
Proof.
  unfold undec, dec_pad, pad_left. pose proof (dec_nonempty n) as Hn.
  destruct (repeat "0"%char (w - length (dec n)) ++ dec n) eqn:E.
  - apply app_eq_nil in E as [_ E]. congruence.
  - rewrite <- E, undec_acc_zeros. apply undec_acc_dec.
Qed.

Lemma dec_pad_inj w a b : dec_pad w a = dec_pad w b -> a = b.
Proof. intros H. apply (f_equal undec) in H. rewrite !undec_dec_pad in H. congruence. Qed.

Lemma dec_pad_digits w n c : In c (dec_pad w n) -> is_digit c = true.
Proof.
  unfold dec_pad, pad_left. intros H. apply in_app_or in H as [H|H].
  - apply repeat_spec in H. subst. reflexivity.
  - eapply dec_digits; eauto.
Qed.

Lemma dec_length_bound n k : (0 < k)%nat -> (n < 10 ^ N.of_nat k)%N -> (length (dec n) <= k)%nat.
Proof.
  intros Hk. unfold dec.
  assert (H : forall f, (N.to_nat (N.log2 n) < f)%nat -> (n < 10 ^ N.of_nat k)%N -> (length (dec_fuel f n []) <= k)%nat).
  { clear -Hk. intros f. revert n k Hk. induction f as [|f IH]; intros n k Hk Hf Hn; [lia|].
    cbn [dec_fuel]. destruct (N.eqb_spec (n / 10) 0) as [E|E]; [simpl; lia|].
    rewrite dec_fuel_app, app_length. simpl.
    destruct k as [|k]; [lia|].
    destruct k as [|k].
    { exfalso. apply E. apply N.div_small. exact Hn. }
    assert (length (dec_fuel f (n / 10) []) <= S k)%nat; [|lia].
    apply IH; [lia| |].
    - pose proof (log2_div10 n E). lia.
    - apply N.div_lt_upper_bound; [lia|]. rewrite <- N.pow_succ_r', <- Nat2N.inj_succ. exact Hn. }
  apply H. lia.
Qed.

Lemma dec_pad_length w n : (0 < w)%nat -> (n < 10 ^ N.of_nat w)%N -> length (dec_pad w n) = w.
Proof.
  intros Hw H. unfold dec_pad, pad_left. rewrite app_length, repeat_length.
  pose proof (dec_length_bound n w Hw H). lia.
Qed.

Lemma decZ_inj a b : decZ a = decZ b -> a = b.
Proof.
  unfold decZ. destruct (a <? 0)%Z eqn:Ea; destruct (b <? 0)%Z eqn:Eb; intros H.
  - injection H as H. apply dec_inj in H. lia.
  - exfalso. assert (Hd : In "-"%char (dec (Z.to_N b))) by (rewrite <- H; simpl; auto).
    apply dec_digits in Hd. discriminate.
  - exfalso. assert (Hd : In "-"%char (dec (Z.to_N a))) by (rewrite H; simpl; auto).
    apply dec_digits in Hd. discriminate.
  - apply dec_inj in H. lia.
Qed.

(** ** results *)
Lemma mapM_Ok {A B} (f : A -> B) l : mapM (fun x => Ok (f x)) l = Ok (map f l).
Proof. induction l as [|x l IH]; simpl; auto. rewrite IH. reflexivity. Qed.

Lemma mapM_ext {A B} (f g : A -> result B) l :
  (forall x, In x l -> f x = g x) -> mapM f l = mapM g l.
Proof.
  induction l as [|x l IH]; simpl; intros H; auto. rewrite H by auto. rewrite IH by auto. reflexivity.
Qed.

Lemma bind_Ok {A B} (r : result A) (f : A -> result B) b :
  bind r f = Ok b <-> exists a, r = Ok a /\ f a = Ok b.
Proof.
  destruct r as [a|e]; simpl; split; try discriminate; eauto.
  - intros (a' & E & H). injection E as ->. auto.
  - intros (a' & E & H). discriminate.
Qed.

(** ** firstn / skipn helpers *)
Lemma firstn_app_le {A} n (a b : list A) : (n <= length a)%nat -> firstn n (a ++ b) = firstn n a.
Proof.
  intros H. rewrite firstn_app. replace (n - length a)%nat with 0%nat by lia.
  simpl. rewrite app_nil_r. reflexivity.
Qed.

Lemma skipn_app_le {A} n (a b : list A) : (n <= length a)%nat -> skipn n (a ++ b) = skipn n a ++ b.
Proof.
  intros H. rewrite skipn_app. replace (n - length a)%nat with 0%nat by lia. reflexivity.
Qed.

Lemma In_firstn {A} n (l : list A) x : In x (firstn n l) -> In x l.
Proof.
  revert n; induction l as [|y l IH]; intros [|n]; simpl; auto; try tauto.
  intros [->|H]; eauto.
Qed.

Lemma In_skipn {A} n (l : list A) x : In x (skipn n l) -> In x l.
Proof.
  revert n; induction l as [|y l IH]; intros [|n]; simpl; auto. eauto.
Qed.

(** ** Substrings and path components *)
Lemma split_app c u v : exists pre x y post,
  split c u = pre ++ [x] /\ split c v = y :: post /\ split c (u ++ v) = pre ++ (x ++ y) :: post.
Proof.
  induction u as [|d u IH]; simpl.
  - destruct (split c v) as [|y post] eqn:E; [destruct (split_nonempty c v E)|].
    exists [], [], y, post. auto.
  - destruct IH as (pre & x & y & post & H1 & H2 & H3).
    destruct (Ascii.eqb c d).
    + exists ([] :: pre), x, y, post. rewrite H1, H3. auto.
    + rewrite H1, H3. destruct pre as [|w ws]; simpl.
      * exists [], (d :: x), y, post. auto.
      * exists ((d :: w) :: ws), x, y, post. auto.
Qed.

Lemma app_single_inj {A} (a b : list A) x y : a ++ [x] = b ++ [y] -> a = b /\ x = y.
Proof. apply app_inj_tail. Qed.

Lemma contains_join c (a : str) (mid : list str) (b : str) (l : list str) :
  (forall w, In w (a :: mid ++ [b]) -> ~ In c w) -> l <> [] -> (forall w, In w l -> ~ In c w) ->
  contains (join [c] (a :: mid ++ [b])) (join [c] l) = true <->
  exists (pre : list str) (x y : str) (post : list str), l = pre ++ (x ++ a : str) :: mid ++ (b ++ y : str) :: post.
Proof.
  intros Hn Hl0 Hl. rewrite contains_iff. split.
  - intros (u & v & E).
    apply (f_equal (split c)) in E. rewrite split_join in E by auto.
    destruct (split_app c u (join [c] (a :: mid ++ [b]) ++ v)) as (pre & x & y & post & H1 & H2 & H3).
    rewrite H3 in E.
    destruct (split_app c (join [c] (a :: mid ++ [b])) v) as (pre' & x' & y' & post' & H1' & H2' & H3').
    rewrite split_join in H1' by (auto; discriminate).
    rewrite H3' in H2.
    assert (Hp: pre' = a :: mid /\ x' = b).
    { apply app_inj_tail. rewrite <- H1'. reflexivity. }
    destruct Hp as [-> ->]. simpl in H2. injection H2 as <- <-.
    exists pre, x, y', post'. exact E.
  - intros (pre & x & y & post & ->).
    assert (G: forall s t : list str, exists u v : str, join [c] (s ++ (x ++ a : str) :: mid ++ (b ++ y : str) :: t)
                = u ++ join [c] (a :: mid ++ [b]) ++ v).
    { clear. intros s t.
      assert (Hh: exists v, join [c] ((x ++ a) :: mid ++ (b ++ y) :: t) = x ++ join [c] (a :: mid ++ [b]) ++ v).
      { rewrite join_cons by (destruct mid; discriminate).
        rewrite (join_cons _ a) by (destruct mid; discriminate).
        assert (Hm: exists v, join [c] (mid ++ (b ++ y) :: t) = join [c] (mid ++ [b]) ++ v).
        { destruct mid as [|m mid].
          - simpl app. destruct t as [|t0 t]; [exists y; reflexivity|].
            rewrite join_cons by discriminate. simpl (join [c] [b]). exists (y ++ [c] ++ join [c] (t0 :: t)).
            rewrite <- app_assoc. reflexivity.
          - rewrite !(join_app [c] (m :: mid)) by discriminate.
            destruct t as [|t0 t]; [exists y; simpl join; now rewrite <- !app_assoc|].
            rewrite (join_cons _ (b ++ y)) by discriminate. exists (y ++ [c] ++ join [c] (t0 :: t)).
            simpl (join [c] [b]). rewrite <- !app_assoc. reflexivity. }
        destruct Hm as [v ->]. exists v. rewrite <- !app_assoc. reflexivity. }
      destruct s as [|s0 s].
      - destruct Hh as [v Hv]. exists x, v. exact Hv.
      - destruct Hh as [v Hv]. rewrite join_app by discriminate. rewrite Hv.
        exists (join [c] (s0 :: s) ++ [c] ++ x), v. rewrite <- !app_assoc. reflexivity. }
    destruct (G pre post) as (u & v & E). exists u, v. exact E.
Qed.

Lemma contains_join_in c (n : str) (l : list str) : ~ In c n -> l <> [] -> (forall w, In w l -> ~ In c w) ->
  contains n (join [c] l) = true <-> exists w, In w l /\ contains n w = true.
Proof.
  intros Hn Hl0 Hl. split.
  - rewrite contains_iff. intros (u & v & E).
    apply (f_equal (split c)) in E. rewrite split_join in E by auto.
    destruct (split_app c u (n ++ v)) as (pre & x & y & post & H1 & H2 & H3).
    rewrite H3 in E.
    destruct (split_app c n v) as (pre' & x' & y' & post' & H1' & H2' & H3').
    rewrite split_single in H1' by auto.
    assert (Hp: pre' = [] /\ x' = n) by (apply app_inj_tail; rewrite <- H1'; reflexivity).
    destruct Hp as [-> ->]. rewrite H3' in H2. simpl in H2. injection H2 as <- <-.
    exists (x ++ n ++ y'). split.
    + rewrite E. apply in_app_iff. right. left. reflexivity.
    + apply contains_iff. eauto.
  - intros (w & Hw & Hc). apply in_split in Hw. destruct Hw as (s & t & ->).
    apply contains_iff in Hc. destruct Hc as (u & v & ->).
    assert (G: exists v', join [c] ((u ++ n ++ v) :: t) = u ++ n ++ v').
    { destruct t as [|t0 t]; [exists v; reflexivity|].
      rewrite join_cons by discriminate. eexists. rewrite <- !app_assoc. reflexivity. }
    destruct G as [v' G]. apply contains_iff.
    destruct s as [|s0 s].
    + simpl app. rewrite G. eauto.
    + rewrite join_app by discriminate. rewrite G.
      exists (join [c] (s0 :: s) ++ [c] ++ u), v'. rewrite <- !app_assoc. reflexivity.
Qed.

Lemma find_app {A} (f : A -> bool) a b :
  find f (a ++ b) = match find f a with Some x => Some x | None => find f b end.
Proof. induction a as [|x a IH]; simpl; auto. destruct (f x); auto. Qed.

Lemma NoDup_flat_map {A B} (f : A -> list B) l :
  NoDup l -> (forall x, In x l -> NoDup (f x)) ->
  (forall x y z, In x l -> In y l -> In z (f x) -> In z (f y) -> x = y) -> NoDup (flat_map f l).
Proof.
  induction l as [|x l IH]; simpl; intros Hn Hf Hd; [constructor|].
  inversion Hn; subst.
  assert (NoDup (flat_map f l)) by (apply IH; eauto).
  assert (NoDup (f x)) by auto.
  assert (Hdis: forall z, In z (f x) -> ~ In z (flat_map f l)).
  { intros z Hz Hz'. apply in_flat_map in Hz'. destruct Hz' as (y & Hy & Hzy).
    assert (x = y) by (apply (Hd x y z); auto). subst y. contradiction. }
  clear -H H0 Hdis. induction (f x) as [|a fx IH]; simpl; auto.
  inversion H0; subst. constructor.
  - rewrite in_app_iff. intros [|Hq]; auto. apply (Hdis a); simpl; auto.
  - apply IH; auto. intros z Hz. apply Hdis. simpl; auto.
Qed.

Lemma NoDup_map_inj {A B} (f : A -> B) l :
  (forall x y, In x l -> In y l -> f x = f y -> x = y) -> NoDup l -> NoDup (map f l).
Proof.
  induction l as [|x l IH]; simpl; intros Hi Hn; constructor; inversion Hn; subst.
  - rewrite in_map_iff. intros (y & E & Hy). assert (y = x) by auto. subst. contradiction.
  - apply IH; auto.
Qed.

(** ** replace *)
Lemma replace_fuel_enough old new n m s : old <> [] -> (length s < n)%nat -> (length s < m)%nat ->
  replace_fuel n old new s = replace_fuel m old new s.
Proof.
  intros Ho. revert m s. induction n as [|n IH]; intros m s Hn Hm; [lia|].
  destruct m as [|m]; [lia|]. cbn [replace_fuel]. destruct s as [|c s]; auto.
  cbn [length] in *. destruct (startswith old (c :: s)).
  - f_equal. apply IH; destruct old as [|o old]; try congruence; cbn [length skipn];
      rewrite skipn_length; lia.
  - f_equal. apply IH; lia.
Qed.

Lemma replace_cons old new c s : old <> [] ->
  replace old new (c :: s) =
  if startswith old (c :: s) then new ++ replace old new (skipn (length old) (c :: s))
  else c :: replace old new s.
Proof.
  intros Ho. unfold replace at 1. cbn [replace_fuel]. cbn [length].
  destruct (startswith old (c :: s)).
  - f_equal. apply replace_fuel_enough; auto; destruct old as [|o old]; try congruence; cbn [length skipn];
      rewrite ?skipn_length; lia.
  - f_equal.
Qed.

Lemma replace_nil old new : replace old new [] = [].
Proof. reflexivity. Qed.

(** text without the first character of [old] is passed over *)
Lemma replace_skip o old new a s : ~ In o a -> replace (o :: old) new (a ++ s) = a ++ replace (o :: old) new s.
Proof.
  induction a as [|c a IH]; intros Hn; auto.
  cbn [app]. rewrite replace_cons by discriminate. cbn [startswith].
  destruct (Ascii.eqb_spec o c) as [->|Hne]; [exfalso; apply Hn; left; auto|].
  cbn [andb]. f_equal. apply IH. intros H. apply Hn. right. auto.
Qed.

Lemma replace_here old new s : old <> [] -> replace old new (old ++ s) = new ++ replace old new s.
Proof.
  intros Ho. destruct old as [|o old]; [congruence|]. cbn [app]. rewrite replace_cons by discriminate.
  change (o :: old ++ s) with ((o :: old) ++ s).
  rewrite startswith_app. f_equal. f_equal. rewrite skipn_app, skipn_all. cbn [length].
  replace (S (length old) - S (length old))%nat with O by lia. reflexivity.
Qed.

Lemma replace_none old new s : old <> [] -> contains old s = false -> replace old new s = s.
Proof.
  intros Ho. induction s as [|c s IH]; auto. intros H. cbn [contains] in H.
  apply orb_false_iff in H. destruct H as [H1 H2]. rewrite replace_cons by auto. rewrite H1.
  f_equal. auto.
Qed.

Lemma split_prefix c a s : ~ In c a ->
  split c (a ++ s) = match split c s with w :: l => (a ++ w) :: l | [] => [] end.
Proof.
  pose proof (split_nonempty c s) as N.
  induction a as [|d a IH]; intros H; cbn [app].
  - destruct (split c s); auto.
  - assert (E: Ascii.eqb c d = false).
    { destruct (Ascii.eqb_spec c d) as [->|]; auto. exfalso. apply H. left. auto. }
    cbn [split]. rewrite E, IH by (intros X; apply H; right; auto).
    destruct (split c s); [congruence|reflexivity].
Qed.
