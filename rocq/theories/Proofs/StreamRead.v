(** Proofs: what a stream writer stored is what a reader reads. *)
From Coq Require Import Sorted Permutation.
From Verif.Base Require Import Py PyFacts Value ValueFacts.
From Verif.Model Require Import Paths Dates Frames ReadRange Cursor Storage Writers Stream Reader.
From Verif.Spec Require Import Paths Dates Frames Cursor Json Writers Stream Reader StreamRead.
From Verif.Proofs Require Import Paths Dates Writers Json Cursor Batch Reader RoundTrip Stream StreamPaths StreamPool.
From Verif.Proofs Require Frames ReadRange.

(** ** Lists *)
Lemma sorted_filter {A} (lt : A -> A -> Prop) p l : StronglySorted lt l -> StronglySorted lt (filter p l).
Proof.
  induction 1 as [|a l S IH F]; cbn [filter]; [constructor|]. destruct (p a); auto. constructor; auto.
  rewrite Forall_forall in *. intros x H. apply filter_In in H as [H _]. auto.
Qed.
Lemma sorted_map {A B} (f : A -> B) (lt : A -> A -> Prop) (lt' : B -> B -> Prop) l :
  (forall a b, In a l -> In b l -> lt a b -> lt' (f a) (f b)) -> StronglySorted lt l -> StronglySorted lt' (map f l).
Proof.
  intros H. induction 1 as [|a l S IH F]; cbn [map]; constructor.
  - apply IH. intros x y Hx Hy. apply H; right; auto.
  - rewrite Forall_forall in *. intros y Hy. apply in_map_iff in Hy as (x & <- & Hx). apply H; [left|right|]; auto.
Qed.
Lemma sorted_unmap {A B} (f : A -> B) (lt : B -> B -> Prop) l :
  StronglySorted lt (map f l) -> StronglySorted (fun a b => lt (f a) (f b)) l.
Proof.
  induction l as [|a l IH]; intros S; [constructor|]. cbn [map] in S. apply StronglySorted_inv in S as [S F].
  constructor; auto. rewrite Forall_forall in *. intros x Hx. apply F. now apply in_map.
Qed.
Lemma sorted_flat {A B} (lt : B -> B -> Prop) (g : A -> list B) (lta : A -> A -> Prop) l :
  StronglySorted lta l -> (forall a, In a l -> StronglySorted lt (g a)) ->
  (forall a b x y, In a l -> In b l -> lta a b -> In x (g a) -> In y (g b) -> lt x y) ->
  StronglySorted lt (flat_map g l).
Proof.
  induction 1 as [|a l S IH F]; intros H1 H2; cbn [flat_map]; [constructor|].
  assert (T : StronglySorted lt (flat_map g l)).
  { apply IH; intros; [apply H1; right; auto|]. eapply (H2 a0 b); eauto; right; auto. }
  assert (K : forall x y, In x (g a) -> In y (flat_map g l) -> lt x y).
  { intros x y Hx Hy. apply in_flat_map in Hy as (b & Hb & Hy). rewrite Forall_forall in F.
    apply (H2 a b); auto; [left|right]; auto. }
  assert (G : StronglySorted lt (g a)) by (apply H1; left; auto).
  clear -T K G. induction G as [|z l0 S IH F]; cbn [app]; auto. constructor.
  - apply IH. intros. apply K; auto. right; auto.
  - rewrite Forall_forall in *. intros y Hy. apply in_app_iff in Hy as [Hy|Hy]; auto. apply K; auto. left; auto.
Qed.
Lemma map_flat_map {A B C} (f : B -> C) (g : A -> list B) l : map f (flat_map g l) = flat_map (fun a => map f (g a)) l.
Proof. induction l; cbn; [auto|]. now rewrite map_app, IHl. Qed.

Lemma split_app_sep c a b : split c (a ++ [c] ++ b) = split c a ++ split c b.
Proof.
  rewrite <- (join_split c a) at 1. rewrite <- (join_split c b) at 1.
  rewrite <- join_app by apply split_nonempty. apply split_join.
  - destruct (split c a) eqn:E; [now apply split_nonempty in E|discriminate].
  - intros w H. apply in_app_iff in H as [H|H]; eapply split_no_sep; eauto.
Qed.

Lemma content_of_In log : forall n d, content_of log n = Some d -> In (n, d) log.
Proof.
  induction log as [|[m c] log IH]; intros n d; cbn [content_of]; [discriminate|].
  destruct (content_of log n) as [x|] eqn:Ex.
  - intros [= ->]. right. auto.
  - destruct (str_eqb m n) eqn:Ea; [|discriminate]. intros [= ->]. apply str_eqb_eq in Ea. left. congruence.
Qed.
Lemma content_of_nodup log : NoDup (map fst log) -> forall n d, In (n, d) log -> content_of log n = Some d.
Proof.
  induction log as [|[m c] log IH]; intros N n d H; [destruct H|]. cbn [map fst] in N. inversion N as [|? ? Hn N']; subst.
  cbn [content_of]. destruct H as [[= -> ->]|H].
  - destruct (content_of log n) as [d'|] eqn:E.
    + exfalso. apply Hn. apply content_of_In in E. now apply (in_map fst) in E.
    + now rewrite str_eqb_refl.
  - now rewrite (IH N' n d H).
Qed.

Lemma get_list_ext pf store store' paths : (forall p, In p paths -> store p = store' p) ->
  get_list_of_blobs pf store paths = get_list_of_blobs pf store' paths.
Proof.
  intros H. unfold get_list_of_blobs.
  assert (H' : forall p, In p (dedup str_eqb paths) -> store p = store' p).
  { intros p Hp. apply H. apply dedup_In in Hp; auto. apply str_eqb_eq. }
  f_equal. clear H. induction (dedup str_eqb paths) as [|p l IH]; [reflexivity|]. cbn [mapM].
  rewrite H' by (left; auto). destruct (cycle_blobs_of pf (store' p)); cbn [bind]; auto.
  rewrite IH by (intros; apply H'; right; auto). reflexivity.
Qed.

(** the entry of a blob, from what follows the folder in its name *)
Definition entry_of (rest : str) : entry :=
  match split "/"%char rest with
  | [b; f; file] => mkEntry (Some (b, f)) None file
  | _ => mkEntry None None rest
  end.
Lemma entry_of_name p rest : name_in p (entry_of rest) = p ++ $"/" ++ rest.
Proof.
  unfold name_in. do 2 f_equal. unfold entry_of.
  destruct (split "/"%char rest) as [|b [|f [|file [|x l]]]] eqn:E; cbn [local_parts e_by e_frame e_file app]; try reflexivity.
  change [b; f; file] with ([b; f; file]). rewrite <- E. change $"/" with ["/"%char]. apply join_split.
Qed.

Section Files.
  Context {R V : Type} (M : streaming R V) (K : nat).
  Hypothesis CL : good_clock (m_base M) K.
  Notation file n := (file_of M (s_clock (m_base M) n)).
  Lemma file_lt n m : (n < m)%nat -> (m < K)%nat -> str_compare (file n) (file m) = Lt.
  Proof.
    intros H HK. unfold file_of. destruct CL as [C1 C2].
    rewrite !(hex_hexk 15) by (apply C1; lia). apply str_compare_app; [rewrite !hexk_length; auto|].
    apply hexk_lt; auto. apply C1; auto.
  Qed.
  Lemma file_inj n m : (n < K)%nat -> (m < K)%nat -> file n = file m -> n = m.
  Proof.
    intros Hn Hm E. destruct (lt_eq_lt_dec n m) as [[L|L]|L]; auto; exfalso.
    - pose proof (file_lt n m L Hm) as C. rewrite E, str_compare_refl in C. discriminate.
    - pose proof (file_lt m n L Hn) as C. rewrite E, str_compare_refl in C. discriminate.
  Qed.
  Lemma file_hex n : (n < K)%nat -> exists c1 c2 s, file n = c1 :: c2 :: s /\ hex_char c1 = true /\ hex_char c2 = true.
  Proof.
    intros HK. unfold file_of.
    assert (L: length (hex (s_clock (m_base M) n)) = 16%nat).
    { rewrite (hex_hexk 15) by (destruct CL as [C _]; apply (C n HK)). apply hexk_length. }
    assert (H: forall c, In c (hex (s_clock (m_base M) n)) -> hex_char c = true) by apply hex_chars.
    destruct (hex (s_clock (m_base M) n)) as [|c1 [|c2 s]]; try discriminate.
    exists c1, c2, (s ++ $"-" ++ s_node (m_base M) ++ extension (s_format (m_base M)) (m_ext M)).
    split; [reflexivity|]. split; apply H; cbn; auto.
  Qed.
End Files.

(** ** What was stored, read back *)
Section Core.
  Context (parse : str -> result value) (unzstd : str -> result str)
          (other : str -> str -> generator value) (read_blob : str -> result str).
  Context {V : Type} (M : streaming value V).
  Notation ext := (extension (s_format (m_base M)) (m_ext M)).
  Context (columns : value -> result value) (filters : value -> result bool) (cf : value -> value) (pf : value -> bool).
  Notation records := (blob_records parse unzstd other read_blob columns filters None).
  Context (e_ x_ : str) (fits : value -> Prop) (image : value -> value).
  Notation selected l := (filter pf (map cf (map image l))).
  Notation file n := (file_of M (s_clock (m_base M) n)).
  Hypothesis HX : ext = e_ ++ x_.
  Hypothesis HD : decodes_as parse unzstd other (m_base M) x_ fits image.
  Hypothesis PN : plain (s_node (m_base M)).
  Hypothesis PE : plain (m_ext M).
  Context (blobs : list (str * list value)) (w : world).
  Hypothesis TM : timed M blobs w.
  Hypothesis CL : good_clock (m_base M) (attempts w).
  Hypothesis RL : reads_log read_blob (puts w).

  Notation row := (nat * (str * list value) * str)%type.
  Definition put_of (x : row) : str * str := (nth_name M (snd (fst x), fst (fst x)), snd x).
  Lemma timed_rows : exists rows : list row,
    puts w = map put_of rows /\ blobs = map (fun x => snd (fst x)) rows /\
    StronglySorted Peano.lt (map (fun x => fst (fst x)) rows) /\
    Forall (fun x => (fst (fst x) < attempts w)%nat /\ holds (m_base M) (snd (snd (fst x))) (snd x) /\ snd (snd (fst x)) <> []) rows.
  Proof.
    destruct TM as (A & F & N). assert (L : length blobs = length (puts w)).
    { clear -F. induction F; cbn; congruence. }
    rewrite A.
    assert (G : forall bl log k, Forall2 (fun b put => holds (m_writer M (fst b)) (snd b) (snd put) /\ snd b <> []) bl log ->
       map fst log = map (nth_name M) (combine bl (seq k (length bl))) ->
       exists rows : list row, log = map put_of rows /\ bl = map (fun x => snd (fst x)) rows /\
         StronglySorted Peano.lt (map (fun x => fst (fst x)) rows) /\
         Forall (fun x => (k <= fst (fst x) < k + length log)%nat /\ holds (m_base M) (snd (snd (fst x))) (snd x) /\ snd (snd (fst x)) <> []) rows).
    { clear. intros bl log k F. revert k. induction F as [|b [n d] bl log H F IH]; intros k N.
      - exists []. repeat split; constructor.
      - cbn [map length seq combine fst] in N. injection N as N1 N2.
        destruct (IH (S k) N2) as (rows & R1 & R2 & R3 & R4). exists ((k, b, d) :: rows).
        split; [cbn [map]; f_equal; [unfold put_of; cbn [fst snd]; congruence|exact R1]|].
        split; [cbn [map fst snd]; now f_equal|]. cbn [map fst]. split.
        + constructor; auto. apply Forall_forall. intros x Hx. apply in_map_iff in Hx as (y & <- & Hy).
          rewrite Forall_forall in R4. destruct (R4 y Hy). lia.
        + constructor.
          * cbn [fst snd length]. split; [lia|]. exact H.
          * eapply Forall_impl; [|exact R4]. intros x [X1 X2]. cbn [length]. split; [lia|exact X2]. }
    destruct (G blobs (puts w) 0%nat F N) as (rows & R1 & R2 & R3 & R4).
    exists rows. repeat split; auto. eapply Forall_impl; [|exact R4]. intros x [X1 X2]. split; [lia|exact X2].
  Qed.

  (** the folders read and their parts *)
  Context (roots : list str) (keys : list (option (str * str))).
  Definition id_of (p : str) (k : option (str * str)) : str :=
    p ++ match k with None => [] | Some (b, f) => $"/" ++ b ++ $"/" ++ f end.
  Definition ids : list str := flat_map (fun p => map (id_of p) keys) roots.
  Notation name id t := (blob_name (s_filename (m_writer M id)) (s_node (m_base M)) t).
  Hypothesis law : forall b, In b blobs -> exists dir, forall t, name (fst b) t = dir ++ $"/" ++ file_of M t.
  Hypothesis law_ids : forall p k, In p roots -> In k keys -> forall t, name (id_of p k) t = id_of p k ++ $"/" ++ file_of M t.
  Hypothesis others : forall b t p, In b blobs -> In p roots -> startswith (p ++ $"/") (name (fst b) t) = true ->
    contains $"BACKOUT" (name (fst b) t) = false -> exists k, In k keys /\ fst b = id_of p k.
  Hypothesis alive : forall p k t, In p roots -> In k keys -> contains $"BACKOUT" (name (id_of p k) t) = false.
  Hypothesis ascend : StronglySorted (fun a b => forall x y, str_compare (a ++ $"/" ++ x) (b ++ $"/" ++ y) = Lt) ids.
  Hypothesis folders : forall id, In id ids -> relative_folder id.

  Definition stored_rows (rows : list row) : list row :=
    flat_map (fun id => filter (fun x => str_eqb id (fst (snd (fst x)))) rows) ids.

  Section Rows.
    Context (rows : list row).
    Hypothesis R1 : puts w = map put_of rows.
    Hypothesis R2 : blobs = map (fun x => snd (fst x)) rows.
    Hypothesis R3 : StronglySorted Peano.lt (map (fun x => fst (fst x)) rows).
    Hypothesis R4 : Forall (fun x => (fst (fst x) < attempts w)%nat /\ holds (m_base M) (snd (snd (fst x))) (snd x) /\ snd (snd (fst x)) <> []) rows.

    Lemma names_nodup : NoDup (map fst (puts w)).
    Proof.
      clear alive others ascend folders. rewrite R1, map_map. pose proof (sorted_unmap _ _ _ R3) as S3.
      assert (L : forall x, In x rows -> (fst (fst x) < attempts w)%nat /\
                   exists dir, fst (put_of x) = dir ++ $"/" ++ file (fst (fst x))).
      { intros x Hx. rewrite Forall_forall in R4. split; [apply R4; auto|].
        destruct (law (snd (fst x))) as (dir & D).
        - rewrite R2. change (snd (fst x)) with ((fun x : row => snd (fst x)) x). apply in_map. exact Hx.
        - exists dir. apply D. }
      clear R1 R2 R3 R4. revert L. induction S3 as [|x rs S IH F]; intros L; cbn [map]; constructor.
      - intros H. apply in_map_iff in H as (y & E & Hy). rewrite Forall_forall in F. apply F in Hy as Hlt.
        destruct (L x) as (X1 & d1 & D1); [left; auto|]. destruct (L y) as (Y1 & d2 & D2); [right; auto|].
        rewrite D1, D2 in E.
        assert (EF : file (fst (fst y)) = file (fst (fst x))).
        { assert (G : forall d n, last (split "/"%char (d ++ $"/" ++ file n)) [] = file n).
          { intros d n. rewrite split_last; [apply last_last|]. apply plain_no; [apply plain_file; auto|reflexivity]. }
          rewrite <- (G d2), E. apply G. }
        apply (file_inj M (attempts w) CL) in EF; auto. lia.
      - apply IH. intros y Hy. apply L. right. auto.
    Qed.

    Lemma part_names id x : In id ids -> In x rows -> str_eqb id (fst (snd (fst x))) = true ->
      fst (put_of x) = id ++ $"/" ++ file (fst (fst x)).
    Proof.
      intros Hi Hx E. apply str_eqb_eq in E. unfold ids in Hi. apply in_flat_map in Hi as (p & Hp & Hk).
      apply in_map_iff in Hk as (k & <- & Hk). unfold put_of, nth_name. cbn [fst snd]. rewrite <- E.
      apply law_ids; auto.
    Qed.

    Lemma stored_sorted : StronglySorted (fun a b => str_ltb a b = true) (map fst (map put_of (stored_rows rows))).
    Proof.
      rewrite map_map. unfold stored_rows.
      eapply (sorted_map (fun x => fst (put_of x)) (fun x y => str_ltb (fst (put_of x)) (fst (put_of y)) = true)); [auto|].
      apply (sorted_flat _ _ (fun a b => forall x y, str_compare (a ++ $"/" ++ x) (b ++ $"/" ++ y) = Lt)); [exact ascend| |].
      - intros id Hi.
        assert (S0 : StronglySorted (fun x y : row => (fst (fst x) < fst (fst y))%nat)
                       (filter (fun x => str_eqb id (fst (snd (fst x)))) rows)).
        { apply sorted_filter. exact (sorted_unmap _ _ _ R3). }
        rewrite <- (map_id (filter _ rows)). revert S0. apply sorted_map.
        intros x y Hx Hy L. apply filter_In in Hx as [Hx Ex]. apply filter_In in Hy as [Hy Ey].
        rewrite (part_names id x), (part_names id y) by auto. unfold str_ltb.
        rewrite !str_compare_prefix. rewrite Forall_forall in R4.
        rewrite (file_lt M (attempts w) CL); auto. apply R4; auto.
      - intros a b x y Ha Hb L Hx Hy. apply filter_In in Hx as [Hx Ex]. apply filter_In in Hy as [Hy Ey].
        rewrite (part_names a x), (part_names b y) by auto. unfold str_ltb.
        now rewrite L.
    Qed.

    Lemma stored_concat : concat (map (fun x => snd (snd (fst x))) (stored_rows rows)) = flat_map (fun id => stored_for id blobs) ids.
    Proof.
      unfold stored_rows. assert (G : forall id, concat (map (fun x : row => snd (snd (fst x)))
          (filter (fun x => str_eqb id (fst (snd (fst x)))) rows)) = stored_for id blobs).
      { intros id. unfold stored_for. rewrite R2. clear.
        induction rows as [|x rs IH]; [reflexivity|]. cbn [map filter].
        destruct (str_eqb id (fst (snd (fst x)))); cbn [map concat]; [|exact IH]. now rewrite IH. }
      generalize ids. intros is. induction is as [|id l IH]; [reflexivity|]. cbn [flat_map]. now rewrite map_app, concat_app, IH, G.
    Qed.

    Lemma file_extension id n : In id ids -> file_with_extension x_ (id ++ $"/" ++ file n).
    Proof.
      intros Hi. destruct (folders id Hi) as [Hr Hc]. unfold file_of.
      assert (Hh: ~ In "/"%char (hex (s_clock (m_base M) n))).
      { intros C. apply hex_chars in C. vm_compute in C. discriminate. }
      assert (Ns: ~ In "/"%char (s_node (m_base M))) by (apply plain_no; auto).
      assert (Xs: ~ In "/"%char ext) by (apply plain_no; [apply plain_extension; auto|reflexivity]).
      rewrite HX in *. destruct (data_extension_facts x_ (proj1 HD)) as (_ & z & Hz & H1 & H2 & H3).
      exists id, (hex (s_clock (m_base M) n) ++ $"-" ++ s_node (m_base M) ++ e_), z.
      split; [now rewrite <- !app_assoc|]. split; [exact Hz|]. split; [exact H1|].
      split; [intros C; apply app_eq_nil in C as [C _]; apply (hex_nonempty _ C)|]. split; [exact H2|]. split; [exact H3|].
      split; [|split; [exact Hr|exact Hc]].
      rewrite !in_app_iff. intros [C|[[C|[]]|[C|C]]]; auto; [discriminate|]. apply Xs, in_app_iff. auto.
    Qed.

    Lemma stored_In x : In x (stored_rows rows) -> exists id, In id ids /\ In x rows /\ str_eqb id (fst (snd (fst x))) = true.
    Proof. intros H. unfold stored_rows in H. apply in_flat_map in H as (id & Hi & H). apply filter_In in H as [H E]. eauto. Qed.

    Lemma stored_read :
      (forall r, In r (flat_map (fun id => stored_for id blobs) ids) -> fits r /\ applies columns filters cf pf (image r)) ->
      full_read records (map fst (map put_of (stored_rows rows))) (selected (flat_map (fun id => stored_for id blobs) ids)).
    Proof.
      intros HR. rewrite <- stored_concat in *.
      apply (read_stored parse unzstd other read_blob (m_base M) x_ fits image HD columns filters cf pf).
      - apply stored_sorted.
      - intros n d H. apply in_map_iff in H as (x & E & Hx). apply stored_In in Hx as (id & Hi & Hx & Ex).
        split.
        + pose proof (part_names id x Hi Hx Ex) as P. rewrite E in P. cbn [fst] in P. rewrite P. now apply file_extension.
        + apply RL. apply content_of_nodup; [exact names_nodup|]. rewrite R1, <- E. now apply in_map.
      - rewrite map_map. cbn [snd put_of].
        assert (F : Forall (fun x : row => holds (m_base M) (snd (snd (fst x))) (snd x)) (stored_rows rows)).
        { apply Forall_forall. intros x Hx. apply stored_In in Hx as (id & _ & Hx & _). rewrite Forall_forall in R4. now apply R4. }
        clear -F. induction F; cbn [map]; constructor; auto.
      - exact HR.
    Qed.

    Lemma stored_nothing : stored_rows rows = [] <-> flat_map (fun id => stored_for id blobs) ids = [].
    Proof.
      rewrite <- stored_concat. split; [intros ->; reflexivity|]. destruct (stored_rows rows) as [|x l] eqn:E; [reflexivity|].
      cbn [map concat]. intros C. apply app_eq_nil in C as [C _]. exfalso.
      assert (Hx : In x (stored_rows rows)) by (rewrite E; left; reflexivity). apply stored_In in Hx as (_ & _ & Hx & _).
      rewrite Forall_forall in R4. now apply (R4 x Hx).
    Qed.

    (** whatever lists exactly the blobs stored there *)
    Lemma core_listed listing out hash loads n :
      listing = Ok out -> (forall b, In b out <-> In b (map fst (map put_of (stored_rows rows)))) ->
      let wanted := flat_map (fun id => stored_for id blobs) ids in
      (forall r, In r wanted -> fits r /\ applies columns filters cf pf (image r)) ->
      gives wanted (firstn n (selected wanted)) (read_records hash loads (fun _ => listing) 0 records NoCursor n).
    Proof.
      clear alive others. intros E O wanted HR.
      destruct (stored_read HR) as (names & [N1 N2] & N3).
      assert (FR : full_read records out (selected wanted)).
      { exists names. split; [split; [exact N1|]|exact N3]. intros b. rewrite N2, O. tauto. }
      assert (X : forall b, In b out -> file_with_extension (x_) b).
      { intros b Hb. apply O in Hb. rewrite map_map in Hb. apply in_map_iff in Hb as (x & <- & Hx).
        apply stored_In in Hx as (id & Hi & Hx & Ex). rewrite (part_names id x Hi Hx Ex). now apply file_extension. }
      unfold read_records. rewrite no_limit by lia. cbv beta. rewrite E. cbn [bind].
      replace (filter is_readable out) with out.
      2:{ symmetry. apply filter_true. intros b H. unfold is_readable. rewrite (last_extension_eq (x_)) by auto.
          now rewrite (proj1 (data_extension_facts x_ (proj1 HD))). }
      destruct out as [|b0 bs] eqn:Eb.
      - unfold gives. replace wanted with (@nil value); [reflexivity|]. symmetry. apply stored_nothing.
        destruct (stored_rows rows) as [|x l]; [reflexivity|]. exfalso. apply (O (fst (put_of x))). left. reflexivity.
      - rewrite <- Eb in *.
        assert (Hne : wanted <> []).
        { intros C. apply stored_nothing in C. assert (Hb : In b0 out) by (rewrite Eb; left; reflexivity). apply O in Hb. now rewrite C in Hb. }
        unfold gives. destruct wanted as [|r0 rs] eqn:Ew; [congruence|]. rewrite <- Ew in *.
        apply read_once; auto. intros C. apply X in C. destruct C as (dir & stem & e & C & _).
        symmetry in C. apply app_eq_nil in C as [_ C]. discriminate.
    Qed.
    (** *** what is listed *)
    Context (store : str -> list str).
    Hypothesis LS : forall p, In p roots -> lists_folder store (puts w) p.
    Definition content (p : str) : list entry := map (fun m => entry_of (skipn (length (p ++ $"/")) m)) (store p).
    Lemma content_store p : In p roots -> store p = map (name_in p) (content p).
    Proof.
      intros Hp. unfold content. rewrite map_map. rewrite <- (map_id (store p)) at 1. apply map_ext_in. intros m Hm.
      rewrite entry_of_name. apply LS in Hm as [_ Hm]; auto. apply startswith_iff in Hm as (r & ->).
      rewrite skipn_app, skipn_all, Nat.sub_diag. cbn [skipn app]. now rewrite <- app_assoc.
    Qed.

    Hypothesis keys_by : forall b f, In (Some (b, f)) keys ->
      part_ok b /\ startswith $"by_" b = true /\ contains $"as_at_" b = false /\
      part_ok f /\ startswith $"by_" f = false /\ contains $"as_at_" f = false /\ startswith $"frame.complete" f = false.
    Hypothesis keys_one : forall k k', In k keys -> In k' keys ->
      match k, k' with
      | None, None => True
      | Some (b, f), Some (b', f') => b = b' /\ length f = length f' /\ endswith b f' = false
      | _, _ => False
      end.
    Hypothesis roots_ok : forall p c, In p roots -> In c (split "/"%char p) ->
      startswith $"by_" c = false /\ contains $"as_at_" c = false /\ startswith $"frame.complete" c = false /\
      forall b f, In (Some (b, f)) keys -> endswith b c = false.

    Lemma file_no_slash n : ~ In "/"%char (file n).
    Proof. apply plain_no; [apply plain_file; auto|reflexivity]. Qed.
    Definition part_text (k : option (str * str)) (n : nat) : str :=
      match k with None => [] | Some (b, f) => b ++ $"/" ++ f ++ $"/" end ++ file n.
    Lemma id_of_file p k n : id_of p k ++ $"/" ++ file n = p ++ $"/" ++ part_text k n.
    Proof. unfold id_of, part_text. destruct k as [[b f]|]; rewrite <- !app_assoc; reflexivity. Qed.
    Lemma entry_part k n : In k keys -> entry_of (part_text k n) = mkEntry k None (file n).
    Proof.
      intros Hk. unfold entry_of, part_text. pose proof (file_no_slash n) as Hf. destruct k as [[b f]|].
      - destruct (keys_by b f Hk) as (B1 & _ & _ & F1 & _).
        rewrite <- !app_assoc. change $"/" with ["/"%char]. cbn [app].
        rewrite split_app_no_sep, split_app_no_sep, split_single by auto. reflexivity.
      - cbn [app]. rewrite split_single by auto. reflexivity.
    Qed.

    Lemma present_iff p e : In p roots ->
      live p (content p) e <-> exists k x, In k keys /\ In x rows /\ fst (snd (fst x)) = id_of p k /\ e = mkEntry k None (file (fst (fst x))).
    Proof.
      intros Hp. split.
      - intros [He Hb]. unfold content in He. apply in_map_iff in He as (m & Ee & Hm).
        apply (proj2 (LS p Hp)) in Hm as [Hm Hs]. apply startswith_iff in Hs as (rest & Er).
        rewrite Er, skipn_app, skipn_all, Nat.sub_diag in Ee. cbn [skipn app] in Ee.
        rewrite R1, map_map in Hm. apply in_map_iff in Hm as (x & Ex & Hx).
        rewrite <- Ee, entry_of_name, app_assoc, <- Er in Hb.
        unfold put_of, nth_name in Ex. cbn [fst snd] in Ex.
        destruct (others (snd (fst x)) (s_clock (m_base M) (fst (fst x))) p) as (k & Hk & Ek); auto.
        + rewrite R2. change (snd (fst x)) with ((fun x : row => snd (fst x)) x). now apply in_map.
        + rewrite Ex, Er. apply startswith_app.
        + rewrite Ex. exact Hb.
        + exists k, x. split; [exact Hk|]. split; [exact Hx|]. split; [exact Ek|].
          rewrite Ek, law_ids, id_of_file, app_assoc, Er in Ex by auto. apply app_inv_head in Ex.
          rewrite <- Ee, <- Ex. now apply entry_part.
      - intros (k & x & Hk & Hx & Ex & ->). split.
        + unfold content. apply in_map_iff. exists (p ++ $"/" ++ part_text k (fst (fst x))). split.
          * rewrite app_assoc, skipn_app, skipn_all, Nat.sub_diag. cbn [skipn app]. now apply entry_part.
          * apply (proj2 (LS p Hp)). split; [|rewrite app_assoc; apply startswith_app].
            rewrite R1, map_map. apply in_map_iff. exists x. split; auto. unfold put_of, nth_name. cbn [fst snd].
            now rewrite Ex, law_ids, id_of_file by auto.
        + rewrite <- (entry_part k) by auto. rewrite entry_of_name, <- id_of_file, <- law_ids by auto. now apply alive.
    Qed.
    Lemma content_nodup p : In p roots -> NoDup (content p).
    Proof.
      intros Hp. destruct (LS p Hp) as [N L]. pose proof (content_store p Hp) as E. rewrite E in N.
      revert N. apply NoDup_map_inv.
    Qed.
    Lemma present_prefixes p : In p roots -> no_prefixes (live p (content p)).
    Proof.
      intros Hp e e' b f f' H H' Eb Eb' S. apply present_iff in H as (k & x & Hk & _ & _ & ->); auto.
      apply present_iff in H' as (k' & x' & Hk' & _ & _ & ->); auto. cbn [e_by] in *. subst k k'.
      destruct (keys_one _ _ Hk Hk') as (_ & L & _). apply startswith_iff in S as (r & ->).
      rewrite app_length in L. destruct r; [now rewrite app_nil_r|cbn in L; lia].
    Qed.
    Lemma present_tidy p : In p roots -> tidy p (live p (content p)).
    Proof.
      intros Hp.
      assert (NB : forall c, (forall b f, In (Some (b, f)) keys -> endswith b c = false) -> startswith $"by_" c = false -> not_a_by (live p (content p)) c).
      { intros c H1 H2. split; [exact H2|]. intros e b f He Eb. apply present_iff in He as (k & x & Hk & _ & _ & ->); auto.
        cbn [e_by] in Eb. subst k. eapply H1; eauto. }
      constructor.
      - intros c Hc. destruct (roots_ok p c Hp Hc) as (C1 & C2 & C3 & C4). auto.
      - intros e b f He Eb. apply present_iff in He as (k & x & Hk & _ & _ & ->); auto. cbn [e_by] in Eb. subst k.
        destruct (keys_by b f Hk) as (B1 & B2 & B3 & F1 & F2 & F3 & F4). repeat (split; [auto|]); auto.
        apply NB; auto. intros b' f' Hk'. destruct (keys_one _ _ Hk' Hk) as (_ & _ & E). exact E.
      - intros e f He Ef. apply present_iff in He as (k & x & _ & _ & _ & ->); auto. discriminate.
      - intros e e' f f' He _ Ef. apply present_iff in He as (k & x & _ & _ & _ & ->); auto. discriminate.
      - intros e He. apply present_iff in He as (k & x & _ & Hx & _ & ->); auto. cbn [e_file].
        rewrite Forall_forall in R4. destruct (R4 x Hx) as [Hn _].
        destruct (file_hex M (attempts w) CL _ Hn) as (c1 & c2 & r & Ef & H1 & H2).
        assert (S : forall a b q, hex_char a = true -> hex_char b = false -> startswith (a :: b :: q) (file (fst (fst x))) = false).
        { intros a b q _ Hb. rewrite Ef. cbn [startswith]. destruct (Ascii.eqb_spec a c1); [|reflexivity].
          destruct (Ascii.eqb_spec b c2) as [->|]; [congruence|reflexivity]. }
        split; [apply file_no_slash|]. split; [now apply S|]. split.
        { apply not_true_iff_false. intros C. apply contains_iff in C as (a & b & C).
          assert (U : In "_"%char (file (fst (fst x)))) by (rewrite C; apply in_app_iff; right; right; right; left; reflexivity).
          apply (plain_file M PN PE) in U. discriminate. }
        split; intros C; [change $"frame.complete" with ("f"%char :: "r"%char :: $"ame.complete") in C|
                          change $"frame.ignore" with ("f"%char :: "r"%char :: $"ame.ignore") in C];
          rewrite S in C by reflexivity; discriminate.
    Qed.
    Lemma present_served p e : In p roots -> served (live p (content p)) e <-> live p (content p) e.
    Proof.
      intros Hp. split; [intros (H & _); exact H|]. intros H. split; [exact H|]. split.
      - apply present_iff in H as (k & x & Hk & _ & _ & ->); auto. cbn [e_by]. destruct k as [[b f]|]; cbn [readable_part].
        + intros e' b' f' He' Eb. apply present_iff in He' as (k' & x' & Hk' & _ & _ & ->); auto. cbn [e_by] in Eb. subst k'.
          destruct (keys_one _ _ Hk' Hk) as (-> & _). unfold str_leb. now rewrite str_compare_refl.
        + intros e' He'. apply present_iff in He' as (k' & x' & Hk' & _ & _ & ->); auto. cbn [e_by].
          pose proof (keys_one _ _ Hk' Hk) as C. destruct k' as [[b f]|]; [destruct C|reflexivity].
      - intros (e' & f & He' & _ & Ef). apply present_iff in He' as (k' & x' & _ & _ & _ & ->); auto. discriminate.
    Qed.

    Lemma listed_stored : exists out, get_list_of_blobs None store roots = Ok out /\
      forall b, In b out <-> In b (map fst (map put_of (stored_rows rows))).
    Proof.
      destruct (Frames.many_folders content roots) as (out & E & _ & O & _).
      { intros p Hp. split; [now apply content_nodup|]. split; [now apply present_tidy|now apply present_prefixes]. }
      exists out. split.
      - rewrite <- E. apply get_list_ext. intros p Hp. now apply content_store.
      - intros b. rewrite O, map_map, in_map_iff. split.
        + intros (p & e & Hp & He & ->). apply present_served in He; auto.
          apply present_iff in He as (k & x & Hk & Hx & Ex & ->); auto. exists x. split.
          * rewrite <- (entry_part k) by auto. rewrite entry_of_name, <- id_of_file.
            apply part_names; auto; [|rewrite Ex; apply str_eqb_refl].
            unfold ids. apply in_flat_map. exists p. split; auto. now apply in_map.
          * unfold stored_rows. apply in_flat_map. exists (id_of p k). split.
            -- unfold ids. apply in_flat_map. exists p. split; auto. now apply in_map.
            -- apply filter_In. split; auto. rewrite Ex. apply str_eqb_refl.
        + intros (x & <- & Hx). apply stored_In in Hx as (id & Hi & Hx & Ex). rewrite (part_names id x Hi Hx Ex).
          apply str_eqb_eq in Ex. unfold ids in Hi. apply in_flat_map in Hi as (p & Hp & Hk).
          apply in_map_iff in Hk as (k & <- & Hk). exists p, (mkEntry k None (file (fst (fst x)))). split; auto.
          split; [|rewrite <- (entry_part k) by auto; now rewrite entry_of_name, id_of_file].
          apply present_served; auto. apply present_iff; eauto 10.
    Qed.

    Lemma core hash loads n :
      let wanted := flat_map (fun id => stored_for id blobs) ids in
      (forall r, In r wanted -> fits r /\ applies columns filters cf pf (image r)) ->
      gives wanted (firstn n (selected wanted)) (read_records hash loads (fun _ => get_list_of_blobs None store roots) 0 records NoCursor n).
    Proof. destruct listed_stored as (out & E & O). exact (core_listed _ out hash loads n E O). Qed.
  End Rows.
End Core.

(** ** Templates of dates *)
Lemma solid_split x : solid x -> components_of x = split "/"%char x.
Proof.
  intros S. unfold components_of. apply filter_true. intros c Hc. destruct (S c Hc) as (a & Ha & Na).
  apply andb_true_iff. split; apply negb_true_iff, str_eqb_neq; intros ->; [destruct Ha|].
  destruct Ha as [<-|[]]. now apply Na.
Qed.
Lemma fill_partition u now v : fill u now = partition_of (map Date u) now v.
Proof. unfold fill, partition_of. rewrite map_map. reflexivity. Qed.
Lemma text_stream u : template_text u = stream_template (map Date u).
Proof. unfold template_text, stream_template. rewrite map_map. reflexivity. Qed.

Section Dates.
  Context (u : list seg).
  Hypothesis P : proper_template (map Date u).
  Lemma fill_solid now : solid (fill u now).
  Proof. rewrite (fill_partition u now (fun _ => [])). apply P. Qed.
  Lemma fill_depth now : (2 <= length (components_of (fill u now)))%nat.
  Proof. rewrite (fill_partition u now (fun _ => [])). apply P. Qed.
  Lemma fill_relative now : relative (fill u now).
  Proof.
    rewrite (fill_partition u now (fun _ => [])). eapply (depth_same (map Date u) now (fun _ => []) (fun _ => [])); auto.
    - intros n (c & [] & _).
    - apply P.
  Qed.
  Lemma fill_chars now c : In c (fill u now) -> is_digit c = true \/ exists s, In (Lit s) u /\ In c s.
  Proof.
    rewrite (fill_partition u now (fun _ => [])). intros H. apply partition_chars in H.
    destruct H as [H|[(s & Hs & Hc)|(n & [])]]; auto. right. exists s. split; auto.
    apply in_map_iff in Hs as (g & [= ->] & Hg). exact Hg.
  Qed.
  Lemma fill_no_brace now : ~ In "{"%char (fill u now).
  Proof.
    intros H. apply fill_chars in H as [H|(s & Hs & Hc)]; [discriminate|]. destruct P as ((P1 & _) & _).
    destruct (P1 s (in_map Date _ _ Hs)). auto.
  Qed.
  Lemma fill_no_dot now : ~ In "."%char (fill u now).
  Proof.
    intros H. apply fill_chars in H as [H|(s & Hs & Hc)]; [discriminate|]. destruct P as (_ & P2 & _).
    apply (P2 s (in_map Date _ _ Hs) Hc).
  Qed.
  Lemma fill_folder now : relative_folder (fill u now).
  Proof.
    split; [apply fill_relative|]. pose proof (fill_solid now) as S.
    destruct (split "/"%char (fill u now)) as [|w l] eqn:E; [now apply split_nonempty in E|].
    destruct (S w) as (c & Hc & Nc); [rewrite E; left; auto|].
    assert (Hw : ~ In "/"%char w) by (eapply split_no_sep; rewrite E; left; auto).
    exists c. split; [|split; [intros ->; auto|exact Nc]].
    rewrite <- (join_split "/"%char (fill u now)), E. destruct l; [exact Hc|]. rewrite join_cons by discriminate.
    apply in_app_iff. auto.
  Qed.

  Context {R V : Type} (M : streaming R V).
  Hypothesis SM : sets_ok M.
  Hypothesis T : m_template M = template_text u.
  Hypothesis PN : plain (s_node (m_base M)).
  Hypothesis PE : plain (m_ext M).
  Notation name id t := (blob_name (s_filename (m_writer M id)) (s_node (m_base M)) t).

  Lemma targets_dates r now : targets M r now = [fill u now ++ suffix_of M r].
  Proof.
    rewrite text_stream in T. destruct P as (P1 & _).
    destruct (targets_eq M (map Date u) SM T P1 r now) as (names & combos & _ & HN & NC & HC & ->).
    assert (EN : names = []).
    { destruct names as [|n l]; auto. pose proof (proj1 (HN n) (or_introl eq_refl)) as H.
      apply in_map_iff in H as (g & C & _). discriminate. }
    subst names. assert (EC : combos = [[]]).
    { assert (A : forall c, In c combos <-> c = []).
      { intros c. rewrite HC. split; [intros F; inversion F; auto|intros ->; constructor]. }
      destruct combos as [|c l]; [destruct (proj2 (A []) eq_refl)|]. pose proof (proj1 (A c) (or_introl eq_refl)) as ->.
      f_equal. destruct l as [|c' l]; auto. exfalso. inversion NC as [|? ? N _]; subst. apply N. left.
      apply A. right. left. auto. }
    subst combos. cbn [map]. now rewrite <- fill_partition.
  Qed.

  Lemma fill_name now t : name (fill u now) t = fill u now ++ $"/" ++ file_of M t.
  Proof.
    change (s_node (m_base M)) with (s_node (m_writer M (fill u now))).
    rewrite (name_eq M PE (fill u now) t); [| apply fill_relative|apply fill_depth| |apply fill_no_brace].
    - rewrite solid_split by apply fill_solid. change $"/" with ["/"%char].
      rewrite join_app by (try discriminate; apply split_nonempty). now rewrite join_split.
    - intros C. apply (fill_no_dot now). eapply components_chars; [|exact C].
      destruct (two_ends _ (fill_depth now)) as (b & mid & z & ->). change (b :: mid ++ [z]) with ((b :: mid) ++ [z]).
      rewrite last_last. apply in_app_iff. right. left. auto.
  Qed.
  Lemma backout_name now t : name (fill u now ++ $"/BACKOUT/") t = (fill u now ++ $"/BACKOUT") ++ $"/" ++ file_of M t.
  Proof.
    set (id := fill u now ++ $"/BACKOUT/").
    assert (Ec : components_of id = split "/"%char (fill u now) ++ [$"BACKOUT"]).
    { unfold id. change $"/BACKOUT/" with ($"/" ++ $"BACKOUT/"). rewrite components_app_slash, solid_split by apply fill_solid. reflexivity. }
    change (s_node (m_base M)) with (s_node (m_writer M id)). rewrite (name_eq M PE id t).
    - rewrite Ec. change $"/" with ["/"%char]. rewrite join_app by (try discriminate; destruct (split _ _); discriminate).
      rewrite join_app by (try discriminate; apply split_nonempty). rewrite join_split. cbn [join]. rewrite <- !app_assoc. reflexivity.
    - intros r E. pose proof (fill_relative now) as Q. unfold id in E. destruct (fill u now) as [|c0 f0] eqn:Ef.
      + pose proof (fill_depth now) as D. rewrite Ef in D. cbn in D. lia.
      + injection E as -> _. now apply (Q f0).
    - rewrite Ec, app_length. pose proof (fill_depth now) as D. rewrite solid_split in D by apply fill_solid. cbn. lia.
    - rewrite Ec, last_last. unfold no_extension. simpl. intuition discriminate.
    - unfold id. intros H. apply in_app_iff in H as [H|H]; [now apply (fill_no_brace now)|]. revert H. simpl. intuition discriminate.
  Qed.
End Dates.

(** ** One or more days, perhaps by hour *)
Definition sub (hourly : bool) : list seg := if hourly then hour_folders else [].
Definition key_of (h : nat) : option (str * str) := Some ($"by_hour", $"hour=" ++ dec_pad 2 (N.of_nat h)).
Definition keys_of (hourly : bool) : list (option (str * str)) := if hourly then map key_of (seq 0 24) else [None].
Definition conds (hourly : bool) : list (moment -> bool) := if hourly then map in_hour (seq 0 24) else [fun _ => true].
Definition midnight (date : Z * Z * Z) : moment :=
  let '(y, m, d) := date in mkMoment (Z.to_N y) (Z.to_N m) (Z.to_N d) 0 0 0.
Definition valid_day (date : Z * Z * Z) : Prop := let '(y, m, d) := date in vd y m d.

Lemma clock_bounds at_ : clock_time at_ ->
  (month at_ <= 12 /\ day at_ <= 31 /\ hour at_ <= 23 /\ minute at_ <= 59 /\ second at_ <= 59)%N.
Proof.
  intros [D T]. unfold date_of in D. apply valid_date_spec in D. destruct D as (A & B & C), T as (T1 & T2 & T3).
  pose proof (Proofs.Dates.dim_bounds (Z.of_N (year at_)) (Z.of_N (month at_)) B). lia.
Qed.
Lemma clock_plausible at_ : clock_time at_ -> plausible at_.
Proof. intros C. apply clock_bounds in C as (A & B & C & D & F). unfold plausible. lia. Qed.

Lemma fill_app t t' now : fill (t ++ t') now = fill t now ++ fill t' now.
Proof. unfold fill. now rewrite map_app, concat_app. Qed.
Lemma fill_hours now : fill hour_folders now = $"/" ++ $"by_hour" ++ $"/" ++ $"hour=" ++ dec_pad 2 (hour now).
Proof. unfold fill, hour_folders. cbn [map concat seg_value]. rewrite app_nil_r. reflexivity. Qed.
Lemma split_length_fill t d d' : length (split "/"%char (fill t d)) = length (split "/"%char (fill t d')).
Proof. induction (split_fill_sim t d d'); cbn; congruence. Qed.

Lemma app_inj_length {A} (a a' b b' : list A) : length a = length a' -> a ++ b = a' ++ b' -> a = a' /\ b = b'.
Proof.
  revert a'. induction a as [|x a IH]; intros [|y a'] L E; try discriminate; auto.
  injection L as L. injection E as -> E. destruct (IH a' L E). subst. auto.
Qed.
Lemma app_inj_length_r {A} (a a' b b' : list A) : length b = length b' -> a ++ b = a' ++ b' -> a = a' /\ b = b'.
Proof.
  intros L E. apply app_inj_length; auto. apply (f_equal (@length A)) in E. rewrite !app_length in E. lia.
Qed.

Lemma hours_sorted : StronglySorted (fun a b => str_compare a b = Lt)
  (map (fun h => $"/" ++ $"by_hour" ++ $"/" ++ $"hour=" ++ dec_pad 2 (N.of_nat h)) (seq 0 24)).
Proof.
  apply (sorted_map _ Peano.lt).
  - intros a b Ha Hb L. apply in_seq in Ha, Hb. rewrite !str_compare_prefix.
    assert (G : forallb (fun b => forallb (fun a => match str_compare (dec_pad 2 (N.of_nat a)) (dec_pad 2 (N.of_nat b)) with Lt => true | _ => false end)
                  (seq 0 b)) (seq 0 24) = true) by (vm_compute; reflexivity).
    rewrite forallb_forall in G. specialize (G b (proj2 (in_seq _ _ _) Hb)).
    rewrite forallb_forall in G. specialize (G a (proj2 (in_seq _ _ _) (conj (Nat.le_0_l a) L))).
    destruct (str_compare _ _); congruence.
  - clear. generalize 0%nat, 24%nat. intros a n. revert a. induction n as [|n IH]; intros a; cbn [seq]; constructor; auto.
    apply Forall_forall. intros x Hx. apply in_seq in Hx. lia.
Qed.

Section Days.
  Context (t : list seg) (hourly : bool).
  Notation u := (t ++ sub hourly).
  Hypothesis DT : daily_template t.
  Hypothesis P : proper_template (map Date t).

  Lemma hour_no_slash h : ~ In "/"%char ($"hour=" ++ dec_pad 2 h).
  Proof.
    rewrite in_app_iff. intros [H|H]; [|apply dec_pad_digits in H; discriminate].
    revert H. simpl. intuition discriminate.
  Qed.
  Lemma sub_split now : split "/"%char (fill u now) =
    split "/"%char (fill t now) ++ if hourly then [$"by_hour"; $"hour=" ++ dec_pad 2 (hour now)] else [].
  Proof.
    rewrite fill_app. destruct hourly; cbn [sub].
    - rewrite fill_hours. change $"/" with ["/"%char]. rewrite split_app_sep. f_equal.
      rewrite split_app_sep, (split_single _ ($"hour=" ++ _)) by apply hour_no_slash. reflexivity.
    - cbn [fill map concat]. now rewrite !app_nil_r.
  Qed.
  Lemma proper_sub : proper_template (map Date u).
  Proof.
    assert (L : forall s, In (Date (Lit s)) (map Date u) -> In (Date (Lit s)) (map Date t) \/ s = $"/by_hour/hour=").
    { intros s H. rewrite map_app in H. apply in_app_iff in H as [H|H]; auto. right.
      destruct hourly; [|destruct H]. cbn in H. destruct H as [H|[H|[]]]; [|discriminate]. now injection H as <-. }
    destruct P as ((P1 & P1') & P2 & P3). split; [split|split].
    - intros s H. apply L in H as [H| ->]; auto. split; simpl; intuition discriminate.
    - intros n H. apply in_map_iff in H as (g & C & _). discriminate.
    - intros s H. apply L in H as [H| ->]; auto. simpl. intuition discriminate.
    - intros now. rewrite <- (fill_partition u now). pose proof (fill_solid t P now) as S. pose proof (fill_depth t P now) as D.
      assert (S' : solid (fill u now)).
      { intros c Hc. rewrite sub_split in Hc. apply in_app_iff in Hc as [Hc|Hc]; auto.
        destruct hourly; [|destruct Hc]. destruct Hc as [<-|[<-|[]]]; [exists "b"%char|exists "h"%char]; split; try discriminate; left; reflexivity. }
      split; [exact S'|]. rewrite solid_split in * by auto. rewrite sub_split, app_length. lia.
  Qed.

  Lemma day_folder_fill date : day_folder t date = fill t (midnight date).
  Proof.
    destruct date as [[y m] d]. unfold day_folder, midnight. set (now := mkMoment _ _ _ _ _ _).
    assert (E : pp_parse (fill t now ++ $"/") = ([], components_of (fill t now))).
    { unfold pp_parse. f_equal.
      - apply relative_root. intros r Er. pose proof (fill_relative t P now) as Q. pose proof (fill_depth t P now) as D.
        destruct (fill t now) as [|c f] eqn:Ef; [cbn in D; lia|]. injection Er as -> _. now apply (Q f).
      - change (components_of (fill t now ++ $"/") = components_of (fill t now)).
        change $"/" with ($"/" ++ []). rewrite components_app_slash. cbn. apply app_nil_r. }
    rewrite E, solid_split by (apply fill_solid, P). rewrite pp_str_join by apply split_nonempty.
    apply join_split.
  Qed.

  Lemma midnight_plausible date : valid_day date -> plausible (midnight date).
  Proof. destruct date as [[y m] d]. apply Proofs.ReadRange.vd_plausible. Qed.
  Lemma same_folder date at_ : valid_day date -> clock_time at_ ->
    (fill t (midnight date) = fill t at_ <-> on_day date at_ = true).
  Proof.
    intros Vd Ca. destruct DT as (Dt & N1 & N2 & N3). split.
    - intros E. apply fill_same_day in E; auto using clock_plausible, midnight_plausible.
      destruct date as [[y m] d]. destruct E as (E1 & E2 & E3). cbn [midnight year month day] in *. unfold on_day.
      rewrite <- E1, <- E2, <- E3, !N.eqb_refl. reflexivity.
    - intros E. apply same_day_fill; [|intros g Hg; repeat split; intros ->; auto].
      destruct date as [[y m] d]. unfold on_day in E. apply andb_prop in E as [E E3]. apply andb_prop in E as [E1 E2].
      apply N.eqb_eq in E1, E2, E3. repeat split; cbn [midnight year month day]; auto.
  Qed.
  (** the identity of a part *)
  Lemma hour_width h : (h < 100)%N -> length (dec_pad 2 h) = 2%nat.
  Proof. intros H. apply dec_pad_length; [lia|]. exact H. Qed.
  Lemma same_part date at_ k c : valid_day date -> clock_time at_ -> In (k, c) (combine (keys_of hourly) (conds hourly)) ->
    str_eqb (id_of (day_folder t date) k) (fill u at_) = on_day date at_ && c at_.
  Proof.
    intros Vd Ca Hk. rewrite day_folder_fill, fill_app. pose proof (same_folder date at_ Vd Ca) as SF.
    apply Bool.eq_true_iff_eq. rewrite str_eqb_eq, andb_true_iff, <- SF. clear SF. unfold id_of.
    destruct hourly; cbn [sub keys_of conds] in *.
    - assert (K : exists h, (h < 24)%nat /\ k = key_of h /\ c = in_hour h).
      { clear -Hk. revert Hk. assert (G : forall l, (forall h, In h l -> (h < 24)%nat) -> In (k, c) (combine (map key_of l) (map in_hour l)) ->
          exists h, (h < 24)%nat /\ k = key_of h /\ c = in_hour h).
        { induction l as [|h l IH]; intros B; [intros []|]. cbn [map combine]. intros [[= <- <-]|H].
          - exists h. split; auto. apply B. left. auto.
          - apply IH; auto. intros x Hx. apply B. right. auto. }
        apply G. intros h Hh. apply in_seq in Hh. lia. }
      destruct K as (h & Hh & -> & ->). cbn [key_of]. rewrite fill_hours. unfold in_hour. rewrite N.eqb_eq.
      apply clock_bounds in Ca as (_ & _ & Ca & _). split.
      + intros E. apply app_inj_length_r in E as [E1 E2].
        * split; auto. apply app_inv_head in E2. repeat (apply app_inv_head in E2). apply dec_pad_inj in E2. auto.
        * rewrite !app_length, !hour_width by lia. reflexivity.
      + intros [-> ->]. reflexivity.
    - destruct Hk as [[= <- <-]|[]]. cbn [fill map concat]. rewrite !app_nil_r. intuition.
  Qed.

  Lemma part_fill date k : In k (keys_of hourly) -> exists at_, id_of (day_folder t date) k = fill u at_.
  Proof.
    intros Hk. destruct date as [[y m] d]. destruct DT as (Dt & N1 & N2 & N3).
    assert (G : forall h, fill t (mkMoment (Z.to_N y) (Z.to_N m) (Z.to_N d) h 0 0) = day_folder t (y, m, d)).
    { intros h. rewrite day_folder_fill. apply same_day_fill; [repeat split|]. intros g Hg. repeat split; intros ->; auto. }
    destruct hourly; cbn [keys_of sub] in *.
    - apply in_map_iff in Hk as (h & <- & _). exists (mkMoment (Z.to_N y) (Z.to_N m) (Z.to_N d) (N.of_nat h) 0 0).
      rewrite fill_app, G, fill_hours. reflexivity.
    - destruct Hk as [<-|[]]. exists (mkMoment (Z.to_N y) (Z.to_N m) (Z.to_N d) 0 0 0). rewrite fill_app, G. reflexivity.
  Qed.
  Lemma part_clean date k : clean_folder (day_folder t date) -> In k (keys_of hourly) ->
    forall w, In w (components_of (id_of (day_folder t date) k)) -> contains $"BACKOUT" w = false.
  Proof.
    intros C Hk w Hw. destruct hourly; cbn [keys_of] in Hk.
    - apply in_map_iff in Hk as (h & <- & _). unfold id_of, key_of in Hw.
      rewrite components_app_slash, components_app_slash in Hw. rewrite !in_app_iff in Hw. destruct Hw as [Hw|[Hw|Hw]].
      + apply filter_In in Hw as [Hw _]. now apply C.
      + destruct Hw as [<-|[]]. reflexivity.
      + apply contains_no_B. intros B. apply components_chars with (2 := B) in Hw. clear B. apply in_app_iff in Hw as [Hw|Hw].
        * revert Hw. simpl. intuition discriminate.
        * apply dec_pad_digits in Hw. discriminate.
    - destruct Hk as [<-|[]]. unfold id_of in Hw. rewrite app_nil_r in Hw. apply filter_In in Hw as [Hw _]. now apply C.
  Qed.
  Lemma keys_conds k : In k (keys_of hourly) -> exists c, In (k, c) (combine (keys_of hourly) (conds hourly)).
  Proof.
    intros H. destruct hourly; cbn [keys_of conds] in *.
    - revert H. generalize (seq 0 24). induction l as [|h l IH]; [intros []|]. cbn [map combine].
      intros [<-|H]; [eexists; left; reflexivity|]. destruct (IH H) as (c & Hc). exists c. right. exact Hc.
    - destruct H as [<-|[]]. eexists. left. reflexivity.
  Qed.
  Lemma flat_parts {B} (f : option (str * str) -> list B) (g : (moment -> bool) -> list B) :
    (forall k c, In (k, c) (combine (keys_of hourly) (conds hourly)) -> f k = g c) ->
    flat_map f (keys_of hourly) = flat_map g (conds hourly).
  Proof.
    destruct hourly; cbn [keys_of conds]; intros H.
    - revert H. generalize (seq 0 24). induction l as [|h l IH]; intros H; [reflexivity|]. cbn [map combine flat_map].
      rewrite (H _ _ (or_introl eq_refl)). f_equal. apply IH. intros k c Hk. apply H. right. exact Hk.
    - cbn [flat_map]. now rewrite (H _ _ (or_introl eq_refl)).
  Qed.

  Context {R V : Type} (M : streaming R V).
  Hypothesis SM : sets_ok M.
  Hypothesis T : m_template M = template_text u.
  Lemma sent_accepted date k c : valid_day date -> In (k, c) (combine (keys_of hourly) (conds hourly)) ->
    forall es os, (forall r at_, In (SAppend r at_) es -> clock_time at_) ->
    sent M (es ++ [SFinalize]) os (id_of (day_folder t date) k) = accepted_on M (fun at_ => on_day date at_ && c at_) es os.
  Proof.
    intros Vd Hk. assert (Hk' : In k (keys_of hourly)) by (apply in_combine_l in Hk; exact Hk).
    destruct (part_fill date k Hk') as (at' & Ef).
    induction es as [|e es IH]; intros os HC.
    - destruct os; reflexivity.
    - destruct os as [|o os]; [destruct e; reflexivity|]. cbn [app].
      assert (HC' : forall r at_, In (SAppend r at_) es -> clock_time at_) by (intros r a H; apply (HC r a); right; exact H).
      destruct e as [r at_| |]; cbn [sent accepted_on]; auto. destruct o as [x|x]; auto.
      rewrite IH by exact HC'. f_equal. rewrite (targets_dates u proper_sub M SM T). cbn [filter]. unfold suffix_of.
      destruct (m_valid M r); cbn [andb].
      + rewrite app_nil_r, (same_part date at_ k c Vd (HC r at_ (or_introl eq_refl)) Hk). destruct (on_day date at_ && c at_); reflexivity.
      + replace (str_eqb _ _) with false; [reflexivity|]. symmetry. apply str_eqb_neq. rewrite Ef. intros E.
        pose proof (fill_solid u proper_sub at') as S. rewrite E in S.
        destruct (S []) as (a & [] & _). change $"/BACKOUT/" with ($"/" ++ $"BACKOUT" ++ $"/"). change $"/" with ["/"%char].
        rewrite split_app_sep. apply in_app_iff. right. right. left. reflexivity.
  Qed.
End Days.

Lemma flat_map_map {A B C} (f : A -> B) (g : B -> list C) l : flat_map g (map f l) = flat_map (fun a => g (f a)) l.
Proof. induction l; cbn; congruence. Qed.
Lemma flat_map_flat {A B C} (f : A -> list B) (g : B -> list C) l : flat_map g (flat_map f l) = flat_map (fun a => flat_map g (f a)) l.
Proof. induction l; cbn; [auto|]. now rewrite flat_map_app, IHl. Qed.
Lemma flat_map_same {A B} (f g : A -> list B) l : (forall a, In a l -> f a = g a) -> flat_map f l = flat_map g l.
Proof. induction l; cbn; intros H; [auto|]. rewrite H, IHl by auto. reflexivity. Qed.

Section Written.
  Context (parse : str -> result value) (unzstd : str -> result str)
          (other : str -> str -> generator value) (read_blob : str -> result str).
  Context {V : Type} (M : streaming value V) (t : list seg) (hourly : bool).
  Notation u := (t ++ sub hourly).
  Context (columns : value -> result value) (filters : value -> result bool) (cf : value -> value) (pf : value -> bool).
  Notation records := (blob_records parse unzstd other read_blob columns filters None).
  Context (fits : value -> Prop) (image : value -> value).
  Notation selected l := (filter pf (map cf (map image l))).
  Hypothesis HW : read_as parse unzstd other (m_base M) (extension (s_format (m_base M)) (m_ext M)) fits image.
  Hypothesis PN : plain (s_node (m_base M)).
  Hypothesis PE : plain (m_ext M).
  Hypothesis SM : sets_ok M.
  Hypothesis RE : reliable (m_base M).
  Hypothesis DT : daily_template t.
  Hypothesis P : proper_template (map Date t).
  Hypothesis T : m_template M = template_text u.

  Lemma days_rowed days blobs w store hash loads n (rows : list (nat * (str * list value) * str)) :
    puts w = map (put_of M) rows -> blobs = map (fun x => snd (fst x)) rows ->
    StronglySorted Peano.lt (map (fun x => fst (fst x)) rows) ->
    Forall (fun x => (fst (fst x) < attempts w)%nat /\ holds (m_base M) (snd (snd (fst x))) (snd x) /\ snd (snd (fst x)) <> []) rows ->
    good_clock (m_base M) (attempts w) -> reads_log read_blob (puts w) ->
    (forall b, In b blobs -> snd b <> [] -> exists at_ r, clock_time at_ /\ fst b = fill u at_ ++ suffix_of M r) ->
    (forall date, In date days -> valid_day date /\ clean_folder (day_folder t date) /\
                                  lists_folder store (puts w) (day_folder t date)) ->
    StronglySorted (fun a b => str_compare a b = Lt) (map (day_folder t) days) ->
    (forall a b, In a days -> In b days -> length (day_folder t a) = length (day_folder t b)) ->
    let wanted := flat_map (fun id => stored_for id blobs) (ids (map (day_folder t) days) (keys_of hourly)) in
    (forall r, In r wanted -> fits r /\ applies columns filters cf pf (image r)) ->
    gives wanted (firstn n (selected wanted)) (read_records hash loads (fun _ => get_list_of_blobs None store (map (day_folder t) days)) 0 records NoCursor n).
  Proof.
    intros R1 R2 R3 R4 CL RL IB0 HD HS HL. cbv zeta.
    pose proof (proper_sub t hourly P) as PU.
    set (roots := map (day_folder t) days) in *. set (keys := keys_of hourly).
    intros HR.
    assert (IR : forall p, In p roots -> exists date, In date days /\ p = day_folder t date).
    { intros p Hp. apply in_map_iff in Hp as (date & <- & Hd). eauto. }
    assert (II : forall id, In id (ids roots keys) -> exists date k, In date days /\ In k keys /\ id = id_of (day_folder t date) k).
    { intros id Hi. unfold ids in Hi. apply in_flat_map in Hi as (p & Hp & Hi). apply in_map_iff in Hi as (k & <- & Hk).
      destruct (IR p Hp) as (date & Hd & ->). eauto 6. }
    assert (IB : forall b, In b blobs -> exists at_ r, clock_time at_ /\ fst b = fill u at_ ++ suffix_of M r).
    { intros b Hb. apply IB0; [exact Hb|].
      rewrite R2 in Hb. apply in_map_iff in Hb as (x & <- & Hx). rewrite Forall_forall in R4. now apply R4. }
    destruct HW as (e_ & x_ & HX & HDc).
    apply (core parse unzstd other read_blob M columns filters cf pf e_ x_ fits image HX HDc PN PE blobs w CL RL roots keys) with (rows := rows); auto.
    - intros b Hb. destruct (IB b Hb) as (at_ & r & _ & ->). unfold suffix_of. destruct (m_valid M r).
      + exists (fill u at_). intros k. rewrite app_nil_r. apply (fill_name u PU M PE).
      + exists (fill u at_ ++ $"/BACKOUT"). intros k. apply (backout_name u PU M PE).
    - intros p k Hp Hk x. destruct (IR p Hp) as (date & Hd & ->). destruct (part_fill t hourly DT P date k Hk) as (at_ & ->).
      apply (fill_name u PU M PE).
    - intros b x p Hb Hp Hs Hn. destruct (IB b Hb) as (at_ & r & Ca & Eb). rewrite Eb in *. unfold suffix_of in *.
      destruct (m_valid M r).
      + rewrite app_nil_r in *. rewrite (fill_name u PU M PE) in Hs. destruct (IR p Hp) as (date & Hd & ->).
        apply startswith_iff in Hs as (rest & Hs).
        assert (Et : fill t (midnight date) = fill t at_).
        { rewrite fill_app, <- !app_assoc in Hs. rewrite day_folder_fill in Hs by auto.
          assert (L : length (split "/"%char (fill t at_)) = length (split "/"%char (fill t (midnight date)))) by apply split_length_fill.
          assert (G : exists z, fill (sub hourly) at_ ++ $"/" ++ file_of M x = $"/" ++ z).
          { destruct hourly; cbn [sub]; [rewrite fill_hours, <- !app_assoc|]; eexists; reflexivity. }
          destruct G as (z & G). rewrite G in Hs. apply (f_equal (split "/"%char)) in Hs. change $"/" with ["/"%char] in Hs.
          rewrite !split_app_sep in Hs. apply app_inj_length in Hs as [Hs _]; auto.
          rewrite <- (join_split "/"%char (fill t (midnight date))), <- Hs. apply join_split. }
        destruct (HD date Hd) as (Vd & _).
        assert (On : on_day date at_ = true) by (apply (same_folder t DT date at_ Vd Ca); exact Et).
        assert (G : exists k c, In (k, c) (combine keys (conds hourly)) /\ c at_ = true).
        { unfold keys, conds, keys_of. destruct hourly.
          - exists (key_of (N.to_nat (hour at_))), (in_hour (N.to_nat (hour at_))). split.
            + apply clock_bounds in Ca as (_ & _ & Ca & _).
              assert (Hh : In (N.to_nat (hour at_)) (seq 0 24)) by (apply in_seq; lia).
              revert Hh. generalize (seq 0 24). induction l as [|h l IH]; [intros []|]. cbn [map combine].
              intros [->|H]; [left; reflexivity|right; auto].
            + unfold in_hour. rewrite N2Nat.id. apply N.eqb_refl.
          - exists None, (fun _ => true). split; [left; reflexivity|reflexivity]. }
        destruct G as (k & c & Hk & Hc). exists k. split; [apply in_combine_l in Hk; exact Hk|].
        symmetry. apply str_eqb_eq. rewrite (same_part t hourly DT P date at_ k c Vd Ca Hk), On, Hc. reflexivity.
      + exfalso. rewrite (backout_name u PU M PE) in Hn. apply not_true_iff_false in Hn. apply Hn.
        apply contains_iff. exists (fill u at_ ++ $"/"), ($"/" ++ file_of M x). rewrite <- !app_assoc. reflexivity.
    - intros p k x Hp Hk. apply not_true_iff_false. intros C. destruct (IR p Hp) as (date & Hd & ->).
      destruct (part_fill t hourly DT P date k Hk) as (at_ & Ef).
      apply (name_contains M PN PE (id_of (day_folder t date) k) x) in C.
      + destruct C as (c0 & Hw & C). destruct (HD date Hd) as (_ & Cl & _).
        rewrite (part_clean t hourly date k Cl Hk c0 Hw) in C. discriminate.
      + rewrite Ef. apply fill_relative, PU.
      + rewrite Ef. apply fill_depth, PU.
      + rewrite Ef. intros Cd. apply (fill_no_dot u PU at_). eapply components_chars; [|exact Cd].
        destruct (two_ends _ (fill_depth u PU at_)) as (b & mid & z & ->). change (b :: mid ++ [z]) with ((b :: mid) ++ [z]).
        rewrite last_last. apply in_app_iff. right. left. auto.
      + rewrite Ef. apply fill_no_brace, PU.
    - assert (AS : StronglySorted (fun a b => str_compare a b = Lt) (ids roots keys)).
      { unfold ids. apply (sorted_flat _ _ (fun a b => str_compare a b = Lt)); [exact HS| |].
        + intros p Hp. unfold keys, keys_of. destruct hourly; [|repeat constructor].
          rewrite map_map. pose proof (sorted_unmap _ _ _ hours_sorted) as S0. revert S0. apply sorted_map.
          intros a b _ _ L. unfold id_of, key_of. rewrite str_compare_prefix. exact L.
        + intros a b x y Ha Hb L Hx Hy. destruct (IR a Ha) as (da & Hda & ->). destruct (IR b Hb) as (db & Hdb & ->).
          apply in_map_iff in Hx as (k & <- & _). apply in_map_iff in Hy as (k' & <- & _).
          unfold id_of. apply str_compare_app; auto. }
      assert (WI : forall a b, In a (ids roots keys) -> In b (ids roots keys) -> length a = length b).
      { intros a b Ha Hb. destruct (II a Ha) as (da & k & Hda & Hk & ->). destruct (II b Hb) as (db & k' & Hdb & Hk' & ->).
        unfold id_of. rewrite !app_length. f_equal; [now apply HL|].
        unfold keys, keys_of in Hk, Hk'. destruct hourly.
        + apply in_map_iff in Hk as (h & <- & Hh). apply in_map_iff in Hk' as (h' & <- & Hh'). apply in_seq in Hh, Hh'.
          unfold key_of. rewrite !app_length, !hour_width by lia. reflexivity.
        + destruct Hk as [<-|[]], Hk' as [<-|[]]. reflexivity. }
      rewrite <- (map_id (ids roots keys)). revert AS. apply sorted_map. intros a b Ha Hb L x y. apply str_compare_app; auto.
    - intros id Hi. destruct (II id Hi) as (date & k & Hd & Hk & ->). destruct (part_fill t hourly DT P date k Hk) as (at_ & ->).
      apply fill_folder, PU.
    - intros p Hp. destruct (IR p Hp) as (date & Hd & ->). now apply HD.
    - intros b f Hk. unfold keys, keys_of in Hk. destruct hourly; [|destruct Hk as [Hk|[]]; discriminate].
      apply in_map_iff in Hk as (h & [= <- <-] & Hh).
      assert (NU : forall c, In c ($"hour=" ++ dec_pad 2 (N.of_nat h)) -> c <> "_"%char /\ c <> "/"%char).
      { intros c Hc. apply in_app_iff in Hc as [Hc|Hc].
        - simpl in Hc. repeat (destruct Hc as [<-|Hc]; [split; discriminate|]). destruct Hc.
        - apply dec_pad_digits in Hc. split; intros ->; discriminate. }
      split; [unfold part_ok; simpl; intuition discriminate|]. split; [reflexivity|]. split; [reflexivity|].
      split; [intros C; now apply NU in C|]. split; [reflexivity|]. split; [|reflexivity].
      apply not_true_iff_false. intros C. apply contains_iff in C as (a & b & C). destruct (NU "_"%char) as [Q _]; [|now apply Q].
      match type of C with ?l = _ => change (In "_"%char l) end. rewrite C. apply in_app_iff. right. right. right. left. reflexivity.
    - intros k k' Hk Hk'. unfold keys, keys_of in Hk, Hk'. destruct hourly.
      + apply in_map_iff in Hk as (h & <- & Hh). apply in_map_iff in Hk' as (h' & <- & Hh'). apply in_seq in Hh, Hh'.
        unfold key_of. split; [reflexivity|]. split; [rewrite !app_length, !hour_width by lia; reflexivity|].
        apply not_true_iff_false. intros C.
        assert (L : forallb (fun h => negb (endswith $"by_hour" ($"hour=" ++ dec_pad 2 (N.of_nat h)))) (seq 0 24) = true) by (vm_compute; reflexivity).
        rewrite forallb_forall in L. rewrite (proj1 (negb_true_iff _) (L h' (proj2 (in_seq _ _ _) Hh'))) in C. discriminate.
      + destruct Hk as [<-|[]], Hk' as [<-|[]]. exact I.
    - intros p c Hp Hc. destruct (IR p Hp) as (date & Hd & ->). destruct (HD date Hd) as (_ & Cl & _).
      destruct (Cl c Hc) as (C1 & C2 & C3 & _).
      assert (B : forall b, contains $"by_" b = true -> contains b c = true -> False).
      { intros b H1 H2. apply contains_iff in H1 as (x & y & ->). apply contains_iff in H2 as (x' & y' & ->).
        apply not_true_iff_false in C1. apply C1. apply contains_iff. exists (x' ++ x), (y ++ y'). now rewrite <- !app_assoc. }
      split; [|split; [exact C2|split; [exact C3|]]].
      + apply not_true_iff_false. intros S0. apply startswith_iff in S0 as (r & ->). apply not_true_iff_false in C1. apply C1.
        apply contains_iff. exists [], r. reflexivity.
      + intros b f Hk. unfold keys, keys_of in Hk. destruct hourly; [|destruct Hk as [Hk|[]]; discriminate].
        apply in_map_iff in Hk as (h & [= <- <-] & Hh). apply not_true_iff_false. intros S0.
        apply (B $"by_hour"); [reflexivity|]. apply endswith_iff in S0 as (r & ->). apply contains_iff. exists r, []. now rewrite app_nil_r.
  Qed.

  Lemma days_stored days blobs w store hash loads n :
    timed M blobs w -> good_clock (m_base M) (attempts w) -> reads_log read_blob (puts w) ->
    (forall b, In b blobs -> snd b <> [] -> exists at_ r, clock_time at_ /\ fst b = fill u at_ ++ suffix_of M r) ->
    (forall date, In date days -> valid_day date /\ clean_folder (day_folder t date) /\
                                  lists_folder store (puts w) (day_folder t date)) ->
    StronglySorted (fun a b => str_compare a b = Lt) (map (day_folder t) days) ->
    (forall a b, In a days -> In b days -> length (day_folder t a) = length (day_folder t b)) ->
    let wanted := flat_map (fun id => stored_for id blobs) (ids (map (day_folder t) days) (keys_of hourly)) in
    (forall r, In r wanted -> fits r /\ applies columns filters cf pf (image r)) ->
    gives wanted (firstn n (selected wanted)) (read_records hash loads (fun _ => get_list_of_blobs None store (map (day_folder t) days)) 0 records NoCursor n).
  Proof.
    intros TM. destruct (timed_rows M blobs w TM) as (rows & R1 & R2 & R3 & R4). now apply (days_rowed days blobs w store hash loads n rows).
  Qed.

  (** what was stored for a partition was sent there *)
  Lemma sent_places es os b : snd b <> [] ->
    (forall r at_, In (SAppend r at_) es -> clock_time at_) ->
    (forall r, In r (snd b) -> In r (sent M (es ++ [SFinalize]) os (fst b))) ->
    exists at_ r, clock_time at_ /\ fst b = fill u at_ ++ suffix_of M r.
  Proof.
    intros Nb HC HS. pose proof (proper_sub t hourly P) as PU.
    destruct (snd b) as [|r g] eqn:Eg; [congruence|].
    assert (Hr : In r (sent M (es ++ [SFinalize]) os (fst b))) by (apply HS; left; auto).
    apply sent_In in Hr as (at_ & Ha & Ht).
    rewrite (targets_dates u PU M SM T) in Ht. destruct Ht as [<-|[]]. exists at_, r. split; auto.
    apply in_app_iff in Ha as [Ha|[Ha|[]]]; [eapply HC; eauto|discriminate].
  Qed.
  Lemma in_stored_for (b : str * list value) blobs r : In b blobs -> In r (snd b) -> In r (stored_for (fst b) blobs).
  Proof.
    intros Hb Hr. unfold stored_for. apply in_concat. exists (snd b). split; [|exact Hr].
    apply in_map. apply filter_In. split; auto. apply str_eqb_refl.
  Qed.

  Lemma days_read days es os s store hash loads n :
    srun M new_stream (es ++ [SFinalize]) = (os, s) ->
    (forall r at_, In (SAppend r at_) es -> clock_time at_) ->
    good_clock (m_base M) (attempts (world_of s)) ->
    reads_log read_blob (puts (world_of s)) ->
    (forall date, In date days -> valid_day date /\ clean_folder (day_folder t date) /\
                                  lists_folder store (puts (world_of s)) (day_folder t date)) ->
    StronglySorted (fun a b => str_compare a b = Lt) (map (day_folder t) days) ->
    (forall a b, In a days -> In b days -> length (day_folder t a) = length (day_folder t b)) ->
    let wanted := flat_map (fun date => flat_map (fun c => accepted_on M (fun at_ => on_day date at_ && c at_) es os) (conds hourly)) days in
    (forall r, In r wanted -> fits r /\ applies columns filters cf pf (image r)) ->
    gives wanted (firstn n (selected wanted)) (read_records hash loads (fun _ => get_list_of_blobs None store (map (day_folder t) days)) 0 records NoCursor n).
  Proof.
    intros E HC CL RL HD HS HL wanted HR.
    destruct (all_timed M RE _ _ _ E) as (blobs & TM & ST).
    assert (W : flat_map (fun id => stored_for id blobs) (ids (map (day_folder t) days) (keys_of hourly)) = wanted).
    { unfold ids, wanted. rewrite flat_map_flat, flat_map_map. apply flat_map_same. intros date Hd.
      rewrite flat_map_map. apply flat_parts. intros k c Hk. rewrite ST. apply (sent_accepted t hourly DT P M SM T); auto. now apply HD. }
    rewrite <- W in *. clear wanted W.
    apply days_stored with (w := world_of s); auto.
    intros b Hb Nb. apply (sent_places es os b Nb HC). intros r Hr. rewrite <- ST. now apply in_stored_for.
  Qed.
End Written.
