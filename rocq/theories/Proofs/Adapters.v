(** What the storage adapters write, list and read. *)
From Verif.Base Require Import Py PyFacts.
From Verif.Model Require Import Paths Writers Adapters.
From Verif.Spec Require Import Paths Adapters.
From Verif.Proofs Require Import Paths Writers.

(** ** Places *)
Lemma place_eqb_spec a b : place_eqb a b = true <-> a = b.
Proof.
  destruct a as [a1 a2], b as [b1 b2]. unfold place_eqb. cbn [fst snd].
  rewrite andb_true_iff, !str_eqb_eq. split; [intros [-> ->]; auto|intros H; injection H; auto].
Qed.
Lemma place_eqb_refl a : place_eqb a a = true. Proof. apply place_eqb_spec. auto. Qed.
Lemma place_eqb_ne a b : a <> b -> place_eqb a b = false.
Proof. intros H. destruct (place_eqb a b) eqn:E; auto. apply place_eqb_spec in E. congruence. Qed.

Lemma lookup_in p s v : lookup p s = Some v -> In (p, v) s.
Proof.
  induction s as [|[q w] s IH]; cbn [lookup]; [discriminate|].
  destruct (place_eqb p q) eqn:E; intros H.
  - apply place_eqb_spec in E. injection H as ->. left. congruence.
  - right. auto.
Qed.
Lemma lookup_none p s : ~ In p (map fst s) -> lookup p s = None.
Proof.
  induction s as [|[q w] s IH]; cbn [lookup map In fst]; auto. intros H.
  rewrite place_eqb_ne by (intros <-; auto). auto.
Qed.
Lemma in_lookup p s v : NoDup (map fst s) -> In (p, v) s -> lookup p s = Some v.
Proof.
  induction s as [|[q w] s IH]; cbn [lookup map In fst]; [intros _ []|]. intros N [H|H]; inversion N; subst.
  - injection H as -> ->. rewrite place_eqb_refl. auto.
  - rewrite place_eqb_ne; auto. intros <-. apply H2. apply in_map_iff. exists (p, v). auto.
Qed.
Lemma lookup_put p v s : lookup p (put p v s) = Some v.
Proof. unfold put. cbn [lookup]. rewrite place_eqb_refl. auto. Qed.
Lemma lookup_put_other p q v s : p <> q -> lookup p (put q v s) = lookup p s.
Proof.
  intros H. unfold put. cbn [lookup]. rewrite place_eqb_ne by auto.
  induction s as [|[r w] s IH]; cbn [filter fst lookup]; auto.
  destruct (place_eqb q r) eqn:E; cbn [negb].
  - apply place_eqb_spec in E. subst r. rewrite place_eqb_ne by auto. auto.
  - cbn [lookup]. destruct (place_eqb p r); auto.
Qed.
Lemma in_put e p v s : In e (put p v s) <-> e = (p, v) \/ (fst e <> p /\ In e s).
Proof.
  unfold put. cbn [In]. rewrite filter_In, negb_true_iff. split.
  - intros [<-|[H E]]; auto. right. split; auto. intros X. rewrite <- X, place_eqb_refl in E. discriminate.
  - intros [->|[H E]]; auto. right. split; auto. apply place_eqb_ne. auto.
Qed.
Lemma put_nodup p v s : NoDup (map fst s) -> NoDup (map fst (put p v s)).
Proof.
  intros N. cbn [put map fst]. constructor.
  - intros H. apply in_map_iff in H. destruct H as (e & E & H). apply filter_In in H.
    destruct H as [_ H]. rewrite E, place_eqb_refl in H. discriminate.
  - induction s as [|e s IH]; cbn [filter map]; [constructor|]. inversion N; subst.
    destruct (negb (place_eqb p (fst e))); auto. cbn [map]. constructor; auto.
    intros X. apply H1. apply in_map_iff in X. destruct X as (x & Ex & Hx). apply filter_In in Hx.
    apply in_map_iff. exists x. tauto.
Qed.

(** ** Text *)
Lemma sep_inj c (a a' x y : str) : ~ In c a -> ~ In c a' -> a ++ c :: x = a' ++ c :: y -> a = a' /\ x = y.
Proof.
  revert a'. induction a as [|u a IH]; intros [|u' a'] Ha Ha' E; cbn [app] in E.
  - injection E as ->. auto.
  - injection E as -> _. exfalso. apply Ha'. left. auto.
  - injection E as -> _. exfalso. apply Ha. left. auto.
  - injection E as -> E. destruct (IH a') as [-> ->]; auto; intros H; [apply Ha|apply Ha']; right; auto.
Qed.
Lemma ends_slash_app a b : b <> [] -> endswith $"/" (a ++ b) = endswith $"/" b.
Proof.
  intros H. unfold endswith. rewrite rev_app_distr.
  destruct (rev b) as [|c r] eqn:E.
  - apply (f_equal (@rev ascii)) in E. rewrite rev_involutive in E. cbn in E. congruence.
  - cbn [list_ascii_of_string rev app startswith]. destruct (Ascii.eqb "/" c); auto.
Qed.
Lemma ends_no_slash a : ~ In "/"%char a -> endswith $"/" a = false.
Proof.
  intros H. destruct (endswith $"/" a) eqn:E; auto. apply endswith_iff in E. destruct E as [t ->].
  exfalso. apply H. apply in_app_iff. right. left. auto.
Qed.
Lemma join_ends l : l <> [] -> (forall c, In c l -> component c) -> endswith $"/" (join $"/" l) = false.
Proof.
  intros N H. destruct (exists_last N) as (l' & z & ->).
  assert (Hz: component z) by (apply H, in_app_iff; right; left; auto).
  destruct l' as [|x l'].
  - cbn [app join]. apply ends_no_slash, Hz.
  - rewrite join_app by discriminate. rewrite app_assoc, ends_slash_app by apply Hz.
    apply ends_no_slash, Hz.
Qed.
Lemma join_nonempty l : l <> [] -> (forall c, In c l -> component c) -> join $"/" l <> [].
Proof.
  intros N H. destruct l as [|c l]; [congruence|]. assert (Hc: component c) by (apply H; left; auto).
  destruct l; cbn [join]; [apply Hc|]. intros X. apply app_eq_nil in X. destruct Hc. tauto.
Qed.
Lemma join_no_brace x l : (forall c, In c l -> ~ In x c) -> x <> "/"%char -> ~ In x (join $"/" l).
Proof.
  intros H Hx. induction l as [|c [|d l] IH]; cbn [join]; auto.
  - apply H. left. auto.
  - rewrite !in_app_iff. intros [X|[[X|[]]|X]].
    + apply (H c); [left|]; auto.
    + congruence.
    + apply IH; auto. intros c' H'. apply H. right. auto.
Qed.

(** the extension of a file *)
Lemma rfind_dot_from_last i a e f : ~ In "."%char e ->
  rfind_dot_from i (a ++ "."%char :: e) f = Some (i + length a)%nat.
Proof.
  revert i f. induction a as [|c a IH]; intros i f H; cbn [app rfind_dot_from length].
  - rewrite Ascii.eqb_refl, rfind_dot_from_none by auto. f_equal. lia.
  - rewrite IH by auto. f_equal. lia.
Qed.
Lemma ext_parts file : with_extension file -> exists x, snd (stem_suffix file) = "."%char :: x.
Proof.
  intros (a & e & -> & Ha & He & D). unfold stem_suffix, rfind_dot.
  change (a ++ $"." ++ e) with (a ++ "."%char :: e). rewrite rfind_dot_from_last by auto.
  assert ((0 <? 0 + length a)%nat = true) as -> by (apply Nat.ltb_lt; destruct a; [congruence|cbn; lia]).
  assert ((0 + length a <? length (a ++ "."%char :: e) - 1)%nat = true) as ->.
  { apply Nat.ltb_lt. rewrite app_length. cbn [length]. destruct e; [congruence|]. cbn [length]. lia. }
  cbn [andb snd]. exists e. rewrite Nat.add_0_l, skipn_app, skipn_all, Nat.sub_diag. reflexivity.
Qed.

(** ** A folder *)
Section Folder.
  Variables (b : str) (fs : list str).
  Hypothesis F : folder (b :: fs).
  Let obj := join $"/" fs.
  Let base := join $"/" (b :: fs).

  Lemma fs_ne : fs <> [].
  Proof. destruct F as (L & _). intros E. rewrite E in L. cbn in L. lia. Qed.
  Lemma comp c : In c (b :: fs) -> component c.
  Proof. apply F. Qed.
  Lemma fs_comp c : In c fs -> component c.
  Proof. intros. apply F. right. auto. Qed.
  Lemma b_comp : component b. Proof. apply F. left. auto. Qed.
  Lemma base_eq : base = b ++ $"/" ++ obj.
  Proof. unfold base. rewrite join_cons by apply fs_ne. reflexivity. Qed.
  Lemma obj_no_braces : no_braces obj.
  Proof.
    split; apply join_no_brace; try discriminate; intros c H;
      destruct F as (_ & C & _); apply (C c); right; auto.
  Qed.
  Lemma base_relative : relative base.
  Proof. apply join_components_relative; [apply comp|discriminate]. Qed.
  Lemma base_components : components_of base = b :: fs.
  Proof. apply components_join, comp. Qed.

  Lemma folder_parts s : relative s -> components_of s = b :: fs ->
    get_parts s = Ok (b, obj ++ $"/", None, None).
  Proof.
    intros R C. destruct (exists_last fs_ne) as (mid & z & E).
    rewrite (get_parts_eq s b mid z) by (rewrite ?C, ?E; auto).
    destruct F as (_ & _ & X).
    assert (L: last (b :: fs) [] = z).
    { rewrite E. change (b :: mid ++ [z]) with ((b :: mid) ++ [z]). apply last_last. }
    rewrite L in X. rewrite no_ext_suffix by auto. cbn [snd].
    rewrite <- E, pp_str_join by apply fs_ne. reflexivity.
  Qed.

  (** *** the writer *)
  Definition writer_at (k : kind) (x : str) (i : inner) : Prop :=
    i_bucket i = b /\ i_without_bucket i = obj ++ $"/" ++ $"{stem}" ++ x /\
    (i_filename i = obj ++ $"/" ++ $"{stem}" ++ x /\ k <> Disk
     \/ i_filename i = base ++ $"/" ++ $"{stem}" ++ x /\ k <> MinIo).

  Lemma new_writer_at k f ext ds : relative ds -> components_of ds = b :: fs ->
    exists i, new_inner k f ext ds = Ok i /\ writer_at k (extension f ext) i /\
      (k = Gcs -> i_filename i = base ++ $"/" ++ $"{stem}" ++ extension f ext).
  Proof.
    intros R C. unfold new_inner. rewrite folder_parts by auto. cbn [bind].
    assert (str_eqb b $"/" = false) as ->.
    { apply str_eqb_neq. intros E. destruct b_comp as (_ & _ & H). apply H. rewrite E. left. auto. }
    assert (str_eqb (obj ++ $"/") $"/" = false) as ->.
    { apply str_eqb_neq. intros E. pose proof (join_nonempty fs fs_ne fs_comp) as N. fold obj in N.
      destruct obj as [|c [|d o]]; [congruence|discriminate|discriminate]. }
    assert (A: (obj ++ $"/") ++ $"{stem}" ++ extension f ext = obj ++ $"/" ++ $"{stem}" ++ extension f ext)
      by (rewrite <- app_assoc; reflexivity).
    eexists. split; [reflexivity|]. unfold writer_at. cbn [i_bucket i_filename i_without_bucket].
    rewrite A, base_eq. split.
    - repeat split; auto. destruct k; [right|left|right]; (split; [|discriminate]); rewrite <- ?app_assoc; reflexivity.
    - intros ->. rewrite <- !app_assoc. reflexivity.
  Qed.
End Folder.

Lemma blob_name_at dir x node t : ~ In "{"%char dir -> ~ In "{"%char x ->
  blob_name (dir ++ $"/" ++ $"{stem}" ++ x) node t = dir ++ $"/" ++ hex t ++ $"-" ++ node ++ x.
Proof.
  intros D X. unfold blob_name.
  assert (Hd: ~ In "{"%char (dir ++ $"/")).
  { rewrite in_app_iff. intros [H|[H|[]]]; [auto|discriminate]. }
  rewrite (app_assoc dir).
  pose proof (replace_skip "{"%char $"stem}" (hex t ++ $"-" ++ node) (dir ++ $"/") ($"{stem}" ++ x) Hd) as Q.
  change ("{"%char :: $"stem}") with $"{stem}" in Q. rewrite Q.
  rewrite replace_here by discriminate. rewrite replace_none by (discriminate || now apply not_contains_brace).
  rewrite <- !app_assoc. reflexivity.
Qed.
Lemma completion_at dir x : dir <> [] -> endswith $"/" dir = false -> ~ In "/"%char x ->
  completion_path (dir ++ $"/" ++ $"{stem}" ++ x) = dir ++ $"/frame.complete".
Proof.
  intros D E X. unfold completion_path. f_equal. unfold dirname.
  destruct (exists_last D) as (d & c & Ed).
  assert (Hc: c <> "/"%char).
  { intros ->. rewrite Ed in E. unfold endswith in E. rewrite rev_app_distr in E. discriminate. }
  rewrite split_last.
  - rewrite removelast_last.
    pose proof (split_nonempty "/"%char dir) as N.
    destruct (split "/"%char dir) as [|w ws] eqn:Es; [congruence|].
    rewrite <- Es. change $"/" with ["/"%char]. rewrite join_split. rewrite Ed, <- app_assoc.
    pose proof (rstrip_slash_snoc d c Hc) as Q. change $"/" with ["/"%char] in Q. rewrite Q. destruct d; reflexivity.
  - rewrite in_app_iff. intros [H|H]; [|auto]. cbv in H. intuition discriminate.
Qed.
Lemma extension_no_slash f ext : ~ In "/"%char ext -> ~ In "/"%char (extension f ext).
Proof.
  intros H. destruct f; cbn [extension]; auto; try (rewrite !in_app_iff; intros [X|X]; [auto|]); try intros X;
    cbv in X; intuition discriminate.
Qed.
Lemma extension_no_brace f ext : ~ In "{"%char ext -> ~ In "{"%char (extension f ext).
Proof.
  intros H. destruct f; cbn [extension]; auto; try (rewrite !in_app_iff; intros [X|X]; [auto|]); try intros X;
    cbv in X; intuition discriminate.
Qed.
Lemma blob_file_good f ext node t : fit_names f ext node ->
  component (blob_file f ext node t) /\ with_extension (blob_file f ext node t).
Proof.
  intros (Hn & He & Hb & a & e & Ex & Ene & Ed). unfold blob_file.
  pose proof (hex_nonempty t) as N.
  destruct (hex t) as [|h0 h] eqn:Eh; [congruence|].
  split; [split; [|split]|].
  - discriminate.
  - intros X. cbn [app] in X. injection X as _ X. destruct h; discriminate.
  - rewrite !in_app_iff. intros [X|[X|[X|X]]].
    + rewrite <- Eh in X. apply hex_chars in X. vm_compute in X. discriminate.
    + cbv in X. intuition discriminate.
    + auto.
    + apply extension_no_slash in X; auto.
  - exists (((h0 :: h) ++ $"-" ++ node) ++ a), e. rewrite Ex, <- !app_assoc. cbn [app]. repeat split; auto. discriminate.
Qed.
Lemma marker_good : component $"frame.complete" /\ with_extension $"frame.complete".
Proof.
  split.
  - repeat split; try discriminate. cbv. intuition discriminate.
  - exists $"frame", $"complete". repeat split; try discriminate. cbv. intuition discriminate.
Qed.

Lemma name_for_some i n node t : n <> [] -> name_for i (Some n) node t = n.
Proof. destruct n; [congruence|reflexivity]. Qed.

Section Store.
  Variables (b : str) (fs : list str).
  Hypothesis F : folder (b :: fs).
  Let obj := join $"/" fs.
  Let base := join $"/" (b :: fs).

  (** where the blob [file] of the folder is *)
  Definition place_in (k : kind) (file : str) : place :=
    match k with Disk => ([], base ++ $"/" ++ file) | _ => (b, obj ++ $"/" ++ file) end.

  Lemma named file : base ++ $"/" ++ file = join $"/" ((b :: fs) ++ [file]).
  Proof. unfold base. rewrite join_app by discriminate. reflexivity. Qed.
  Lemma named_comp file : component file -> forall c, In c ((b :: fs) ++ [file]) -> component c.
  Proof. intros H c Hc. apply in_app_iff in Hc. destruct Hc as [Hc|[<-|[]]]; auto. apply (comp b fs F); auto. Qed.
  Lemma named_relative file : component file -> relative (base ++ $"/" ++ file).
  Proof. intros H. rewrite named. apply join_components_relative; [apply named_comp; auto|discriminate]. Qed.
  Lemma named_file file : component file -> file_of (base ++ $"/" ++ file) = ([], base ++ $"/" ++ file).
  Proof.
    intros H. unfold file_of. rewrite named, parse_join by (apply named_comp; auto).
    rewrite pp_str_join by discriminate. reflexivity.
  Qed.
  Lemma named_parts file : component file -> with_extension file -> exists st su,
    get_parts (base ++ $"/" ++ file) = Ok (b, obj ++ $"/", Some st, Some su) /\ st ++ su = file.
  Proof.
    intros H X. destruct (ext_parts file X) as [x Ex].
    rewrite (get_parts_eq _ b fs file); [|apply named_relative; auto|].
    - rewrite Ex. rewrite pp_str_join by apply (fs_ne b fs F). do 2 eexists. split; [reflexivity|].
      rewrite <- Ex. apply stem_suffix_app.
    - rewrite named, components_join by (apply named_comp; auto). reflexivity.
  Qed.
  Lemma read_named k file s : component file -> with_extension file ->
    get_blob_bytes k (base ++ $"/" ++ file) s =
    match lookup (place_in k file) s with Some v => Ok v | None => Raise StorageError end.
  Proof.
    intros H X. destruct k; cbn [get_blob_bytes place_in].
    - rewrite named_file by auto. reflexivity.
    - destruct (named_parts file H X) as (st & su & -> & <-). cbn [bind]. rewrite <- app_assoc. reflexivity.
    - destruct (named_parts file H X) as (st & su & -> & <-). cbn [bind]. rewrite <- app_assoc. reflexivity.
  Qed.

  Lemma name_given k i file : i_bucket i = b ->
    component file -> with_extension file -> forall node t data s,
    commit Disk i (Some (base ++ $"/" ++ file)) node t data s
      = Ok (base ++ $"/" ++ file, i, put (place_in Disk file) data s)
    /\ (k <> Disk -> exists i', commit k i (Some (obj ++ $"/" ++ file)) node t data s
                               = Ok (obj ++ $"/" ++ file, i', put (place_in k file) data s)).
  Proof.
    intros Bk C X node t data s.
    assert (NE: forall d : str, d ++ $"/" ++ file <> []) by (intros d E; apply app_eq_nil in E; destruct E; discriminate).
    split.
    - cbn [commit place_in]. rewrite name_for_some by apply NE.
      destruct (named_parts file C X) as (st & su & -> & _). cbn [bind]. rewrite named_file by auto. reflexivity.
    - intros Hk. destruct k; [congruence| |]; cbn [commit place_in i_bucket]; rewrite name_for_some, Bk by apply NE;
        eexists; reflexivity.
  Qed.

  Lemma commit_at k f ext i node t data s : fit_names f ext node -> writer_at b fs k (extension f ext) i ->
    exists name i', commit k i None node t data s =
                    Ok (name, i', put (place_in k (blob_file f ext node t)) data s)
      /\ writer_at b fs k (extension f ext) i' /\ (k = Gcs -> i_filename i' = obj ++ $"/" ++ $"{stem}" ++ extension f ext).
  Proof.
    intros Fit (Bk & W & Fn). pose proof (blob_file_good f ext node t Fit) as (C & Xt).
    destruct Fit as (Hn & He & Hb & _).
    pose proof (extension_no_brace f ext (proj1 Hb)) as X.
    assert (O: ~ In "{"%char obj) by apply (obj_no_braces b fs F).
    assert (Bs: ~ In "{"%char base).
    { apply join_no_brace; [|discriminate]. intros c Hc. destruct F as (_ & C' & _). apply (C' c Hc). }
    destruct k; cbn [commit name_for i_filename].
    - destruct Fn as [[_ N]|[Fn _]]; [congruence|]. rewrite Fn, blob_name_at by auto.
      fold base. change (base ++ $"/" ++ hex t ++ $"-" ++ node ++ extension f ext) with (base ++ $"/" ++ blob_file f ext node t).
      destruct (named_parts _ C Xt) as (st & su & -> & _). cbn [bind]. rewrite named_file by auto.
      do 2 eexists. split; [reflexivity|]. split; [|discriminate]. split; [auto|]. split; [auto|]. right. split; [auto|discriminate].
    - destruct Fn as [[Fn _]|[_ N]]; [|congruence]. rewrite Fn, Bk, blob_name_at by auto.
      do 2 eexists. split; [reflexivity|]. split; [|discriminate]. split; [auto|]. split; [auto|]. left. split; [auto|discriminate].
    - cbn [i_bucket]. rewrite W, Bk, blob_name_at by auto.
      do 2 eexists. split; [reflexivity|]. cbn [i_filename i_bucket]. split; [|reflexivity].
      split; [reflexivity|]. split; [reflexivity|]. left. split; [reflexivity|discriminate].
  Qed.

  (** *** the marker *)
  Lemma mark_at k f ext i node t s : fit_names f ext node -> writer_at b fs k (extension f ext) i ->
    (k = Gcs -> i_filename i = obj ++ $"/" ++ $"{stem}" ++ extension f ext) ->
    exists name i', mark_complete k i node t s = Ok (name, i', put (place_in k $"frame.complete") [] s).
  Proof.
    intros (Hn & He & Hb & _) (Bk & W & Fn) G. pose proof (extension_no_slash f ext He) as X.
    destruct marker_good as (C & Xt). unfold mark_complete.
    destruct (name_given k i $"frame.complete" Bk C Xt node t [] s) as (D & O).
    assert (E: k <> Disk -> i_filename i = obj ++ $"/" ++ $"{stem}" ++ extension f ext).
    { intros Hk. destruct Fn as [[-> _]|[Fn M]]; [reflexivity|]. destruct k; [congruence|congruence|auto]. }
    destruct k.
    - destruct Fn as [[_ N]|[-> _]]; [congruence|]. rewrite completion_at.
      + change (join $"/" (b :: fs) ++ $"/frame.complete") with (base ++ $"/" ++ $"frame.complete"). eauto.
      + apply join_nonempty; [discriminate|apply (comp b fs F)].
      + apply join_ends; [discriminate|apply (comp b fs F)].
      + auto.
    - rewrite E by discriminate. rewrite completion_at by
        (auto; first [apply join_nonempty; [apply (fs_ne b fs F)|apply (fs_comp b fs F)]
                     |apply join_ends; [apply (fs_ne b fs F)|apply (fs_comp b fs F)]]).
      destruct (O ltac:(discriminate)) as (i' & Oi). exists (obj ++ $"/" ++ $"frame.complete"), i'. exact Oi.
    - rewrite E by discriminate. rewrite completion_at by
        (auto; first [apply join_nonempty; [apply (fs_ne b fs F)|apply (fs_comp b fs F)]
                     |apply join_ends; [apply (fs_ne b fs F)|apply (fs_comp b fs F)]]).
      destruct (O ltac:(discriminate)) as (i' & Oi). exists (obj ++ $"/" ++ $"frame.complete"), i'. exact Oi.
  Qed.
  (** a Google Cloud Storage writer which has committed nothing *)
  Lemma mark_misplaced f ext ds i node t s : fit_names f ext node -> relative ds -> components_of ds = b :: fs ->
    new_inner Gcs f ext ds = Ok i ->
    exists name i', mark_complete Gcs i node t s = Ok (name, i', put (b, base ++ $"/" ++ $"frame.complete") [] s).
  Proof.
    intros (Hn & He & Hb & _) R C N. pose proof (extension_no_slash f ext He) as X.
    destruct (new_writer_at b fs F Gcs f ext ds R C) as (i' & E & (Bk & _) & G). rewrite N in E. injection E as <-.
    unfold mark_complete. rewrite G by auto. rewrite completion_at.
    - change (join $"/" (b :: fs) ++ $"/frame.complete") with (base ++ $"/" ++ $"frame.complete").
      cbn [commit i_bucket]. rewrite name_for_some, Bk; [do 2 eexists; reflexivity|].
      intros E. apply app_eq_nil in E. destruct E; discriminate.
    - apply join_nonempty; [discriminate|apply (comp b fs F)].
    - apply join_ends; [discriminate|apply (comp b fs F)].
    - auto.
  Qed.

  (** *** listing *)
  Lemma in_keys bucket prefix s n : In n (keys_at bucket prefix s) <->
    exists key v, In (bucket, key, v) s /\ n = bucket ++ $"/" ++ key /\ startswith prefix key = true /\ endswith $"/" key = false.
  Proof.
    unfold keys_at. rewrite in_flat_map. split.
    - intros ([[b' key] v] & Hin & H). cbn [fst] in H.
      destruct (str_eqb b' bucket && startswith prefix key && negb (endswith $"/" key)) eqn:E; [|destruct H].
      destruct H as [<-|[]]. apply andb_true_iff in E. destruct E as [E E3]. apply andb_true_iff in E. destruct E as [E1 E2].
      apply str_eqb_eq in E1. apply negb_true_iff in E3. subst b'. exists key, v. auto.
    - intros (key & v & Hin & -> & P & E). exists (bucket, key, v). split; auto. cbn [fst].
      rewrite str_eqb_refl, P, E. cbn. auto.
  Qed.
  Lemma keys_nodup bucket prefix s : NoDup (map fst s) -> NoDup (keys_at bucket prefix s).
  Proof.
    induction s as [|[[b' key] v] s IH]; cbn [map fst]; intros N; [constructor|]. inversion N; subst.
    change (keys_at bucket prefix ((b', key, v) :: s)) with
      ((if str_eqb b' bucket && startswith prefix key && negb (endswith $"/" key) then [bucket ++ $"/" ++ key] else [])
         ++ keys_at bucket prefix s).
    destruct (str_eqb b' bucket && startswith prefix key && negb (endswith $"/" key)) eqn:E; cbn [app]; auto.
    constructor; auto. rewrite in_keys. intros (key' & v' & Hin & Eq & _).
    apply app_inv_head in Eq. apply (app_inv_head $"/") in Eq. subst key'.
    apply andb_true_iff in E. destruct E as [E _]. apply andb_true_iff in E. destruct E as [E _]. apply str_eqb_eq in E. subst b'.
    apply H1. apply in_map_iff. exists (bucket, key, v'). auto.
  Qed.

  Lemma below_iff x y : below x y = true <-> exists r, r <> [] /\ y = x ++ r.
  Proof.
    revert y. induction x as [|c x IH]; intros [|d y]; cbn [below app].
    - split; [discriminate|]. intros (r & N & E). congruence.
    - split; auto. intros _. exists (d :: y). split; [discriminate|auto].
    - split; [discriminate|]. intros (r & _ & E). discriminate.
    - rewrite andb_true_iff, str_eqb_eq, IH. split.
      + intros [-> (r & N & ->)]. eauto.
      + intros (r & N & E). injection E as -> ->. eauto.
  Qed.
  Lemma under_iff file : file_of file = ([], file) ->
    under base file = true <-> startswith (base ++ $"/") file = true /\ endswith $"/" file = false.
  Proof.
    intros N. apply (f_equal snd) in N. change (pp_str (pp_parse file) = file) in N. unfold under.
    assert (Pb: pp_parse base = ([], b :: fs)) by (apply parse_join, (comp b fs F)). rewrite Pb. cbn [fst snd].
    rewrite andb_true_iff, str_eqb_eq, below_iff.
    assert (Cc: forall c, In c (snd (pp_parse file)) -> component c) by (intros c; apply parse_components).
    split.
    - intros [R (r & Nr & E)]. destruct (pp_parse file) as [root cs] eqn:Ep. cbn [fst snd] in *. subst root cs.
      rewrite pp_str_join in N by discriminate. rewrite <- N. split.
      + rewrite join_app by (discriminate || auto). rewrite app_assoc. apply startswith_app.
      + apply join_ends; [discriminate|]. auto.
    - intros [S _]. apply startswith_iff in S. destruct S as [t E]. rewrite <- app_assoc in E.
      assert (R: relative file).
      { intros r X. rewrite E in X. pose proof (base_relative b fs F) as Rb. fold base in Rb.
        pose proof (join_nonempty (b :: fs) ltac:(discriminate) (comp b fs F)) as J. fold base in J.
        destruct base as [|c w]; [congruence|]. injection X as -> _. apply (Rb w). auto. }
      assert (Pf: pp_parse file = ([], (b :: fs) ++ components_of t)).
      { unfold pp_parse. rewrite relative_root by auto. f_equal. change (components_of file = (b :: fs) ++ components_of t).
        rewrite E, components_app_slash. unfold base. rewrite components_join by apply (comp b fs F). reflexivity. }
      rewrite Pf. cbn [fst snd]. split; auto. exists (components_of t). split; auto.
      intros Z. rewrite Pf, Z, app_nil_r, pp_str_join in N by discriminate. fold base in N.
      rewrite E in N. apply (f_equal (@length ascii)) in N. rewrite !app_length in N. cbn [length list_ascii_of_string] in N. lia.
  Qed.

  Lemma minio_prefix rnd h : build_path rnd (obj ++ $"/") h = Ok (obj ++ $"/").
  Proof.
    pose proof (build_path_template rnd [Lit obj] h) as B.
    unfold template_text, fill in B. cbn [map concat seg_text seg_value] in B. rewrite !app_nil_r in B. apply B.
    intros x [E|[]]. injection E as <-. apply (obj_no_braces b fs F).
  Qed.

  Theorem listed k rnd hours s : proper k s -> (k = MinIo -> hours <> []) ->
    exists out, get_blobs_at_path k rnd hours base s = Ok out /\
      (forall n, In n out <-> startswith (base ++ $"/") n = true /\ endswith $"/" n = false /\ exists data, holds k s n data) /\
      (k <> MinIo -> NoDup out).
  Proof.
    intros (N & P) Hh.
    assert (Obj: forall bk : kind, bk <> Disk -> proper bk s -> forall n, In n (keys_at b (obj ++ $"/") s) <->
              startswith (base ++ $"/") n = true /\ endswith $"/" n = false /\
              exists data, exists bucket key, component bucket /\ n = bucket ++ $"/" ++ key /\ In (bucket, key, data) s).
    { intros bk Hbk Pb n. rewrite in_keys. unfold base. rewrite (base_eq b fs F). fold obj. split.
      - intros (key & v & Hin & -> & Pk & Ek).
        assert (Kn: key <> []).
        { intros ->. destruct (obj ++ $"/") eqn:E; [apply app_eq_nil in E; destruct E; discriminate|discriminate Pk]. }
        split; [|split].
        + apply startswith_iff in Pk. destruct Pk as [t ->]. rewrite !app_assoc. apply startswith_app.
        + rewrite app_assoc, ends_slash_app; auto.
        + exists v, b, key. split; [apply (b_comp b fs F)|auto].
      - intros (Sn & En & data & bucket & key & Cb & -> & Hin).
        apply startswith_iff in Sn. destruct Sn as [t E]. rewrite <- !app_assoc in E.
        apply (sep_inj "/"%char) in E; [|apply Cb|apply (b_comp b fs F)]. destruct E as [-> ->].
        exists (obj ++ $"/" ++ t), data. split; [auto|]. split; [auto|]. split.
        + rewrite app_assoc. apply startswith_app.
        + rewrite app_assoc, ends_slash_app in En; auto.
          intros E. apply app_eq_nil in E. destruct E; discriminate. }
    assert (Gp: get_parts base = Ok (b, obj ++ $"/", None, None)).
    { apply (folder_parts b fs F); [apply (base_relative b fs F)|apply (base_components b fs F)]. }
    destruct k; cbn [get_blobs_at_path].
    - eexists. split; [reflexivity|]. split.
      + intros n. rewrite in_map_iff. split.
        * intros ([[b' key] v] & <- & H). apply filter_In in H. cbn [fst snd] in *. destruct H as [Hin H].
          apply andb_true_iff in H. destruct H as [H U]. apply str_eqb_eq in H. subst b'.
          apply under_iff in U; [|symmetry; apply (P _ _ Hin)]. destruct U. repeat split; auto. exists v. exact Hin.
        * intros (Sn & En & data & H). cbn [holds] in H. exists ([], n, data). split; auto. apply filter_In. split; auto.
          cbn [fst snd]. rewrite str_eqb_refl. cbn [andb]. apply under_iff; [|auto]. symmetry. apply (P _ _ H).
      + intros _. clear -N. induction s as [|[[b' key] v] s IH]; cbn [filter map fst snd]; [constructor|].
        cbn [map fst] in N. inversion N; subst.
        destruct (str_eqb b' [] && under base key) eqn:E; auto. cbn [map fst snd]. constructor; auto.
        intros H. apply in_map_iff in H. destruct H as ([[b2 k2] v2] & E2 & H). cbn [fst snd] in E2. subst k2.
        apply filter_In in H. cbn [fst snd] in H. destruct H as [Hin H].
        apply andb_true_iff in E, H. destruct E as [E _]. destruct H as [H _]. apply str_eqb_eq in E, H. subst b' b2.
        apply H1. apply in_map_iff. exists ([], key, v2). auto.
    - rewrite Gp. cbn [bind].
      assert (M: forall hs, mapM (fun h => let* cycle := build_path rnd (obj ++ $"/") h in Ok (keys_at b cycle s)) hs
                 = Ok (map (fun _ => keys_at b (obj ++ $"/") s) hs)).
      { induction hs as [|h hs IH]; auto. cbn [mapM map]. rewrite IH. rewrite (minio_prefix rnd h). reflexivity. }
      rewrite M. cbn [bind]. eexists. split; [reflexivity|]. split; [|congruence].
      intros n. cbn [holds]. rewrite <- (Obj MinIo) by (discriminate || split; auto).
      rewrite in_concat. split.
      + intros (l & Hl & Hn). apply in_map_iff in Hl. destruct Hl as (h & <- & _). auto.
      + intros Hn. exists (keys_at b (obj ++ $"/") s). split; auto. destruct hours as [|h hs]; [destruct Hh; auto|].
        left. auto.
    - rewrite Gp. cbn [bind]. eexists. split; [reflexivity|]. split.
      + intros n. cbn [holds]. apply (Obj Gcs); [discriminate|split; auto].
      + intros _. apply keys_nodup. auto.
  Qed.
End Store.
