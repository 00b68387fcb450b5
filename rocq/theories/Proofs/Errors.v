(** Proofs about the rendering of errors and about colours. *)
From Verif.Base Require Import Py PyFacts.
From Verif.Model Require Import Reader Views Paths Stream Errors.
From Verif.Spec Require Import Paths Stream Errors.
From Verif.Proofs Require Import StreamPaths.
From Verif.Proofs Require Filters.

(** ** Colours *)
Definition codes (table : list (str * str)) (name : str) : option str :=
  match dget str_eqb name table with Some c => Some (ESC :: c) | None => None end.
Definition name_ok (n : str) : Prop := ~ In "{"%char n /\ ~ In "}"%char n.
Definition table_ok (table : list (str * str)) : Prop :=
  forall k c, In (k, c) table -> name_ok k /\ ~ In "{"%char c.

Lemma dget_In k (table : list (str * str)) c : dget str_eqb k table = Some c -> In (k, c) table.
Proof.
  induction table as [|[a b] t IH]; cbn; [discriminate|].
  destruct (str_eqb_reflect k a) as [<-|N]; [intros [= <-]; auto|auto].
Qed.
Lemma dget_app k (l1 l2 : list (str * str)) :
  dget str_eqb k (l1 ++ l2) = match dget str_eqb k l1 with Some c => Some c | None => dget str_eqb k l2 end.
Proof. induction l1 as [|[a b] t IH]; cbn; [reflexivity|]. destruct (str_eqb k a); auto. Qed.

Lemma codes_ok table k c : table_ok table -> codes table k = Some c ->
  name_ok k /\ ~ In "{"%char c /\ exists c', c = ESC :: c'.
Proof.
  intros T. unfold codes. destruct (dget str_eqb k table) eqn:E; [|discriminate]. intros [= <-].
  apply dget_In in E. destruct (T _ _ E) as [N C]. repeat split; try apply N.
  - intros [H|H]; [discriminate|auto].
  - eauto.
Qed.

Lemma tag_inj n1 n2 (s1 s2 : str) : name_ok n1 -> name_ok n2 -> tag n1 ++ s1 = tag n2 ++ s2 -> n1 = n2 /\ s1 = s2.
Proof.
  intros [_ N1] [_ N2] H. unfold tag in H. rewrite <- !app_assoc in H. injection H as H.
  assert (n1 = n2) by (eapply until_brace; [exact N1|exact N2|exact H]). subst n2. split; [reflexivity|].
  apply app_inv_head in H. now injection H.
Qed.

Lemma painted_prefix code w s t : ~ In "{"%char w -> painted code (w ++ s) t ->
  exists t', t = w ++ t' /\ painted code s t'.
Proof.
  revert t; induction w as [|x w IH]; intros t W P; [exists t; auto|].
  cbn [app] in P. remember (x :: w ++ s) as u eqn:E. destruct P as [|name c s0 t0 C P'|x0 s0 t0 N P'].
  - discriminate.
  - exfalso. unfold tag in E. cbn in E. injection E as E _. apply W. left; auto.
  - injection E as -> ->. apply IH in P' as (t' & -> & P'); [|intros H; apply W; right; auto]. exists t'. auto.
Qed.
(** where the painted text has no escape the text is the same *)
Lemma painted_back table w s t : table_ok table -> ~ In ESC w -> painted (codes table) s t ->
  startswith w t = true -> startswith w s = true.
Proof.
  intros T. revert s t; induction w as [|x w IH]; intros s t W P H; [reflexivity|].
  destruct P as [|name c s0 t0 C P'|x0 s0 t0 N P'].
  - discriminate.
  - destruct (codes_ok _ _ _ T C) as (_ & _ & c' & ->). cbn in H. exfalso.
    apply andb_true_iff in H. destruct H as [H _]. apply Ascii.eqb_eq in H. subst. apply W. left; auto.
  - cbn in H |- *. apply andb_true_iff in H. destruct H as [H1 H2]. rewrite H1. cbn.
    apply (IH _ _ (fun h => W (or_intror h)) P' H2).
Qed.

Lemma painted_step table k c s t : table_ok (table ++ [(k, c)]) -> dget str_eqb k table = None -> ~ In ESC k ->
  painted (codes table) s t ->
  painted (codes (table ++ [(k, c)])) s (replace (tag k) (ESC :: c) t).
Proof.
  intros T K Kesc.
  assert (T0: table_ok table) by (intros a b H; apply (T a b), in_app_iff; auto).
  assert (KC: codes (table ++ [(k, c)]) k = Some (ESC :: c)).
  { unfold codes. rewrite dget_app, K. cbn. now rewrite str_eqb_refl. }
  destruct (codes_ok _ _ _ T KC) as (Kok & Cok & _).
  assert (NE: tag k <> []) by discriminate.
  revert t. remember (length s) as n eqn:L. assert (L': (length s <= n)%nat) by lia. clear L.
  revert s L'. induction n as [n IH] using lt_wf_ind. intros s L t P.
  destruct P as [|name d s0 t0 C P'|x s0 t0 N P'].
  - rewrite replace_nil. constructor.
  - destruct (codes_ok _ _ _ T0 C) as (_ & D & _).
    unfold tag at 2. change ($"{" ++ k ++ $"}") with ("{"%char :: k ++ $"}"). rewrite replace_skip by exact D.
    apply painted_tag.
    + unfold codes in C |- *. rewrite dget_app. destruct (dget str_eqb name table); [exact C|discriminate].
    + change ("{"%char :: k ++ $"}") with (tag k). rewrite app_length in L. unfold tag in L. cbn in L.
      refine (IH (length s0) _ s0 _ t0 P'); lia.
  - destruct (startswith (tag k) (x :: s0)) eqn:B.
    + apply startswith_iff in B. destruct B as [rest B]. unfold tag in B. rewrite <- app_assoc in B.
      assert (x = "{"%char) by (cbn in B; congruence). subst x.
      assert (s0 = (k ++ $"}") ++ rest) by (injection B as B; exact B). clear B. subst s0.
      apply painted_prefix in P' as (t' & -> & P').
      2:{ destruct Kok as [K1 _]. intros H. apply in_app_iff in H. destruct H as [H|[H|[]]]; [auto|discriminate]. }
      change ("{"%char :: (k ++ $"}") ++ t') with (tag k ++ t').
      change ("{"%char :: (k ++ $"}") ++ rest) with (tag k ++ rest).
      rewrite replace_here by exact NE. apply painted_tag; [exact KC|].
      cbn in L. rewrite !app_length in L. refine (IH (length rest) _ rest _ t' P'); lia.
    + rewrite replace_cons by exact NE.
      replace (startswith (tag k) (x :: t0)) with false.
      * apply painted_char.
        -- intros name d rest C H. unfold codes in C. rewrite dget_app in C.
           destruct (dget str_eqb name table) eqn:G.
           ++ apply (N name d rest); [unfold codes; now rewrite G|exact H].
           ++ cbn in C. destruct (str_eqb_reflect name k) as [->|]; [|discriminate].
              rewrite H, startswith_app in B. discriminate.
        -- cbn in L. refine (IH (length s0) _ s0 _ t0 P'); lia.
      * symmetry. apply not_true_iff_false. intros H. apply not_true_iff_false in B. apply B.
        unfold tag in H |- *. cbn in H |- *. apply andb_true_iff in H. destruct H as [H1 H2]. rewrite H1. cbn.
        refine (painted_back _ _ _ _ T0 _ P' H2).
        intros I. apply in_app_iff in I. destruct I as [I|[I|[]]]; [auto|discriminate].
Qed.

Lemma painted_none s : painted (codes []) s s.
Proof. induction s; constructor; auto. intros name c rest C. discriminate. Qed.

Lemma painted_fold rest pre s t : table_ok (pre ++ rest) -> NoDup (map fst (pre ++ rest)) ->
  (forall k, In k (map fst rest) -> ~ In ESC k) -> painted (codes pre) s t ->
  painted (codes (pre ++ rest)) s
    (fold_left (fun record kv => replace ($"{" ++ fst kv ++ $"}") (ESC :: snd kv) record) rest t).
Proof.
  revert pre t; induction rest as [|[k c] rest IH]; intros pre t T D E P.
  - rewrite app_nil_r. exact P.
  - cbn [fold_left fst snd]. change (pre ++ (k, c) :: rest) with (pre ++ [(k, c)] ++ rest) in *.
    rewrite app_assoc in *. apply IH; auto.
    + intros k' H. apply E. right; auto.
    + apply painted_step; auto.
      * intros a b H. apply (T a b), in_app_iff. auto.
      * destruct (dget str_eqb k pre) as [c0|] eqn:G; [|reflexivity]. exfalso. apply dget_In in G.
        rewrite <- app_assoc, map_app in D. cbn in D. apply NoDup_remove_2 in D. apply D, in_app_iff. left.
        apply in_map_iff. exists (k, c0). auto.
      * apply E. left; auto.
Qed.

Fixpoint no_char (c : ascii) (s : str) : bool :=
  match s with [] => true | d :: s => negb (Ascii.eqb c d) && no_char c s end.
Lemma no_char_In c s : no_char c s = true -> ~ In c s.
Proof.
  induction s as [|d s IH]; cbn; [auto|]. intros H [->|I]; apply andb_true_iff in H; destruct H as [H1 H2].
  - now rewrite Ascii.eqb_refl in H1.
  - now apply IH.
Qed.
Lemma COLORS_table : forallb (fun kv => no_char "{"%char (fst kv) && no_char "}"%char (fst kv) &&
  no_char ESC (fst kv) && no_char "{"%char (snd kv)) COLORS = true.
Proof. vm_compute. reflexivity. Qed.
Lemma COLORS_ok : table_ok COLORS.
Proof.
  intros k c H. pose proof COLORS_table as C. rewrite forallb_forall in C. apply C in H. cbn in H.
  rewrite !andb_true_iff in H. destruct H as [[[H1 H2] _] H4].
  split; [split|]; apply no_char_In; auto.
Qed.
Lemma COLORS_names : NoDup (map fst COLORS).
Proof.
  assert (H: forall l, (fix nd (l : list str) := match l with [] => true | x :: l => negb (str_mem x l) && nd l end) l = true ->
             NoDup l).
  { induction l as [|x l IH]; [constructor|]. intros H. apply andb_true_iff in H. destruct H as [H1 H2].
    constructor; [|auto]. intros I. apply negb_true_iff, not_true_iff_false in H1. apply H1.
    apply existsb_exists. exists x. split; [exact I|apply str_eqb_refl]. }
  apply H. vm_compute. reflexivity.
Qed.

Lemma colorize_painted s : painted colour_code s (colorize s true).
Proof.
  unfold colour_code. change colour_codes with COLORS.
  refine (painted_fold COLORS [] s s COLORS_ok COLORS_names _ (painted_none s)).
  intros k H. apply in_map_iff in H. destruct H as ([a b] & <- & H).
  pose proof COLORS_table as C. rewrite forallb_forall in C. apply C in H. cbn in H |- *.
  rewrite !andb_true_iff in H. apply no_char_In, H.
Qed.
Lemma painted_unique table s t t' : table_ok table ->
  painted (codes table) s t -> painted (codes table) s t' -> t = t'.
Proof.
  intros T P. revert t'. induction P as [|name c s t C P IH|x s t N P IH]; intros t' P'.
  - remember (@nil ascii) as u eqn:E. destruct P'; [reflexivity|discriminate|discriminate].
  - remember (tag name ++ s) as u eqn:E. destruct P' as [|name' c' s' t' C' P'|x' s' t' N' P'].
    + discriminate.
    + destruct (codes_ok _ _ _ T C) as (K & _), (codes_ok _ _ _ T C') as (K' & _).
      destruct (tag_inj _ _ _ _ K' K E) as [-> ->]. rewrite C in C'. injection C' as <-. f_equal. auto.
    + exfalso. now apply (N' _ _ s C).
  - remember (x :: s) as u eqn:E. destruct P' as [|name' c' s' t' C' P'|x' s' t' N' P'].
    + discriminate.
    + exfalso. now apply (N _ _ s' C').
    + injection E as -> ->. f_equal. auto.
Qed.
Lemma colours s t : painted colour_code s t <-> t = colorize s true.
Proof.
  split; [|intros ->; apply colorize_painted]. pose proof (colorize_painted s) as Q. revert Q.
  unfold colour_code. change colour_codes with COLORS. intros Q P.
  exact (painted_unique COLORS s _ _ COLORS_ok P Q).
Qed.

(** without colours *)
Definition gpart (p : part) : gtok := match p with Plain s => GL s | Tag n => GP n end.
Lemma gpart_text ps : parts_text ps = gall (map gpart ps).
Proof. unfold parts_text, gall. rewrite map_map. f_equal. apply map_ext. intros []; reflexivity. Qed.
Lemma gpart_ok ps : parts_ok ps -> gok (map gpart ps).
Proof.
  intros [P1 P2]. split; intros x H; apply in_map_iff in H; destruct H as ([s|n] & E & H); try discriminate;
    injection E as <-; [apply P1; auto|apply P2; auto].
Qed.
Definition drop_tags (names : list str) (t : gtok) : gtok :=
  match t with GP n => if str_mem n names then GL [] else t | _ => t end.
Lemma drop_fold (table : list (str * str)) l : (forall k c, In (k, c) table -> name_ok k) -> gok l ->
  fold_left (fun record kv => replace ($"{" ++ fst kv ++ $"}") [] record) table (gall l) =
  gall (map (drop_tags (map fst table)) l).
Proof.
  revert l; induction table as [|[k c] table IH]; intros l T G.
  - cbn. f_equal. rewrite <- (map_id l) at 1. apply map_ext. intros []; reflexivity.
  - cbn [fold_left fst map]. rewrite replace_g; [|apply (T k c); left; auto|exact G].
    rewrite IH; [|intros a b H; apply (T a b); right; auto|now apply gsub_ok].
    f_equal. rewrite map_map. apply map_ext. intros [s|n]; cbn; [reflexivity|].
    unfold str_mem, mem. cbn. destruct (str_eqb_reflect k n) as [<-|N].
    + rewrite str_eqb_refl. reflexivity.
    + destruct (str_eqb_reflect n k) as [->|_]; [congruence|]. reflexivity.
Qed.
Lemma mem_dhas n (table : list (str * str)) : str_mem n (map fst table) = dhas str_eqb n table.
Proof.
  unfold dhas. induction table as [|[a b] t IH]; [reflexivity|]. unfold str_mem, mem in *. cbn.
  destruct (str_eqb n a); [reflexivity|exact IH].
Qed.
Lemma without_colours ps : parts_ok ps -> colorize (parts_text ps) false = uncoloured ps.
Proof.
  intros P. rewrite gpart_text. unfold colorize.
  rewrite drop_fold; [|intros k c H; apply (COLORS_ok k c H)|now apply gpart_ok].
  unfold gall, uncoloured. rewrite !map_map. f_equal. apply map_ext. intros [s|n]; [reflexivity|].
  cbn [gpart drop_tags]. rewrite mem_dhas. unfold is_colour. change colour_codes with COLORS. destruct (dhas str_eqb n COLORS); reflexivity.
Qed.

(** ** The lines of a program *)
Definition drop_last (pieces : list str) : list str :=
  if str_eqb (last pieces []) [] then removelast pieces else pieces.
Definition onto (line : str) (pieces : list str) : list str :=
  match pieces with p :: ps => (line ++ p) :: ps | [] => [] end.
Lemma drop_last_cons p ps : ps <> [] -> drop_last (p :: ps) = p :: drop_last ps.
Proof.
  intros H. unfold drop_last. destruct ps as [|q ps]; [congruence|].
  change (last (p :: q :: ps) []) with (last (q :: ps) []).
  destruct (str_eqb (last (q :: ps) []) []); reflexivity.
Qed.

Lemma splitlines_pieces line text : only_newlines text ->
  str_splitlines_from line text = drop_last (onto line (split newline text)).
Proof.
  revert line; induction text as [|c text IH]; intros line O.
  - cbn. rewrite app_nil_r. unfold drop_last. cbn. destruct line; reflexivity.
  - assert (O': only_newlines text) by (intros d H; apply O; right; auto).
    cbn [str_splitlines_from split]. destruct (line_end c) eqn:E.
    + assert (c = newline) by (apply O; [left|]; auto). subst c.
      change (Ascii.eqb newline newline) with true. cbn [onto].
      rewrite app_nil_r, drop_last_cons by apply split_nonempty. f_equal.
      transitivity (str_splitlines_from [] text).
      * destruct text; [reflexivity|]. change (Ascii.eqb newline CR) with false. reflexivity.
      * rewrite IH by exact O'. f_equal. destruct (split newline text); reflexivity.
    + replace (Ascii.eqb newline c) with false.
      * rewrite IH by exact O'. destruct (split newline text) as [|p ps] eqn:S; [now apply split_nonempty in S|].
        cbn [onto]. now rewrite <- app_assoc.
      * symmetry. apply not_true_iff_false. intros H. apply Ascii.eqb_eq in H. subst c. discriminate.
Qed.
Lemma splitlines_code code : only_newlines code -> str_splitlines code = code_lines code.
Proof.
  intros O. unfold str_splitlines. rewrite splitlines_pieces by exact O.
  unfold code_lines. fold (drop_last (split newline code)). f_equal.
  destruct (split newline code); reflexivity.
Qed.

Fixpoint zrange (a : Z) (m : nat) : list Z := match m with O => [] | S m => a :: zrange (a + 1) m end.
Definition show_at (lines : list str) (failed n : Z) : list str :=
  match (if (1 <=? n)%Z then nth_error lines (Z.to_nat (n - 1)) else None) with
  | Some text => [shown_line failed n text]
  | None => []
  end.
Lemma code_from_range lines failed m a :
  flat_map (show_at lines failed) (zrange a m) =
  code_from lines failed (Z.max a 1)
    (Z.to_nat (Z.min (a + Z.of_nat m) (Z.of_nat (length lines) + 1) - Z.max a 1)).
Proof.
  revert a; induction m as [|m IH]; intros a.
  - cbn [zrange flat_map]. match goal with |- _ = code_from _ _ _ (Z.to_nat ?e) => replace (Z.to_nat e) with O by lia end.
    reflexivity.
  - cbn [zrange flat_map]. rewrite IH. unfold show_at. destruct (Z.leb_spec 1 a) as [H|H].
    + destruct (nth_error lines (Z.to_nat (a - 1))) as [text|] eqn:N.
      * assert (L: (Z.to_nat (a - 1) < length lines)%nat) by (apply nth_error_Some; congruence).
        match goal with |- _ = code_from _ _ _ (Z.to_nat ?e) =>
          replace (Z.to_nat e) with (S (Z.to_nat (e - 1))) by lia end.
        cbn [code_from]. replace (Z.max a 1) with a by lia. unfold py_index.
        destruct (Z.ltb_spec (a - 1) 0); [lia|]. cbv zeta. destruct (Z.ltb_spec (a - 1) 0); [lia|].
        rewrite N. cbn [app]. unfold shown_line. f_equal. f_equal; lia.
      * apply nth_error_None in N.
        match goal with |- _ = code_from _ _ _ (Z.to_nat ?e) => replace (Z.to_nat e) with O by lia end.
        cbn [app]. match goal with |- code_from _ _ _ (Z.to_nat ?e) = _ => replace (Z.to_nat e) with O by lia end.
        reflexivity.
    + cbn [app]. f_equal; lia.
Qed.

Section Render.
  Context (read_file : str -> result str) (abspath : str -> str).

  Lemma around_range code failed : shown_around code failed = flat_map (show_at (code_lines code) failed) (zrange (failed - 3) 7).
  Proof.
    unfold shown_around. cbn [zrange].
    replace (failed - 3 + 1)%Z with (failed - 2)%Z by lia. replace (failed - 2 + 1)%Z with (failed - 1)%Z by lia.
    replace (failed - 1 + 1)%Z with failed by lia. replace (failed + 1 + 1)%Z with (failed + 2)%Z by lia.
    replace (failed + 2 + 1)%Z with (failed + 3)%Z by lia. reflexivity.
  Qed.

  Lemma line_of_bound code n text : line_of code n = Some text ->
    (1 <= n <= Z.of_nat (length (code_lines code)))%Z.
  Proof.
    unfold line_of. destruct (Z.leb_spec 1 n); [|discriminate]. intros H'.
    assert ((Z.to_nat (n - 1) < length (code_lines code))%nat) by (apply nth_error_Some; congruence). lia.
  Qed.

  Lemma code_shown file code failed text : read_file file = Ok code -> only_newlines code ->
    line_of code failed = Some text ->
    read_from_code read_file file failed 3 =
    bar_label (path_name file) ::
    (if (failed <=? 3)%Z then [shown_line failed 0 (last (code_lines code) [])] else []) ++ shown_around code failed.
  Proof.
    intros R O L. apply line_of_bound in L. unfold read_from_code. rewrite R. cbv zeta.
    rewrite splitlines_code by exact O. f_equal. rewrite around_range, code_from_range.
    destruct (Z.leb_spec failed 3).
    - match goal with |- code_from _ _ _ (Z.to_nat ?e) = _ => replace (Z.to_nat e) with (S (Z.to_nat (e - 1))) by lia end.
      replace (Z.max (failed - 3) 0) with 0%Z by lia. cbn [code_from].
      destruct (exists_last (l := code_lines code)) as (v & x & E).
      { intros E. rewrite E in L. cbn in L. lia. }
      change (0 - 1)%Z with (-1)%Z. rewrite E.
      replace (py_index (v ++ [x]) (-1)) with (Ok x).
      + rewrite last_last. cbn [app]. unfold shown_line. f_equal. rewrite <- E. f_equal; lia.
      + symmetry. unfold py_index. rewrite app_length. cbn [length]. cbn [Z.ltb Z.compare]. cbv zeta.
        match goal with |- context [Z.to_nat ?e] => replace e with (Z.of_nat (length v)) by lia end.
        destruct (Z.ltb_spec (Z.of_nat (length v)) 0); [lia|].
        rewrite Nat2Z.id, nth_error_app2, Nat.sub_diag by lia. reflexivity.
    - cbn [app]. f_equal; lia.
  Qed.

  (** ** Chains *)
  Lemma leads_unique e e1 b1 e2 b2 : leads_to e e1 b1 -> leads_to e e2 b2 -> e1 = e2 /\ b1 = b2.
  Proof.
    intros H1 H2. destruct H1 as [k s t c x p T|k s t oc x F T].
    - inversion H2; subst; [auto|]. exfalso. apply T. auto.
    - inversion H2; subst; [|auto]. exfalso. auto.
  Qed.

  Fixpoint size (e : raised) : nat :=
    match e with Raised _ _ _ c x _ =>
      S (match c with Some c => size c | None => 0 end + match x with Some x => size x | None => 0 end) end%nat.

  Lemma tb_iff e : has_traceback e = true <-> trace_of e <> [].
  Proof. unfold has_traceback. destruct (trace_of e); split; congruence. Qed.

  Definition stack_of (b : bool) (e : raised) : stack :=
    match e with Raised kind text trace _ _ _ =>
      {| exc_type := kind; exc_value := text; is_cause := b; frames := map (build_frame abspath) trace |} end.

  Lemma build_steps b e :
    (exists e' b', leads_to e e' b' /\ (size e' < size e)%nat /\
       build_from abspath b e = stack_of b e :: build_from abspath b' e') \/
    ((forall e' b', ~ leads_to e e' b') /\ build_from abspath b e = [stack_of b e]).
  Proof.
    destruct e as [k s t c x p].
    assert (C: (exists c0, c = Some c0 /\ trace_of c0 <> []) \/ (forall c0, c = Some c0 -> trace_of c0 = [])).
    { destruct c as [c|]; [|right; discriminate]. destruct (trace_of c) eqn:E; [right|left; exists c; split; auto; congruence].
      intros c0 [= <-]. exact E. }
    destruct C as [(c0 & -> & T)|F].
    - left. exists c0, true. split; [now constructor|]. split; [cbn; lia|]. cbn. now apply tb_iff in T as ->.
    - assert (E: build_from abspath b (Raised k s t c x p) = stack_of b (Raised k s t c x p) ::
                 match x with Some x => if has_traceback x && negb p then build_from abspath false x else [] | None => [] end).
      { cbn. f_equal. destruct c as [c|]; [|reflexivity].
        assert (H: has_traceback c = false) by (unfold has_traceback; now rewrite (F c eq_refl)). now rewrite H. }
      destruct x as [x|].
      + destruct (has_traceback x && negb p) eqn:B.
        * apply andb_true_iff in B. destruct B as [B1 B2]. apply tb_iff in B1. destruct p; [discriminate|].
          left. exists x, false. split; [now constructor|]. split; [cbn; destruct c; lia|]. exact E.
        * right. split; [|exact E]. intros e' b' H. inversion H; subst.
          -- specialize (F _ eq_refl). contradiction.
          -- match goal with H : trace_of _ <> [] |- _ => apply tb_iff in H as W end. now rewrite W in B.
      + right. split; [|exact E]. intros e' b' H. inversion H; subst. specialize (F _ eq_refl). contradiction.
  Qed.

  Lemma chain_build n e b : (size e <= n)%nat ->
    exists es, chain e es /\ map exc_type (build_from abspath b e) = map (fun e => match e with Raised k _ _ _ _ _ => k end) es
      /\ map exc_value (build_from abspath b e) = map (fun e => match e with Raised _ v _ _ _ _ => v end) es
      /\ map frames (build_from abspath b e) = map (fun e => map (build_frame abspath) (trace_of e)) es.
  Proof.
    revert e b; induction n as [|n IH]; intros e b L; [destruct e; cbn in L; lia|].
    destruct (build_steps b e) as [(e' & b' & S & L' & E)|(N & E)]; rewrite E.
    - destruct (IH e' b') as (es & C & E1 & E2 & E3); [lia|]. exists (e :: es).
      split; [now apply chain_more with e' b'|]. cbn [map]. rewrite E1, E2, E3. destruct e; auto.
    - exists [e]. split; [now constructor|]. destruct e; auto.
  Qed.
  Lemma chain_unique e es es' : chain e es -> chain e es' -> es = es'.
  Proof.
    intros C. revert es'. induction C as [e N|e e1 b1 es S C IH]; intros es' C'; inversion C'; subst; auto.
    - exfalso. eapply N; eauto.
    - exfalso. match goal with H : forall _ _, ~ _ |- _ => eapply H; eauto end.
    - match goal with H : leads_to e ?x ?y |- _ => destruct (leads_unique _ _ _ _ _ S H) as [<- <-] end. f_equal. auto.
  Qed.

  (** ** The blocks *)
  Lemma shown_variables width kvs : (forall kv, In kv kvs -> (length (fst kv) <= width)%nat) ->
    Forall2 (variable_shown width) kvs (map (fun kv => $"  " ++ ljust (fst kv) width ++ $" : " ++ snd kv) kvs).
  Proof.
    induction kvs as [|kv kvs IH]; intros H; cbn [map]; constructor.
    - exists (width - length (fst kv))%nat. split; [unfold ljust; now rewrite <- !app_assoc|].
      specialize (H kv (or_introl eq_refl)). lia.
    - apply IH. intros x I. apply H. right; auto.
  Qed.
  Lemma longest_bound k names : In k names -> (length k <= longest names)%nat.
  Proof.
    unfold longest. induction names as [|a names IH]; cbn; [intros []|]. intros [->|H]; [lia|]. apply IH in H. lia.
  Qed.

  Hypothesis absolute : forall name, startswith $"/" (abspath name) = true.
  Lemma frame_named f : startswith $"<" (filename (build_frame abspath f)) = false.
  Proof.
    cbn. destruct (filename f) as [|c name]; [reflexivity|]. pose proof (absolute (c :: name)) as A.
    apply startswith_iff in A. destruct A as [t A]. now rewrite A.
  Qed.
  Lemma block_of f : let g := build_frame abspath f in
    frame_block (fun f => read_from_code read_file (filename f) (lineno f) 3) g (render_frame read_file g).
  Proof.
    intros g. assert (N: startswith $"<" (filename g) = false) by apply frame_named.
    unfold render_frame, frame_block. rewrite N. clear N.
    exists (render_locals (locals g)). split; [reflexivity|]. split; [intros E; rewrite E; reflexivity|].
    intros NE. exists (bar_label $"locals"), (longest (map fst (locals g))).
    exists (map (fun kv => $"  " ++ ljust (fst kv) (longest (map fst (locals g))) ++ $" : " ++ snd kv) (locals g)). split.
    - unfold render_locals. destruct (locals g); [congruence|]. reflexivity.
    - apply shown_variables. intros kv H. apply longest_bound, in_map, H.
  Qed.

  Lemma rendered e es : chain e es ->
    exists blocks, render_stacks read_file abspath (Some e) = concat blocks /\
      Forall2 (frame_block (fun f => read_from_code read_file (filename f) (lineno f) 3))
        (map (build_frame abspath) (flat_map trace_of es)) blocks.
  Proof.
    intros C. destruct (chain_build _ e false (le_n _)) as (es' & C' & _ & _ & E).
    rewrite <- (chain_unique _ _ _ C C') in E. clear C'.
    exists (map (render_frame read_file) (map (build_frame abspath) (flat_map trace_of es))). split.
    - unfold render_stacks, build_error_stack.
      transitivity (flat_map (flat_map (render_frame read_file)) (map frames (build_from abspath false e))).
      { rewrite flat_map_concat_map, flat_map_concat_map, map_map. reflexivity. }
      rewrite E. clear. induction es as [|e es IH]; [reflexivity|]. cbn [map flat_map].
      rewrite !map_app, concat_app, <- flat_map_concat_map. f_equal. exact IH.
    - generalize (flat_map trace_of es). clear -absolute. intros l. induction l as [|f l IH]; constructor.
      + apply block_of.
      + exact IH.
  Qed.
End Render.

(** ** Labels *)
Lemma replace_repeat c new n : replace [c] new (repeat c n) = concat (repeat new n).
Proof.
  rewrite Filters.replace_char. induction n as [|n IH]; cbn; [reflexivity|]. now rewrite Ascii.eqb_refl, IH.
Qed.
Lemma char_kept c new s : ~ In c s -> replace [c] new s = s.
Proof.
  intros H. rewrite Filters.replace_char. induction s as [|d s IH]; [reflexivity|]. cbn.
  destruct (Ascii.eqb_spec c d) as [->|N]; [exfalso; apply H; left; auto|].
  cbn. f_equal. apply IH. intros I. apply H. right; auto.
Qed.
Lemma char_app c new s t : replace [c] new (s ++ t) = replace [c] new s ++ replace [c] new t.
Proof. rewrite !Filters.replace_char. apply flat_map_app. Qed.
Lemma concat_singles (c : ascii) n : concat (repeat [c] n) = repeat c n.
Proof. induction n; cbn; [reflexivity|now f_equal]. Qed.

Lemma label_shown label : label <> [] -> ~ In " "%char label -> ~ In "*"%char label -> (length label <= 116)%nat ->
  labelled label (bar_label label) /\ length (bar_label label) = LINE_LENGTH.
Proof.
  intros NE Sp B L. unfold bar_label. destruct label as [|c l] eqn:EL; [congruence|]. rewrite <- EL in *. clear EL NE c l.
  assert (LL: length ($"**" ++ label ++ $"**") = (length label + 4)%nat) by (rewrite !app_length; cbn; lia).
  unfold center. rewrite LL. unfold LINE_LENGTH.
  destruct (Nat.leb_spec 120 (length label + 4)) as [G|G].
  - assert (length label = 116%nat) by lia.
    assert (E: replace $"*" $" " (replace $" " $"=" ($"**" ++ label ++ $"**")) = $"  " ++ label ++ $"  ").
    { change $" " with [" "%char] at 2. rewrite (char_kept " "%char).
      - change $"*" with ["*"%char]. rewrite !char_app. rewrite (char_kept "*"%char _ label) by exact B. reflexivity.
      - rewrite !in_app_iff. cbn. intuition discriminate. }
    rewrite E. split; [exists 0%nat, 0%nat; split; [reflexivity|auto]|]. rewrite !app_length. cbn. lia.
  - set (pad := (120 - (length label + 4))%nat). set (left := (pad / 2 + _)%nat).
    assert (HL: (left <= pad /\ (left = pad - left \/ left = S (pad - left) \/ pad - left = S left))%nat).
    { unfold left. replace (Nat.odd 120) with false by reflexivity. rewrite andb_false_r, Nat.add_0_r.
      pose proof (Nat.div_mod pad 2 ltac:(lia)). pose proof (Nat.mod_upper_bound pad 2 ltac:(lia)). lia. }
    clearbody left.
    assert (E: replace $"*" $" " (replace $" " $"=" (repeat " "%char left ++ ($"**" ++ label ++ $"**") ++ repeat " "%char (pad - left))) =
               repeat "="%char left ++ $"  " ++ label ++ $"  " ++ repeat "="%char (pad - left)).
    { change $" " with [" "%char]. change $"*" with ["*"%char]. rewrite !char_app.
      rewrite !replace_repeat. rewrite (char_kept " "%char _ label) by exact Sp. rewrite (char_kept "*"%char _ label) by exact B.
      change $"=" with ["="%char]. rewrite !concat_singles.
      assert (Q: forall n, ~ In "*"%char (repeat "="%char n)) by (intros n H; apply repeat_spec in H; discriminate).
      rewrite !(char_kept "*"%char _ (repeat _ _)) by apply Q.
      rewrite <- !app_assoc. reflexivity. }
    rewrite E. split; [exists left, (pad - left)%nat; split; [reflexivity|apply HL]|].
    rewrite !app_length, !repeat_length. change (length $"  ") with 2%nat.
    assert (P: (pad + length label + 4 = 120)%nat) by (unfold pad; lia). clearbody pad. lia.
Qed.

Lemma one_chain e : exists es, chain e es /\ forall es', chain e es' -> es' = es.
Proof.
  destruct (chain_build (fun _ => Ok []) (fun s => s) _ e false (le_n _)) as (es & C & _). exists es. split; [exact C|].
  intros es' C'. exact (chain_unique _ _ _ C' C).
Qed.
Lemma failing_shown read_file file code failed text : read_file file = Ok code -> only_newlines code ->
  line_of code failed = Some text -> (3 < failed)%Z ->
  read_from_code read_file file failed 3 = bar_label (path_name file) :: shown_around code failed.
Proof.
  intros R O L H. rewrite (code_shown read_file (fun s => s) _ _ _ _ R O L). destruct (Z.leb_spec failed 3); [lia|reflexivity].
Qed.
Lemma first_shown read_file file code failed text : read_file file = Ok code -> only_newlines code ->
  line_of code failed = Some text -> (failed <= 3)%Z ->
  read_from_code read_file file failed 3 =
  bar_label (path_name file) :: shown_line failed 0 (last (code_lines code) []) :: shown_around code failed.
Proof.
  intros R O L H. rewrite (code_shown read_file (fun s => s) _ _ _ _ R O L). destruct (Z.leb_spec failed 3); [reflexivity|lia].
Qed.
Lemma failing_marked code failed text : line_of code failed = Some text ->
  In ($">" ++ pad_left " "%char 4 (decZ failed) ++ $" | " ++ text) (shown_around code failed).
Proof.
  intros L. unfold shown_around. apply in_flat_map. exists failed. split; [right; right; right; left; reflexivity|].
  rewrite L. unfold shown_line. rewrite Z.eqb_refl. left; reflexivity.
Qed.
Lemma only_newlines_check code :
  forallb (fun c => negb (line_end c) || Ascii.eqb c newline) code = true -> only_newlines code.
Proof.
  intros H c I E. rewrite forallb_forall in H. apply H in I. rewrite E in I. cbn in I. now apply Ascii.eqb_eq.
Qed.
