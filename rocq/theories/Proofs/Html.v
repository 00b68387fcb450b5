(** Tables for web pages. *)
From Verif.Base Require Import Py PyFacts Value ValueFacts.
From Verif.Model Require Import Html.
From Verif.Spec Require Import Html.

(** ** References *)
Lemma replace_char o r s : replace [o] r s = flat_map (fun c => if Ascii.eqb c o then r else [c]) s.
Proof.
  induction s as [|c s IH]; [reflexivity|]. rewrite replace_cons by discriminate. cbn [startswith length skipn flat_map].
  rewrite (Ascii.eqb_sym o c). destruct (Ascii.eqb c o); cbn [andb]; rewrite IH; reflexivity.
Qed.
Lemma flat_map_flat_map {A B C} (f : A -> list B) (g : B -> list C) l : flat_map g (flat_map f l) = flat_map (fun x => flat_map g (f x)) l.
Proof. induction l as [|x l IH]; [reflexivity|]. cbn [flat_map]. now rewrite flat_map_app, IH. Qed.
Lemma sanitize_escaped s : sanitize_text s = escaped s.
Proof.
  unfold sanitize_text, escapes, escaped. cbn [fold_left fst snd].
  change ($"&") with ["&"%char]; change ($"""") with [""""%char]; change ($"'") with ["'"%char]; change ($"<") with ["<"%char];
    change ($">") with [">"%char]; change ($"$") with ["$"%char].
  rewrite !replace_char, !flat_map_flat_map. apply flat_map_ext. intros c. unfold escaped_char, references. cbn [dget].
  destruct (Ascii.eqb_spec c "&") as [->|H1]; [reflexivity|]. cbn [flat_map app].
  destruct (Ascii.eqb_spec c """") as [->|H2]; [reflexivity|]. cbn [flat_map app].
  destruct (Ascii.eqb_spec c "'") as [->|H3]; [reflexivity|]. cbn [flat_map app].
  destruct (Ascii.eqb_spec c "<") as [->|H4]; [reflexivity|]. cbn [flat_map app].
  destruct (Ascii.eqb_spec c ">") as [->|H5]; [reflexivity|]. cbn [flat_map app].
  destruct (Ascii.eqb_spec c "$") as [->|H6]; reflexivity.
Qed.
Lemma escaped_cases c : (In (c, escaped_char c) references) \/ (escaped_char c = [c] /\ ~ In c (map fst references)).
Proof.
  unfold escaped_char. destruct (dget Ascii.eqb c references) as [r|] eqn:E.
  - left. unfold references in *. cbn [dget] in E.
    repeat match type of E with (if Ascii.eqb c ?x then _ else _) = _ => destruct (Ascii.eqb_spec c x) as [->|]; [injection E as <-; cbn; tauto|] end. discriminate E.
  - right. split; [reflexivity|]. intros H. cbn in H. unfold references in E. cbn [dget] in E.
    repeat match type of E with (if Ascii.eqb c ?x then _ else _) = _ => destruct (Ascii.eqb_spec c x); [discriminate E|] end.
    intuition congruence.
Qed.
Lemma escaped_stands s : stands_for (escaped s) s.
Proof.
  induction s as [|c s IH]; [constructor|]. unfold escaped. cbn [flat_map]. destruct (escaped_cases c) as [H|[E H]].
  - now apply stands_ref.
  - rewrite E. apply stands_char; [|exact IH]. intros ->. apply H. now left.
Qed.
Lemma references_apart c r c' r' s s' : In (c, r) references -> In (c', r') references -> r ++ s = r' ++ s' -> c = c' /\ s = s'.
Proof.
  intros H H' E. cbn in H, H'.
  repeat (destruct H as [H|H]; [injection H as <- <-; repeat (destruct H' as [H'|H']; [injection H' as <- <-; cbn in E; (discriminate E || (split; [reflexivity|congruence]))|]); destruct H'|]); destruct H.
Qed.
Lemma reference_head c r s x s' : In (c, r) references -> r ++ s = x :: s' -> x = "&"%char.
Proof. intros H E. cbn in H. repeat (destruct H as [H|H]; [injection H as <- <-; cbn in E; congruence|]). destruct H. Qed.
Lemma stands_one s a : stands_for s a -> forall b, stands_for s b -> a = b.
Proof.
  induction 1 as [|c s a Hc _ IH|c r s a Hr _ IH]; intros b H.
  - remember [] as e eqn:E. destruct H as [|c s t Hc H|c r s t Hr H]; [reflexivity|discriminate E|].
    cbn in Hr. repeat (destruct Hr as [Hr|Hr]; [injection Hr as <- <-; discriminate E|]). destruct Hr.
  - remember (c :: s) as e eqn:E. destruct H as [|c' s' t Hc' H|c' r' s' t Hr' H]; [discriminate E| |].
    + injection E as -> ->. f_equal. now apply IH.
    + exfalso. apply Hc. symmetry in E. exact (reference_head c' r' s' c s Hr' (eq_sym E)).
  - remember (r ++ s) as e eqn:E. destruct H as [|c' s' t Hc' H|c' r' s' t Hr' H].
    + exfalso. cbn in Hr. repeat (destruct Hr as [Hr|Hr]; [injection Hr as <- <-; discriminate E|]). destruct Hr.
    + exfalso. apply Hc'. exact (reference_head c r s c' s' Hr (eq_sym E)).
    + destruct (references_apart c r c' r' s s' Hr Hr' (eq_sym E)) as [<- <-]. f_equal. now apply IH.
Qed.
Lemma escaped_clean s x : In x (escaped s) -> ~ In x (list_ascii_of_string "<>'$" ++ [""""%char]).
Proof.
  intros H. unfold escaped in H. apply in_flat_map in H as (c & _ & H). destruct (escaped_cases c) as [R|[E R]].
  - revert H R. generalize (escaped_char c). intros r H R. revert H. cbn in R.
    repeat (destruct R as [R|R]; [injection R as <- <-; cbn; intuition (subst; discriminate)|]). destruct R.
  - rewrite E in H. destruct H as [<-|[]]. intros C. apply R. cbn in C |- *. intuition.
Qed.
Lemma texts_are_escaped s : stands_for (escaped s) s /\ (forall t, stands_for (escaped s) t -> t = s) /\
  forall c, In c (escaped s) -> ~ In c (list_ascii_of_string "<>'$" ++ [""""%char]).
Proof.
  split; [apply escaped_stands|]. split; [|apply escaped_clean]. intros t H. exact (stands_one _ _ H _ (escaped_stands s)).
Qed.

(** ** Values *)
Lemma escaped_app a b : escaped (a ++ b) = escaped a ++ escaped b.
Proof. apply flat_map_app. Qed.
Lemma escaped_join l : escaped (join $", " l) = join $", " (map escaped l).
Proof.
  induction l as [|x [|y l] IH]; [reflexivity|reflexivity|].
  change (join $", " (x :: y :: l)) with (x ++ $", " ++ join $", " (y :: l)). rewrite !escaped_app, IH. reflexivity.
Qed.
Lemma plain_digits s : (forall c, In c s -> ~ In c (map fst references)) -> escaped s = s.
Proof.
  induction s as [|c s IH]; intros H; [reflexivity|]. unfold escaped. cbn [flat_map].
  destruct (escaped_cases c) as [R|[E R]]; [exfalso; apply (H c (or_introl eq_refl)); exact (in_map fst _ _ R)|].
  rewrite E. cbn [app]. f_equal. apply IH. intros; apply H; now right.
Qed.
Lemma dec_plain n c : In c (dec n) -> ~ In c (map fst references).
Proof. intros H C. apply dec_digits in H. cbn in C. intuition (subst; discriminate). Qed.
Lemma decZ_plain z c : In c (decZ z) -> ~ In c (map fst references).
Proof.
  unfold decZ. destruct (z <? 0)%Z.
  - intros [<-|H]; [cbn; intuition discriminate|]. now apply dec_plain in H.
  - apply dec_plain.
Qed.

Lemma sanitize_shown v : showable v -> exists x, sanitize v = Ok x /\ py_str x = escaped (shown_value v) /\ (joins v -> exists s, x = VStr s).
Proof.
  induction v as [| | | |l IH|d IH] using value_ind'; intros H.
  - exists VNull. repeat split; try reflexivity. intros [].
  - exists (VBool b). split; [reflexivity|]. split; [destruct b; reflexivity|intros []].
  - exists (VInt z). split; [reflexivity|]. split; [|intros []]. symmetry. apply plain_digits. apply decZ_plain.
  - exists (VStr (sanitize_text s)). split; [reflexivity|]. split; [apply sanitize_escaped|eauto].
  - inversion H as [v N|l' HL]; subst; [now elim (N l)|].
    assert (G : exists items, (fix go l := match l with
                     | [] => Ok []
                     | i :: l' =>
                         let* x := sanitize i in
                         let* rest := go l' in
                         match x with VStr s => Ok (s :: rest) | _ => Raise TypeError end
                     end) l = Ok items /\ items = map (fun x => escaped (shown_value x)) l).
    { clear H. induction l as [|i l IHl]; [exists []; split; reflexivity|].
      destruct (HL i (or_introl eq_refl)) as [Hi Ji]. 
      inversion IH as [|? ? IHi IHr]; subst. destruct (IHi Hi) as (x & E & Ex & Jx). destruct (Jx Ji) as [s ->].
      destruct (IHl IHr) as (items & E2 & ->); [intros; apply HL; now right|].
      rewrite E. cbn [bind]. rewrite E2. cbn [bind]. eexists. split; [reflexivity|]. cbn [map]. cbn [py_str] in Ex. now rewrite Ex. }
    destruct G as (items & E & ->). cbn [sanitize]. rewrite E. cbn [bind]. eexists. split; [reflexivity|]. split; [|eauto].
    cbn [py_str shown_value]. rewrite !escaped_app, escaped_join, map_map. reflexivity.
  - eexists. split; [reflexivity|]. split; [|eauto]. cbn [py_str shown_value]. apply sanitize_escaped.
Qed.
Lemma sanitize_raises v : showable v \/ sanitize v = Raise TypeError.
Proof.
  induction v as [| | | |l IH|d IH] using value_ind'; try (left; constructor; discriminate).
  assert (G : (forall x, In x l -> showable x /\ joins x) \/ (fix go l := match l with
                     | [] => Ok []
                     | i :: l' =>
                         let* x := sanitize i in
                         let* rest := go l' in
                         match x with VStr s => Ok (s :: rest) | _ => Raise TypeError end
                     end) l = Raise TypeError).
  { induction l as [|i l IHl]; [left; intros ? []|]. inversion IH as [|? ? IHi IHr]; subst.
    destruct IHi as [Hi|E]; [|right; rewrite E; reflexivity].
    destruct (sanitize_shown i Hi) as (x & E & _ & Jx). rewrite E. cbn [bind].
    destruct (IHl IHr) as [HL|E2]; [|right; rewrite E2; reflexivity].
    destruct i; try (left; intros y [<-|Hy]; [split; [exact Hi|exact I]|now apply HL]);
      right; cbn in E; injection E as <-; match goal with |- (let* _ := ?t in _) = _ => destruct t as [|e] eqn:Et end; cbn [bind]; try reflexivity.
    all: exfalso; revert Et; clear - HL; revert e; induction l as [|i l IHl]; intros e Et; [discriminate Et|].
    all: destruct (HL i (or_introl eq_refl)) as [Hi Ji]; destruct (sanitize_shown i Hi) as (x & E & _ & Jx); destruct (Jx Ji) as [s ->];
      rewrite E in Et; cbn [bind] in Et.
    all: match type of Et with (let* _ := ?t in _) = _ => destruct t as [|e'] eqn:Et' end; cbn [bind] in Et; [discriminate Et|].
    all: exact (IHl (fun x H => HL x (or_intror H)) e' eq_refl). }
  destruct G as [HL|E]; [left; now constructor|right]. cbn [sanitize]. now rewrite E.
Qed.

(** ** Reading the page *)
Lemma read_text s : ~ In "<"%char s -> forall before rest, read_page InText before (s ++ rest) = read_page InText (before ++ s) rest.
Proof.
  induction s as [|c s IH]; intros H before rest; [now rewrite app_nil_r|]. cbn [app read_page].
  destruct (Ascii.eqb_spec c "<") as [->|]; [elim H; now left|]. rewrite IH by (intros C; apply H; now right). now rewrite <- app_assoc.
Qed.
Lemma read_open before rest : read_page InText before ("<"%char :: rest) = text before ++ read_page InTag [] rest.
Proof. reflexivity. Qed.
Lemma read_tag s : ~ In ">"%char s -> ~ In """"%char s -> ~ In "'"%char s ->
  forall before rest, read_page InTag before (s ++ rest) = read_page InTag (before ++ s) rest.
Proof.
  induction s as [|c s IH]; intros H1 H2 H3 before rest; [now rewrite app_nil_r|]. cbn [app read_page].
  destruct (Ascii.eqb_spec c ">") as [->|]; [elim H1; now left|]. destruct (Ascii.eqb_spec c """") as [->|]; [elim H2; now left|].
  destruct (Ascii.eqb_spec c "'") as [->|]; [elim H3; now left|]. cbn [orb].
  rewrite IH; [now rewrite <- app_assoc|intros C; apply H1; now right|intros C; apply H2; now right|intros C; apply H3; now right].
Qed.
Lemma read_quotes q s : ~ In q s -> forall before rest, read_page (InQuotes q) before (s ++ rest) = read_page (InQuotes q) (before ++ s) rest.
Proof.
  induction s as [|c s IH]; intros H before rest; [now rewrite app_nil_r|]. cbn [app read_page].
  destruct (Ascii.eqb_spec c q) as [->|]; [elim H; now left|]. rewrite IH by (intros C; apply H; now right). now rewrite <- app_assoc.
Qed.

(** a piece of a page before a tag or the end *)
Definition at_tag (s : str) : Prop := s = [] \/ exists s', s = "<"%char :: s'.
Definition reads (s : str) (ts : list token) : Prop := forall rest, at_tag rest -> page (s ++ rest) = ts ++ page rest.
Lemma at_tag_app a b : at_tag a -> at_tag b -> at_tag (a ++ b).
Proof. intros [->|[a' ->]] [->|[b' ->]]; unfold at_tag; cbn [app]; eauto. Qed.
Lemma reads_nil : reads [] [].
Proof. intros rest _. reflexivity. Qed.
Lemma reads_app a b x y : reads a x -> reads b y -> at_tag b -> reads (a ++ b) (x ++ y).
Proof. intros H K T rest R. rewrite <- app_assoc, H by (now apply at_tag_app). rewrite K by exact R. now rewrite app_assoc. Qed.
Lemma concat_at_tag l : (forall x, In x l -> at_tag x) -> at_tag (concat l).
Proof.
  induction l as [|x l IH]; intros H; [now left|]. cbn [concat]. apply at_tag_app; [apply H; now left|]. apply IH. intros; apply H; now right.
Qed.
Lemma reads_concat {A} (f : A -> str) (g : A -> list token) l : (forall x, In x l -> reads (f x) (g x) /\ at_tag (f x)) ->
  reads (concat (map f l)) (flat_map g l) /\ at_tag (concat (map f l)).
Proof.
  induction l as [|x l IH]; intros H; [split; [apply reads_nil|now left]|]. cbn [map concat flat_map].
  destruct (H x (or_introl eq_refl)) as [H1 H2]. destruct IH as [I1 I2]; [intros; apply H; now right|].
  split; [now apply reads_app|now apply at_tag_app].
Qed.
Lemma page_text s rest : ~ In "<"%char s -> at_tag rest -> page (s ++ rest) = text s ++ page rest.
Proof.
  intros H [->|[r ->]]; unfold page; rewrite read_text by exact H; [cbn [app read_page]; now rewrite app_nil_r|].
  rewrite !read_open. reflexivity.
Qed.
Lemma reads_text s : ~ In "<"%char s -> reads s (text s).
Proof. intros H rest R. now apply page_text. Qed.
(** a tag without quotes *)
Lemma page_tag s rest : ~ In ">"%char s -> ~ In """"%char s -> ~ In "'"%char s ->
  page ("<"%char :: s ++ ">"%char :: rest) = Tag s :: page rest.
Proof. intros H1 H2 H3. unfold page. rewrite read_open. cbn [text app]. rewrite read_tag by auto. reflexivity. Qed.
Lemma reads_tag s : ~ In ">"%char s -> ~ In """"%char s -> ~ In "'"%char s -> forall b y, reads b y ->
  reads ("<"%char :: s ++ ">"%char :: b) (Tag s :: y).
Proof.
  intros H1 H2 H3 b y K rest R. change (("<"%char :: s ++ ">"%char :: b) ++ rest) with ("<"%char :: (s ++ ">"%char :: b) ++ rest).
  rewrite <- app_assoc. change ((">"%char :: b) ++ rest) with (">"%char :: b ++ rest). rewrite page_tag by auto. now rewrite K.
Qed.
(** a computed piece *)
Lemma reads_markup s ts : (forall rest, page (s ++ rest) = ts ++ page rest) -> forall b y, reads b y -> reads (s ++ b) (ts ++ y).
Proof. intros H b y K rest R. rewrite <- app_assoc, H, K by exact R. now rewrite app_assoc. Qed.

Lemma escaped_no s : ~ In "<"%char (escaped s) /\ ~ In "'"%char (escaped s).
Proof. split; intros H; apply (escaped_clean s _ H); cbn; tauto. Qed.

Lemma head_cell c : reads ($"<th>" ++ escaped c ++ $"<th>" ++ line_end) ([Tag $"th"] ++ text (escaped c) ++ [Tag $"th"; Text line_end]).
Proof.
  apply reads_markup; [reflexivity|]. apply reads_app; [apply reads_text, escaped_no| |right; eexists; reflexivity].
  apply (reads_markup $"<th>" [Tag $"th"]); [reflexivity|]. apply (reads_text line_end). cbn. intuition discriminate.
Qed.
Lemma body_cell e : ~ In "<"%char e -> ~ In "'"%char e ->
  reads ($"<td title='" ++ e ++ $"' style='max-width:320px;overflow:hidden;text-overflow:ellipsis;white-space:nowrap;'>" ++ e ++ $"<td>" ++ line_end)
    ([Tag ($"td title='" ++ e ++ $"' style='max-width:320px;overflow:hidden;text-overflow:ellipsis;white-space:nowrap;'")] ++ text e ++ [Tag $"td"; Text line_end]).
Proof.
  intros H1 H2.
  assert (R : reads (e ++ $"<td>" ++ line_end) (text e ++ [Tag $"td"; Text line_end])).
  { apply reads_app; [now apply reads_text| |right; eexists; reflexivity].
    apply (reads_markup $"<td>" [Tag $"td"]); [reflexivity|]. apply (reads_text line_end). cbn. intuition discriminate. }
  intros rest Hr. specialize (R rest Hr).
  change (page (($"<td title='" ++ e ++ $"' style='max-width:320px;overflow:hidden;text-overflow:ellipsis;white-space:nowrap;'>" ++ e ++ $"<td>" ++ line_end) ++ rest))
    with (read_page (InQuotes "'"%char) $"td title='" ((e ++ $"' style='max-width:320px;overflow:hidden;text-overflow:ellipsis;white-space:nowrap;'>" ++ e ++ $"<td>" ++ line_end) ++ rest)).
  rewrite <- app_assoc. rewrite read_quotes by exact H2.
  set (tail := (e ++ $"<td>" ++ line_end) ++ rest) in *.
  assert (T : ($"' style='max-width:320px;overflow:hidden;text-overflow:ellipsis;white-space:nowrap;'>" ++ e ++ $"<td>" ++ line_end) ++ rest =
              $"' style='max-width:320px;overflow:hidden;text-overflow:ellipsis;white-space:nowrap;'>" ++ tail) by (unfold tail; now rewrite <- !app_assoc).
  rewrite T. clearbody tail.
  assert (P : forall before, read_page (InQuotes "'"%char) before ($"' style='max-width:320px;overflow:hidden;text-overflow:ellipsis;white-space:nowrap;'>" ++ tail)
               = Tag (before ++ $"' style='max-width:320px;overflow:hidden;text-overflow:ellipsis;white-space:nowrap;'") :: page tail).
  { intros before. change ($"' style='max-width:320px;overflow:hidden;text-overflow:ellipsis;white-space:nowrap;'>" ++ tail)
      with ("'"%char :: $" style=" ++ "'"%char :: $"max-width:320px;overflow:hidden;text-overflow:ellipsis;white-space:nowrap;" ++ "'"%char :: ">"%char :: tail).
    cbn [read_page]. change (Ascii.eqb "'" "'") with true. cbn iota.
    rewrite read_tag by (cbn; intuition discriminate). cbn [read_page].
    change (Ascii.eqb "'" ">") with false. change (Ascii.eqb "'" """" || Ascii.eqb "'" "'")%bool with true. cbn iota.
    rewrite read_quotes by (cbn; intuition discriminate). cbn [read_page].
    change (Ascii.eqb "'" "'") with true. change (Ascii.eqb ">" ">") with true. cbn iota.
    f_equal. f_equal. rewrite <- !app_assoc. reflexivity. }
  rewrite P, R. rewrite <- !app_assoc. reflexivity.
Qed.

Lemma mapM_each {A B} (f : A -> result B) l out : mapM f l = Ok out -> Forall2 (fun x y => f x = Ok y) l out.
Proof.
  revert out. induction l as [|x l IH]; intros out E; cbn [mapM] in E; [injection E as <-; constructor|].
  destruct (f x) as [y|] eqn:Ex; [|discriminate E]. cbn [bind] in E. destruct (mapM f l) as [ys|] eqn:El; [|discriminate E].
  injection E as <-. constructor; auto.
Qed.
Lemma reads_each {A} (f : A -> result str) (g : A -> list token) l out : mapM f l = Ok out ->
  (forall x y, In x l -> f x = Ok y -> reads y (g x) /\ at_tag y) -> reads (concat out) (flat_map g l) /\ at_tag (concat out).
Proof.
  intros E. apply mapM_each in E. induction E as [|x y l out Exy _ IH]; intros H; [split; [apply reads_nil|now left]|].
  cbn [concat flat_map]. destruct (H x y (or_introl eq_refl) Exy) as [H1 H2]. destruct IH as [I1 I2]; [intros; eapply H; eauto; now right|].
  split; [now apply reads_app|now apply at_tag_app].
Qed.

Lemma cell_reads r c y : html_cell r c = Ok y -> reads y (cell_tokens r c) /\ at_tag y.
Proof.
  unfold html_cell. fold (cell_value r c). destruct (sanitize_raises (cell_value r c)) as [S|S]; [|rewrite S; discriminate].
  destruct (sanitize_shown _ S) as (x & -> & Ex & _). cbn [bind]. intros [= <-]. rewrite Ex. unfold cell_tokens.
  split; [apply body_cell; apply escaped_no|right; eexists; reflexivity].
Qed.
Lemma row_reads columns r y : html_row columns r = Ok y -> reads y (row_tokens columns r) /\ at_tag y.
Proof.
  unfold html_row. destruct (mapM (html_cell r) columns) as [cells|] eqn:E; [|discriminate]. cbn [bind]. intros [= <-].
  split; [|right; eexists; reflexivity]. unfold row_tokens. apply (reads_markup $"<tr>" [Tag $"tr"]); [reflexivity|].
  destruct (reads_each (html_cell r) (cell_tokens r) columns cells E) as [H1 H2]; [intros; now apply cell_reads|].
  apply reads_app; [exact H1| |right; eexists; reflexivity]. intros rest R. reflexivity.
Qed.
Lemma head_reads columns : reads (html_head columns) (head_tokens columns).
Proof.
  unfold html_head, head_tokens. apply (reads_markup $"<thead class=""thead-light""><tr>" [Tag $"thead class=""thead-light"""; Tag $"tr"]); [reflexivity|].
  rewrite (map_ext _ (fun c => $"<th>" ++ escaped c ++ $"<th>" ++ line_end)) by (intros c; now rewrite sanitize_escaped).
  destruct (reads_concat (fun c => $"<th>" ++ escaped c ++ $"<th>" ++ line_end) (fun c => [Tag $"th"] ++ text (escaped c) ++ [Tag $"th"; Text line_end]) columns) as [H1 H2].
  { intros c _. split; [apply head_cell|right; eexists; reflexivity]. }
  apply reads_app; [exact H1| |right; eexists; reflexivity]. intros rest R. reflexivity.
Qed.
Lemma table_reads data columns out rest : to_html_table data columns = Ok out -> page (out ++ rest) = table_tokens columns data ++ page rest.
Proof.
  unfold to_html_table. destruct (mapM (html_row columns) data) as [body|] eqn:E; [|discriminate]. cbn [bind]. intros [= <-].
  destruct (reads_each (html_row columns) (row_tokens columns) data body E) as [H1 H2]; [intros; now apply row_reads|].
  assert (K : forall tail, page ((match data with [] => [] | _ => html_head columns end ++ concat body ++ $"</tbody></table>") ++ tail) =
                (match data with [] => [] | _ => head_tokens columns end ++ flat_map (row_tokens columns) data ++ [Tag $"/tbody"; Tag $"/table"]) ++ page tail).
  { intros tail. assert (T : page ((concat body ++ $"</tbody></table>") ++ tail) = (flat_map (row_tokens columns) data ++ [Tag $"/tbody"; Tag $"/table"]) ++ page tail).
    { rewrite <- app_assoc. rewrite H1 by (right; eexists; reflexivity). rewrite <- app_assoc. reflexivity. }
    destruct data; [exact T|]. rewrite <- app_assoc. rewrite head_reads; [rewrite T; rewrite <- !app_assoc; reflexivity|].
    rewrite <- app_assoc. apply at_tag_app; [exact H2|right; eexists; reflexivity]. }
  assert (O : forall m, page ($"<table class=""table table-sm"">" ++ m) = Tag $"table class=""table table-sm""" :: page m) by reflexivity.
  unfold table_tokens. rewrite <- app_assoc. eapply eq_trans; [apply O|]. rewrite K. reflexivity.
Qed.

Lemma top_rows_shown limit rows : top_rows 0 limit rows = rows_shown limit rows.
Proof.
  assert (G : forall rows i, (0 <= i)%Z -> top_rows i limit rows = if (i <? limit)%Z then firstn (Z.to_nat (limit - i)) rows else rows).
  { induction rows0 as [|r rows0 IH]; intros i Hi; cbn [top_rows]; [destruct (i <? limit)%Z; [now rewrite firstn_nil|reflexivity]|].
    destruct (Z.eqb_spec (i + 1) limit) as [E|E].
    - destruct (Z.ltb_spec i limit); [|lia]. replace (limit - i)%Z with 1%Z by lia. reflexivity.
    - rewrite IH by lia. destruct (Z.ltb_spec (i + 1) limit), (Z.ltb_spec i limit); try lia; [|reflexivity].
      replace (Z.to_nat (limit - i)) with (S (Z.to_nat (limit - (i + 1)))) by lia. reflexivity. }
  rewrite G by lia. rewrite Z.sub_0_r. reflexivity.
Qed.

Section Table.
  Context (set_order : list str -> list str) (HO : forall l, NoDup (set_order l) /\ forall c, In c (set_order l) <-> In c l).

  Lemma columns_spec rows : columns_shown rows (set_order (flat_map (map fst) rows)).
  Proof.
    destruct (HO (flat_map (map (@fst str value)) rows)) as [N H]. split; [exact N|]. intros c. rewrite H, in_flat_map. reflexivity.
  Qed.
  Lemma footer_reads o n m : page (match o with
    | Generator => "010"%char :: $"<p>top " ++ dec (N.of_nat n) ++ $" rows x " ++ dec (N.of_nat m) ++ $" columns</p>" ++
                   "010"%char :: $"NOTE: the displayed records may have been spent"
    | Sized k => "010"%char :: $"<p>" ++ dec (N.of_nat k) ++ $" rows x " ++ dec (N.of_nat m) ++ $" columns</p>"
    | Other => []
    end) = footer_tokens o n m.
  Proof.
    assert (D : forall k, ~ In "<"%char (dec k)) by (intros k H; apply dec_digits in H; discriminate H).
    assert (C : forall k pre post, ~ In "<"%char pre -> page ("010"%char :: $"<p>" ++ (pre ++ dec k ++ $" rows x " ++ dec (N.of_nat m) ++ $" columns") ++ $"</p>" ++ post) =
                 [Text line_end; Tag $"p"] ++ text (pre ++ dec k ++ $" rows x " ++ dec (N.of_nat m) ++ $" columns") ++ [Tag $"/p"] ++ page post).
    { intros k pre post Hp.
      assert (X : ~ In "<"%char (pre ++ dec k ++ $" rows x " ++ dec (N.of_nat m) ++ $" columns")).
      { rewrite !in_app_iff. intros [H|[H|[H|[H|H]]]]; [now apply Hp|now apply D in H|cbn in H; intuition discriminate|now apply D in H|cbn in H; intuition discriminate]. }
      pose proof (page_text _ ($"</p>" ++ post) X (or_intror (ex_intro _ ($"/p>" ++ post) eq_refl))) as E.
      revert E. generalize (pre ++ dec k ++ $" rows x " ++ dec (N.of_nat m) ++ $" columns"). intros t E.
      change (page ("010"%char :: $"<p>" ++ t ++ $"</p>" ++ post)) with ([Text line_end; Tag $"p"] ++ page (t ++ $"</p>" ++ post)). rewrite E. reflexivity. }
    destruct o; unfold footer_tokens; cbv zeta.
    - specialize (C (N.of_nat n) $"top " ("010"%char :: $"NOTE: the displayed records may have been spent") ltac:(cbn; intuition discriminate)).
      eapply eq_trans; [|eapply eq_trans; [exact C|]]; [|reflexivity]. f_equal. f_equal. rewrite <- !app_assoc. reflexivity.
    - specialize (C (N.of_nat n0) [] [] ltac:(cbn; intuition discriminate)). cbn [app] in C.
      eapply eq_trans; [|eapply eq_trans; [exact C|]].
      + f_equal. f_equal. rewrite <- !app_assoc. now rewrite app_nil_r.
      + cbn [app]. f_equal. f_equal. destruct (dec (N.of_nat n0)) eqn:E; reflexivity.
    - reflexivity.
  Qed.

  Lemma table_shows o limit rows out : html_table set_order o limit rows = Ok out ->
    exists columns, columns_shown (rows_shown limit rows) columns /\
      page out = table_tokens columns (rows_shown limit rows) ++ footer_tokens o (length (rows_shown limit rows)) (length columns).
  Proof.
    unfold html_table. rewrite top_rows_shown. set (shown := rows_shown limit rows). intros H.
    exists (set_order (flat_map (map fst) shown)). split; [apply columns_spec|].
    destruct (to_html_table shown (set_order (flat_map (map fst) shown))) as [table|] eqn:E; [|discriminate H]. cbn [bind] in H. injection H as <-.
    rewrite (table_reads _ _ _ _ E). f_equal. apply footer_reads.
  Qed.

  Lemma table_returns o limit rows :
    (forall r c, In r (rows_shown limit rows) -> showable (cell_value r c)) <-> exists out, html_table set_order o limit rows = Ok out.
  Proof.
    unfold html_table. rewrite top_rows_shown. set (shown := rows_shown limit rows). 
    assert (C : forall r c, showable (cell_value r c) <-> exists y, html_cell r c = Ok y).
    { intros r c. unfold html_cell. fold (cell_value r c). destruct (sanitize_raises (cell_value r c)) as [S|S].
      - split; [|auto]. destruct (sanitize_shown _ S) as (x & -> & _). cbn [bind]. eauto.
      - rewrite S. split; [|intros [y E]; discriminate E]. intros H. destruct (sanitize_shown _ H) as (x & E & _). congruence. }
    assert (M : forall (A : Type) (f : A -> result str) l, (forall x, In x l -> exists y, f x = Ok y) <-> exists out, mapM f l = Ok out).
    { intros A f l. split.
      - induction l as [|x l IH]; intros H; [exists []; reflexivity|]. cbn [mapM]. destruct (H x (or_introl eq_refl)) as [y ->].
        destruct IH as [ys ->]; [intros; apply H; now right|]. cbn [bind]. eauto.
      - intros [out E] x Hx. apply mapM_each in E. clear - E Hx. induction E as [|x' y l out Exy _ IH]; [destruct Hx|destruct Hx as [->|Hx]; eauto]. }
    set (columns := set_order (flat_map (map fst) shown)).
    assert (R : (forall r, In r shown -> exists y, html_row columns r = Ok y) <-> forall r c, In r shown -> In c columns -> showable (cell_value r c)).
    { split.
      - intros H r c Hr Hc. apply C. destruct (H r Hr) as [y E]. unfold html_row in E. destruct (mapM (html_cell r) columns) as [cells|] eqn:Em; [|discriminate E].
        apply (proj2 (M _ (html_cell r) columns) (ex_intro _ _ Em) c Hc).
      - intros H r Hr. unfold html_row. destruct (proj1 (M _ (html_cell r) columns)) as [cells ->]; [intros c Hc; apply C; auto|]. cbn [bind]. eauto. }
    split.
    - intros H. assert (X : exists body, mapM (html_row columns) shown = Ok body) by (apply M, R; intros; now apply H).
      destruct X as [body X]. unfold to_html_table. rewrite X. cbn [bind]. eauto.
    - intros [out E] r c Hr. unfold to_html_table in E. destruct (mapM (html_row columns) shown) as [body|] eqn:Em; [|discriminate E].
      destruct (dget str_eqb c r) as [v|] eqn:Ed; [|unfold cell_value; rewrite Ed; constructor; discriminate].
      apply (proj1 R); auto.
      + apply M. eauto.
      + apply (columns_spec shown). exists r. split; [exact Hr|]. apply (dget_Some_In str_eqb str_keqb) in Ed. exact (in_map fst _ _ Ed).
  Qed.
End Table.

Lemma dedup_order l : NoDup (dedup str_eqb l) /\ forall c, In c (dedup str_eqb l) <-> In c l.
Proof. split; [exact (dedup_NoDup str_eqb str_eqb_eq l)|]. intros c. apply (dedup_In str_eqb str_eqb_eq). Qed.
Lemma numbers_refuted : exists rows, forall set_order o, (forall l, NoDup (set_order l) /\ forall c, In c (set_order l) <-> In c l) ->
  forall out, html_table set_order o 5 rows <> Ok out.
Proof.
  exists [[($"n", VList [VInt 1])]]. intros set_order o HO out E.
  pose proof (proj2 (table_returns set_order HO o 5 [[($"n", VList [VInt 1])]]) (ex_intro _ _ E) [($"n", VList [VInt 1])] $"n" (or_introl eq_refl)) as H.
  change (cell_value [($"n", VList [VInt 1])] $"n") with (VList [VInt 1]) in H.
  inversion H as [v N|l HL]; subst; [now elim (N [VInt 1])|]. destruct (HL (VInt 1) (or_introl eq_refl)) as [_ []].
Qed.
Lemma cells_refuted : exists rows out, html_table (dedup str_eqb) Other 5 rows = Ok out /\
  ~ In (Tag $"/td") (page out) /\ ~ In (Tag $"/th") (page out) /\ In (Tag $"td") (page out) /\ In (Tag $"th") (page out).
Proof.
  exists [[($"n", VInt 1)]]. eexists. split; [vm_compute; reflexivity|]. vm_compute. intuition discriminate.
Qed.
Lemma limit_refuted : exists rows out, html_table (dedup str_eqb) Other 0 rows = Ok out /\ In (Text $"shown") (page out).
Proof. exists [[($"n", VStr $"shown")]]. eexists. split; [vm_compute; reflexivity|]. vm_compute. intuition. Qed.
