(** Concrete CSV texts, archives and XML documents. *)
From Verif.Base Require Import Py Value.
From Verif.Model Require Import Storage Reader Decoders.
From Verif.Spec Require Import Reader Decoders Xml Namespaces.
From Verif.Proofs Require Namespaces.

(** a text with a header, a quoted field with a comma and quotes, an empty field and a short row *)
Definition a_csv : str := $"a,b" ++ ["010"%char] ++ $"""x, """"y"""""",2" ++ ["013"%char; "010"%char] ++ $",""""" ++ ["010"%char] ++ $"z".
Example ex_csv_file : csv_file [[$"a"; $"b"]; [$"x, ""y"""; $"2"]; [[]; []]; [$"z"]] a_csv.
Proof.
  assert (P : forall f, forallb (fun c => negb (existsb (Ascii.eqb c) (","%char :: """"%char :: breaks))) f = true -> csv_field f f).
  { intros f H. apply csv_plain. rewrite forallb_forall in H. apply Forall_forall. intros c Hc. specialize (H c Hc).
    apply negb_true_iff in H.
    assert (N : forall x, In x (","%char :: """"%char :: breaks) -> c <> x).
    { intros x Hx E. subst x. rewrite <- not_true_iff_false in H. apply H. apply existsb_exists. exists c.
      split; [exact Hx|apply Ascii.eqb_refl]. }
    repeat split; [apply N; cbn; auto|apply N; cbn; auto|].
    intros C. apply (N c); [right; right; exact C|reflexivity]. }
  unfold a_csv. apply (csv_row [$"a"; $"b"] $"a,b" ["010"%char]).
  { exists [$"a"; $"b"]. split; [|now split]. constructor; [now apply P|]. constructor; [now apply P|constructor]. }
  { now left. }
  apply (csv_row [$"x, ""y"""; $"2"] $"""x, """"y"""""",2" ["013"%char; "010"%char]).
  { exists [$"""x, """"y"""""""; $"2"]. split; [|now split].
    constructor; [exact (csv_quoted $"x, ""y""")|]. constructor; [now apply P|constructor]. }
  { now right. }
  apply (csv_row [[]; []] $",""""" ["010"%char]).
  { exists [[]; $""""""]. split; [|now split]. constructor; [now apply P|]. constructor; [exact (csv_quoted [])|constructor]. }
  { now left. }
  apply csv_last. exists [$"z"]. split; [|now split]. constructor; [now apply P|constructor].
Qed.
(** an archive [z] of a CSV text, a file of another kind, an archive [y] of a text, and an archive which can't be opened *)
Definition a_zip (data : str) : result (list (str * result str)) :=
  if str_eqb data $"z" then
    Ok [($"d/a.b.csv", Ok a_csv); ($"readme.md", Ok $"hello"); ($"in.zip", Ok $"y"); ($"out.zip", Ok $"w");
        ($"t.txt", Ok $"after")]
  else if str_eqb data $"y" then Ok [($"t.txt", Ok $"text")]
  else if str_eqb data $"q" then Ok [($"q.zip", Ok $"q")]
  else Raise ValueError.
(** the hypotheses of [archive_read], for the archive [y] *)
Example ex_archive_holds :
  let leaf ext d rs :=
    decode (fun _ => Raise ValueError) (fun _ => Raise ValueError)
      (other_decoder (fun _ => Raise ValueError) (fun _ => Raise ValueError) (fun _ => ([], None)) a_zip None
         (fun _ => ([], None)) 0) ext d = Some (rs, None) in
  file_holds leaf a_zip known_extension 1 $".zip" $"y" [VStr $"text"].
Proof.
  cbv zeta. apply (holds_archive _ _ _ 0 $"y" [($"t.txt", Ok $"text")]); [vm_compute; reflexivity|].
  apply (hold_known _ _ _ 0 $"t.txt" $".txt" $"text" [VStr $"text"] [] []).
  - exists $"txt". repeat split; [|right; exists $"t"; reflexivity]. cbn. intuition discriminate.
  - now left.
  - apply holds_leaf; [discriminate|]. vm_compute. reflexivity.
  - constructor.
Qed.

(** <a n="1">t<b/><b> x </b><c>y</c></a> *)
Definition a_tree : element :=
  Element $"a" [($"n", $"1")] (Some $"t")
    [Element $"b" [] None []; Element $"b" [] (Some $" x ") []; Element $"c" [] (Some $"y") []].
Example ex_xml :
  etree_value a_tree
  = VDict [($"b", VList [VNull; VStr $"x"]); ($"c", VStr $"y"); ($"@n", VStr $"1"); ($"#text", VStr $"t")] /\
  no_namespace a_tree.
Proof.
  split; [vm_compute; reflexivity|]. constructor; try discriminate.
  - intros k v s [E|[]]. injection E as <- <-. discriminate.
  - intros c [<-|[<-|[<-|[]]]]; constructor; try discriminate; intros; cbn in *; contradiction.
Qed.

(** a document in two namespaces: renamed keys go to the end of the dictionary, otherwise it is read as without them *)
Definition qualified_tree : element :=
  Element $"{u:1}a" [($"{u:2}n", $"1"); ($"m", $"2")] (Some $"t")
    [Element $"{u:1}b" [] None []; Element $"{u:1}b" [($"n", $"3")] (Some $" x ") []; Element $"c" [] (Some $"y") []].
Definition plain_tree : element :=
  Element $"a" [($"n", $"1"); ($"m", $"2")] (Some $"t")
    [Element $"b" [] None []; Element $"b" [($"n", $"3")] (Some $" x ") []; Element $"c" [] (Some $"y") []].
Example ex_namespaces :
  without_namespaces qualified_tree plain_tree /\
  strip_namespace (etree_to_dict qualified_tree)
  = Ok (VDict [($"a", VDict [($"c", VStr $"y"); ($"@m", VStr $"2"); ($"#text", VStr $"t");
                             ($"b", VList [VNull; VDict [($"@n", VStr $"3"); ($"#text", VStr $"x")]]); ($"@n", VStr $"1")])]) /\
  etree_to_dict plain_tree
  = VDict [($"a", VDict [($"b", VList [VNull; VDict [($"@n", VStr $"3"); ($"#text", VStr $"x")]]); ($"c", VStr $"y");
                         ($"@n", VStr $"1"); ($"@m", VStr $"2"); ($"#text", VStr $"t")])].
Proof.
  split; [|split; vm_compute; reflexivity].
  assert (B : forall c, ~ In c ["{"%char; "@"%char; "#"%char] -> forall r, bare (c :: r)).
  { intros c H r c' r' E. injection E as <- <-. exact H. }
  assert (L : forall c, ~ In c ["{"%char; "@"%char; "#"%char] -> forall r, local (c :: r) (c :: r)) by (intros; constructor; auto).
  assert (Q : forall ns c, ~ In "}"%char ns -> ~ In c ["{"%char; "@"%char; "#"%char] -> forall r, local ("{"%char :: ns ++ "}"%char :: c :: r) (c :: r))
    by (intros; constructor; auto).
  unfold qualified_tree, plain_tree. apply without_intro.
  - apply (Q $"u:1" "a"%char); intro C; cbn in C; intuition discriminate.
  - constructor; [split; [apply (Q $"u:2" "n"%char); intro C; cbn in C; intuition discriminate|reflexivity]|].
    constructor; [split; [apply (L "m"%char); intro C; cbn in C; intuition discriminate|reflexivity]|constructor].
  - repeat constructor; cbn; intuition discriminate.
  - constructor; [|constructor; [|constructor; [|constructor]]].
    + apply without_intro; [apply (Q $"u:1" "b"%char); intro C; cbn in C; intuition discriminate|constructor..|]. intros c1 c2 n [].
    + apply without_intro; [apply (Q $"u:1" "b"%char); intro C; cbn in C; intuition discriminate| | |constructor|intros c1 c2 n []].
      * constructor; [split; [apply (L "n"%char); intro C; cbn in C; intuition discriminate|reflexivity]|constructor].
      * repeat constructor; cbn; intuition discriminate.
    + apply without_intro; [apply (L "c"%char); intro C; cbn in C; intuition discriminate|constructor..|]. intros c1 c2 n [].
  - assert (Lb : forall n, local $"{u:1}b" n -> n = $"b").
    { intros n H. apply Namespaces.local_lp in H. now rewrite <- H. }
    assert (Lc : forall n, local $"c" n -> n = $"c").
    { intros n H. apply Namespaces.local_lp in H. now rewrite <- H. }
    intros c1 c2 n [<-|[<-|[<-|[]]]] [<-|[<-|[<-|[]]]] H1 H2; cbn [tag_of] in *; try reflexivity;
      first [apply Lb in H1; apply Lc in H2|apply Lc in H1; apply Lb in H2]; subst; discriminate.
Qed.
