(** Cases for the theorems on select lists. *)
From Verif.Base Require Import Py Value.
From Verif.Model Require Import Tokens Evaluator.
From Verif.Spec Require Import Tokens Expression Evaluator.
From Verif.Proofs Require Import ExpressionCases.

Definition no_dumps (_ : record) : str := [].
Definition no_other (_ : str) (_ : list value) : result value := Raise KeyError.
Notation fns := (Model.Evaluator.functions no_dumps no_other).
Notation kind := (get_token_type none_of none_of).

(** upper( left(name, 3)) AS who, `size`,7 *)
Definition ex_list : list (expr * option str) :=
  [(Call $"upper" [Call $"left" [Atom $"name"; Atom $"3"]], Some $"who"); (Atom $"`size`", None); (Atom $"7", None)].
Definition ex_select : str := $"upper( left(name, 3)) AS who, `size`,7".
Definition ex_row : record := [($"size", VInt 5); ($"name", VStr $"dorothy")].
Definition ex_values : list value := [VStr $"DOR"; VInt 5; VInt 7].

Ltac blanks_tac := let c := fresh in let H := fresh in intros c H; cbn in H; repeat (destruct H as [<-|H]; [reflexivity|]); destruct H.
Ltac uncut_tac := split; [let c := fresh in let H := fresh in let K := fresh in intros c H K; cbn in H, K;
    repeat (destruct H as [<-|H]; [repeat (destruct K as [K|K]; [discriminate K|]); destruct K|]); destruct H
  | let w := fresh in let H := fresh in intros w H; vm_compute in H; repeat (destruct H as [<-|H]; [vm_compute; discriminate|]); destruct H].
Ltac atom_tac := split; [split; [discriminate|reflexivity]|split; [uncut_tac|vm_compute; tauto]].

Lemma ex_written : written_list kind ex_list ex_select.
Proof.
  apply (list_more kind (Call $"upper" [Call $"left" [Atom $"name"; Atom $"3"]], Some $"who") $"upper( left(name, 3)) AS who" _ $" `size`,7").
  - apply (entry_as kind _ $"upper( left(name, 3)) " $"AS" $" " $"who" []); try reflexivity; try blanks_tac; try discriminate.
    + apply (written_call kind $"upper" _ $" left(name, 3)" [] [] $" "); try blanks_tac; [vm_compute; tauto|].
      apply args_one. apply (written_call kind $"left" _ $"name, 3" $" " [] []); try blanks_tac; [vm_compute; tauto|].
      apply (args_more kind (Atom $"name") $"name" _ $" 3"); [|discriminate|].
      * apply (written_atom kind $"name" [] []); try blanks_tac. atom_tac.
      * apply args_one. apply (written_atom kind $"3" $" " []); try blanks_tac. atom_tac.
    + exists $"upper( left(name, 3))", " "%char. split; [reflexivity|]. vm_compute. intuition discriminate.
    + split; [discriminate|reflexivity].
    + uncut_tac.
  - apply (list_more kind (Atom $"`size`", None) $" `size`" _ $"7").
    + apply entry_plain. apply (written_atom kind $"`size`" $" " []); try blanks_tac. atom_tac.
    + apply list_one, entry_plain. apply (written_atom kind $"7" [] []); try blanks_tac. atom_tac.
Qed.

Lemma ex_means : Forall2 (fun x v => means kind none_of none_of fns ex_row (fst x) v) ex_list ex_values.
Proof.
  constructor; [|constructor; [|constructor; [|constructor]]]; cbn [fst].
  - apply (means_call kind none_of none_of fns ex_row $"upper" _ [VStr $"dor"]); [vm_compute; tauto| |reflexivity].
    constructor; [|constructor]. apply (means_call kind none_of none_of fns ex_row $"left" _ [VStr $"dorothy"; VInt 3]); [vm_compute; tauto| |reflexivity].
    constructor; [|constructor; [|constructor]].
    + apply (means_column kind none_of none_of fns ex_row $"name" $"name"); [reflexivity| |cbn; tauto]. constructor; [intros m; discriminate|discriminate].
    + apply (means_integer kind none_of none_of fns ex_row 3). reflexivity.
  - apply (means_column kind none_of none_of fns ex_row $"`size`" $"size"); [reflexivity| |cbn; tauto]. apply (names_quoted $"size").
  - apply (means_integer kind none_of none_of fns ex_row 7). reflexivity.
Qed.

Lemma ex_not_starred : ~ starred ex_list.
Proof. intros (a & H). cbn in H. repeat (destruct H as [H|H]; [discriminate H|]). destruct H. Qed.
Lemma ex_names : NoDup (map given_name ex_list) /\ map given_name ex_list = [$"who"; $"`size`"; $"7"].
Proof. split; [|reflexivity]. cbn. repeat constructor; cbn; intuition discriminate. Qed.
