(** C71: samples; C72: tables of characters. *)
From Verif.Base Require Import Py Value.
From Verif.Model Require Import DictSet Views.
From Verif.Spec Require Import DictSet Views.
From Verif.Proofs Require Views.

(** C71: a sample is some of the records, in their order, ... *)
Theorem sample_in_order :
  forall (num den : Z) (draws : list Z) (rows l : list record),
    sample num den draws rows = Ok l -> subsequence l rows.
Proof. exact Views.sample_sub. Qed.
Print Assumptions sample_in_order.
(** ... for the fraction 1/k those whose random number is a multiple of k, ... *)
Theorem sample_of_one_in_k_partial :
  forall (k : Z) (draws : list Z) (rows : list record), (0 < k)%Z -> (length rows <= length draws)%nat ->
    sample 1 k draws rows = Ok (map snd (filter (fun dr => (fst dr mod k =? 0)%Z) (combine draws rows))).
Proof. exact Views.sample_unit. Qed.
Print Assumptions sample_of_one_in_k_partial.
(** ... which are one in k of the n random numbers there are (n is 65536), rounded up. *)
Theorem one_in_k_draws :
  forall k n : nat, (0 < k)%nat -> length (filter (fun d => (d mod k =? 0)%nat) (seq 0 n)) = ((n + k - 1) / k)%nat.
Proof. exact Views.multiples. Qed.
Print Assumptions one_in_k_draws.
(** A fraction of more than one half is everything, whatever the random numbers; more than one is an error. *)
Theorem sample_of_more_than_half_is_all :
  forall (num den : Z) (draws : list Z) (rows : list record),
    (0 < num <= den)%Z -> (den < 2 * num)%Z -> (length rows <= length draws)%nat -> sample num den draws rows = Ok rows.
Proof. exact Views.sample_over_half. Qed.
Print Assumptions sample_of_more_than_half_is_all.
Theorem sample_of_more_than_one_fails :
  forall (num den : Z) (draws : list Z) (rows : list record),
    (0 < den < num)%Z -> rows <> [] -> draws <> [] -> sample num den draws rows = Raise ZeroDivisionError.
Proof. exact Views.sample_over_one. Qed.
Print Assumptions sample_of_more_than_one_fails.

(** C72: the table of records which have the same keys in the same order.  Every line has cells of the same widths; the
    header shows the keys, each line the values of a record under their keys.  Partial: see below. *)
Theorem table_is_aligned_partial :
  forall ks : list str, (forall k, In k ks -> k <> []) -> NoDup ks -> ks <> [] ->
  forall (rows : list record) (limit : Z), (0 < limit)%Z -> rows <> [] -> (forall r, In r rows -> map fst r = ks) ->
    exists ws t h m vs b,
      ascii_table limit rows = Ok ([TopLeft :: t ++ [TopRight]; Vertical :: h; MidLeft :: m ++ [MidRight]]
                                   ++ map (fun l => Vertical :: l) vs ++ [BottomLeft :: b ++ [BottomRight]]) /\
      rule TopMid ws t /\ cells ws ks h /\ rule Cross ws m /\
      Forall2 (fun r l => cells ws (map (fun kv => format_value (snd kv)) r) l) (firstn (Z.to_nat limit) rows) vs /\
      rule BottomMid ws b.
Proof. exact Views.table_uniform. Qed.
Print Assumptions table_is_aligned_partial.
Theorem table_lines_as_long_partial :
  forall ks : list str, (forall k, In k ks -> k <> []) -> NoDup ks -> ks <> [] ->
  forall (rows : list record) (limit : Z) (lines : list (list glyph)),
    (0 < limit)%Z -> rows <> [] -> (forall r, In r rows -> map fst r = ks) ->
    ascii_table limit rows = Ok lines -> forall a b, In a lines -> In b lines -> length a = length b.
Proof. exact Views.table_lines. Qed.
Print Assumptions table_lines_as_long_partial.
(** With other keys the lines differ in length: the value 3 of "b" is under "a". *)
Theorem table_is_aligned_refuted :
  exists rows lines, Forall well_formed rows /\ ascii_table 5 rows = Ok lines /\
    nth_error lines 1 = Some ([Vertical] ++ text_glyphs $" a " ++ [Vertical] ++ text_glyphs $" b " ++ [Vertical]) /\
    nth_error lines 4 = Some ([Vertical] ++ text_glyphs $" 3 " ++ [Vertical]).
Proof.
  exists [[($"a", VInt 1); ($"b", VInt 2)]; [($"b", VInt 3)]]. eexists.
  split; [repeat constructor; cbn; intuition discriminate|]. split; [vm_compute; reflexivity|]. split; reflexivity.
Qed.
Print Assumptions table_is_aligned_refuted.
(** A column with an empty name and empty values cannot be shown. *)
Theorem table_of_nothing_refuted : exists rows, Forall well_formed rows /\ ascii_table 5 rows = Raise KeyError.
Proof. exists [[([], VStr [])]]. split; [repeat constructor; intros []|reflexivity]. Qed.
Print Assumptions table_of_nothing_refuted.

(** *** Examples *)
Example ex_sample : sample 1 3 [6; 7; 9]%Z [[($"a", VInt 1)]; [($"a", VInt 2)]; [($"a", VInt 3)]] = Ok [[($"a", VInt 1)]; [($"a", VInt 3)]]
  /\ sample 3 4 [5; 7]%Z [[($"a", VInt 1)]; [($"a", VInt 2)]] = Ok [[($"a", VInt 1)]; [($"a", VInt 2)]].
Proof. split; reflexivity. Qed.
Example ex_table : exists lines, ascii_table 5 [[($"name", VStr $"x"); ($"n", VInt 12345)]; [($"name", VStr $"longer"); ($"n", VNull)]] = Ok lines /\
  nth_error lines 1 = Some ([Vertical] ++ text_glyphs $"  name  " ++ [Vertical] ++ text_glyphs $"   n   " ++ [Vertical]) /\
  nth_error lines 3 = Some ([Vertical] ++ text_glyphs $"   x    " ++ [Vertical] ++ text_glyphs $" 12345 " ++ [Vertical]).
Proof. eexists. split; [vm_compute; reflexivity|]. split; reflexivity. Qed.
