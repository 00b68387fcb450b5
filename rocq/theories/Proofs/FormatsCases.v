(** Concrete cases for the theorems on formats. *)
From Verif.Base Require Import Py PyFacts Value.
From Verif.Model Require Import Dates Frames Cursor DictSet Storage Writers Reader Formats Json.
From Verif.Spec Require Import Json Writers Reader Formats.
From Verif.Proofs Require Import ReaderCases.
From Verif.Proofs Require RoundTrip.

Definition to_orjson (v : value) : result str := Ok (dumps v).
Lemma orjson_ok : faithful_orjson to_orjson loads.
Proof. intros v t D [= <-]. apply RoundTrip.json_one_line, D. Qed.
(** a writer of any format, with the columns of the table for Parquet *)
Definition table_row (columns : list str) (r : value) : value :=
  match r with VDict d => VDict (map (fun c => (c, match dget str_eqb c d with Some v => v | None => VNull end)) columns) | _ => r end.
Definition some_columns : list str := [$"a"; $"b"].
Definition any_set (f : format) (ext : str) : setting value :=
  mkSetting value f 20 (folder ++ $"/" ++ frame ++ $"/{stem}" ++ ext) $"1f" false
    (fun r => Ok tt)
    (serialise to_orjson to_orjson (fun _ => []) f) (fun s => "Z"%char :: s)
    (fun g => Z.of_nat (10 * length g)) (fun g => Ok (dumps (VList (map (table_row some_columns) g))))
    (fun n => 2 ^ 60 + N.of_nat n)%N (fun _ => None).
(** a decoder of such tables *)
Definition a_decoder (ext data : str) : generator value :=
  match loads data with Ok (VList rows) => (rows, None) | Ok _ => ([], Some ValueError) | Raise e => ([], Some e) end.
Definition written_by (f : format) (ext : str) (rs : list value) : list (str * str) :=
  puts (st_world (snd (run (any_set f ext) (new_writer nothing) (map Append rs ++ [Finalize false])))).
Definition read_of (f : format) (ext : str) (rs : list value) : result (list value) :=
  let* (rs, _) := read_records (fun _ => 0%Z) (fun _ => Raise ValueError)
     (fun _ => Ok (map fst (data_of (folder ++ $"/" ++ frame) (written_by f ext rs)))) 0
     (blob_records loads unz a_decoder (read_from (written_by f ext rs)) pass_thru pass_thru_filter None) NoCursor 9 in Ok rs.
Definition nested_rows : list value :=
  [VDict [($"a", VInt 1)]; VDict [($"a", VInt 2); ($"b", VDict [($"c", VInt 3)])]; VDict [($"a", VInt 4); ($"b", VNull)]].

Lemma row_distinct r : distinct_keys r -> (exists d, r = VDict d) -> distinct_keys (table_row some_columns r).
Proof.
  intros D (d & ->). destruct D as [_ D].
  assert (A : forall c, distinct_keys match dget str_eqb c d with Some v => v | None => VNull end).
  { intros c. destruct (dget str_eqb c d) as [v|] eqn:G; [|exact I]. apply (dget_Some_In str_eqb str_eqb_eq) in G.
    induction d as [|kv d IH]; [destruct G|]. destruct D as [D1 D2]. destruct G as [->|G]; [exact D1|]. now apply IH. }
  split; [repeat constructor; cbn; intuition discriminate|]. cbn [some_columns map snd]. repeat split; apply A.
Qed.
Lemma parquet_ok : read_as loads unz a_decoder (any_set Parquet $".jsonl.parquet") $".jsonl.parquet"
  (fun r => distinct_keys r /\ exists d, r = VDict d) (table_row some_columns).
Proof.
  apply (RoundTrip.parquet_read _ _ _ _ _ $".jsonl"); [reflexivity|reflexivity|]. intros g data Hg Hd.
  assert (Q : data = dumps (VList (map (table_row some_columns) g))) by (unfold any_set in Hd; cbn [s_parquet] in Hd; congruence).
  assert (D : distinct_keys (VList (map (table_row some_columns) g))).
  2: { unfold a_decoder. rewrite Q, (proj1 (RoundTrip.json_one_line _ D)). reflexivity. }
  clear Hd Q. induction g as [|r g IH]; [exact I|]. split; [apply row_distinct; apply (Hg r (or_introl eq_refl))|].
  apply IH. intros x Hx. apply Hg. now right.
Qed.
