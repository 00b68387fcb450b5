(** Specification: what is asked of a JSON library and of a compression library. *)
From Verif.Base Require Import Py Value.

(** keys of dictionaries are distinct, at any depth: every Python value is so *)
Fixpoint distinct_keys (v : value) : Prop :=
  match v with
  | VList l => (fix go l := match l with [] => True | x :: l' => distinct_keys x /\ go l' end) l
  | VDict d => NoDup (map fst d) /\
               (fix go d := match d with [] => True | kv :: d' => distinct_keys (snd kv) /\ go d' end) d
  | _ => True
  end.

Definition line_feed : ascii := "010".

(** what is written is read back, also with a line end after it, and takes one line *)
Definition faithful_json (dump : value -> str) (parse : str -> result value) : Prop :=
  forall v, distinct_keys v ->
    parse (dump v) = Ok v /\ parse (dump v ++ [line_feed]) = Ok v /\ ~ In line_feed (dump v).

Definition faithful_compression (compress decompress : str -> str) : Prop :=
  forall s, decompress (compress s) = s.
