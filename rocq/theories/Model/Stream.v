(** Model of mabel/data/writers/stream_writer.py and internals/writer_pool.py.  Every region guarded by
    the module's lock is one step; steps of the client and of the attendant thread come in any order. *)
From Verif.Base Require Import Py.
From Verif.Model Require Import Paths Frames Writers.

(** re.findall(r"\{(.*?)\}", s) (stream_writer.py:127): from an opening brace to the next closing one,
    provided there is no line break between *)
Fixpoint upto_brace (s : str) : option (str * str) :=
  match s with
  | [] => None
  | c :: s' => if Ascii.eqb c "}" then Some ([], s')
               else if Ascii.eqb c "010" then None
               else match upto_brace s' with Some (a, r) => Some (c :: a, r) | None => None end
  end.
Fixpoint findall_fuel (fuel : nat) (s : str) : list str :=
  match fuel, s with
  | S f, c :: s' =>
      if Ascii.eqb c "{" then
        match upto_brace s' with
        | Some (name, rest) => name :: findall_fuel f rest
        | None => findall_fuel f s'
        end
      else findall_fuel f s'
  | _, _ => []
  end.
Definition findall_placeholders (s : str) : list str := findall_fuel (S (length s)) s.

(** itertools.product *)
Fixpoint product {V} (ls : list (list V)) : list (list V) :=
  match ls with
  | [] => [[]]
  | l :: ls' => flat_map (fun x => map (cons x) (product ls')) l
  end.

(** what a stream writer depends on: records of type [R], field values of type [V] *)
Record streaming (R V : Type) := mkStreaming {
  m_template : str;                          (* dataset_template *)
  m_valid : R -> bool;                       (* the schema's verdict; true without schema *)
  m_get : R -> str -> list V;                (* record.get(name), a non-list as a list of one
                                                (stream_writer.py:137-140) *)
  m_show : V -> str;                         (* str(v) *)
  m_names : list str -> list str;            (* set(names), in iteration order *)
  m_tuples : list (list V) -> list (list V); (* set of tuples, in iteration order *)
  m_pool_size : Z; m_idle : Z;
  m_time : nat -> Z;                         (* the n-th time.time() *)
  m_base : setting R; m_ext : str }.         (* the writers' parameters but for the file name *)
Arguments m_template {R V}. Arguments m_valid {R V}. Arguments m_get {R V}. Arguments m_show {R V}.
Arguments m_names {R V}. Arguments m_tuples {R V}. Arguments m_pool_size {R V}. Arguments m_idle {R V}.
Arguments m_time {R V}. Arguments m_base {R V}. Arguments m_ext {R V}.
(** writer_pool.py:42-49 with blob_writer.py:45-46: the blob writer for an identity.
    Simplification: identities from which get_parts raises ("", ".") are left out. *)
Definition m_writer {R V} (M : streaming R V) (id : str) : setting R :=
  let b := m_base M in
  mkSetting R (s_format b) (s_max b)
    (match inner_filename (s_format b) (m_ext M) id with Ok f => f | Raise _ => [] end)
    (s_node b) (s_always b) (s_check b) (s_ser b) (s_zstd b) (s_nbytes b) (s_parquet b)
    (s_clock b) (s_fails b).

Section Stream.
  Context {R V : Type} (M : streaming R V).

  (** stream_writer.py:107-123.  Simplification: records are dictionaries. *)
  Definition identity (r : R) (now : moment) : str :=
    let i := date_format (m_template M) now in
    if m_valid M r then i else i ++ $"/BACKOUT/".
  (** stream_writer.py:147-150 *)
  Definition substitute (names : list str) (values : list V) (i : str) : str :=
    fold_left (fun s kv => replace ($"{" ++ fst kv ++ $"}") (sanitize (m_show M (snd kv))) s)
              (combine names values) i.
  (** stream_writer.py:125-150: the identities the record is written to, in order *)
  Definition targets (r : R) (now : moment) : list str :=
    let i := identity r now in
    let placeholders := m_names M (findall_placeholders i) in
    match placeholders with
    | [] => [i]
    | _ => map (fun vs => substitute placeholders vs i)
               (m_tuples M (product (map (m_get M r) placeholders)))
    end.

  (** a pool entry: writer_pool.py:44-48 *)
  Record pooled := mkPooled { p_id : str; p_last : Z; p_blob : blobw (R:=R) }.
  Record sstate := mkSState { pool : list pooled; world_of : world; ticks : nat }.
  Definition new_stream : sstate := mkSState [] (mkWorld 0 []) 0.

  Definition has_id (id : str) (w : pooled) : bool := str_eqb (p_id w) id.
  (** the last entry with the identity, and what is around it *)
  Fixpoint take_last (id : str) (l : list pooled) : option (list pooled * pooled * list pooled) :=
    match l with
    | [] => None
    | w :: l' => match take_last id l' with
                 | Some (a, x, b) => Some (w :: a, x, b)
                 | None => if has_id id w then Some ([], w, l') else None
                 end
    end.
  (** writer_pool.py:27-49 get_writer, and the append on the writer obtained (blob_writer.py:55-97) *)
  Definition pool_append (s : sstate) (id : str) (r : R) : result nat * sstate :=
    let now := m_time M (ticks s) in
    let '(a, b, rest) := match take_last id (pool s) with
                         | Some (a, w, rest) => (a, p_blob w, rest)
                         | None => (pool s, open_buffer, [])
                         end in
    let '(o, (b', w')) := blob_append (m_writer M id) b (world_of s) r in
    (o, mkSState (a ++ mkPooled id now b' :: rest) w' (S (ticks s))).
  (** stream_writer.py:146-157: number of writes *)
  Fixpoint append_all (s : sstate) (ids : list str) (r : R) (writes : nat) : result nat * sstate :=
    match ids with
    | [] => (Ok writes, s)
    | id :: ids' => match pool_append s id r with
                    | (Ok _, s') => append_all s' ids' r (S writes)
                    | (Raise e, s') => (Raise e, s')
                    end
    end.
  (** stream_writer.py:85-157.  Simplification: without placeholders the result is the number of
      writes (1) and not the blob writer's count. *)
  Definition stream_append (s : sstate) (r : R) (now : moment) : result nat * sstate :=
    append_all s (targets r now) r 0.

  (** writer_pool.py:51-69 *)
  Definition remove_writer (s : sstate) (id : str) : result unit * sstate :=
    match filter (has_id id) (pool s) with
    | [w] =>
        let pool' := filter (fun w => negb (has_id id w)) (pool s) in
        match commit (m_writer M id) (p_blob w) (world_of s) with
        | (Ok _, (_, w')) => (Ok tt, mkSState pool' w' (ticks s))
        | (Raise e, (_, w')) => (Raise e, mkSState pool' w' (ticks s))
        end
    | _ => (Ok tt, s)
    end.
  (** writer_pool.py:81-91 *)
  Definition nominate (pool_size : Z) (l : list pooled) : list str :=
    let sorted := isort (fun a b => (p_last a <=? p_last b)%Z) l in
    map p_id (slice_to (slice_to sorted (Z.of_nat (length l) - pool_size)) pool_size).
  (** writer_pool.py:93-101 *)
  Definition stale (now seconds : Z) (l : list pooled) : list str :=
    map p_id (filter (fun w => (seconds <? now - p_last w)%Z) l).

  Fixpoint remove_all (s : sstate) (ids : list str) : result unit * sstate :=
    match ids with
    | [] => (Ok tt, s)
    | id :: ids' => match remove_writer s id with
                    | (Ok _, s') => remove_all s' ids'
                    | (Raise e, s') => (Raise e, s')  (* ends the attendant thread *)
                    end
    end.
  (** stream_writer.py:179-193: one round of the pool attendant *)
  Definition attend (s : sstate) : result unit * sstate :=
    let now := m_time M (ticks s) in
    let s := mkSState (pool s) (world_of s) (S (ticks s)) in
    match remove_all s (stale now (m_idle M) (pool s)) with
    | (Ok _, s') => remove_all s' (nominate (m_pool_size M) (pool s'))
    | x => x
    end.
  (** stream_writer.py:159-172: an exception of one writer does not stop the others and is only
      logged.  The commit of the base class's own writer is left out: nothing is ever appended to it. *)
  Definition stream_finalize (s : sstate) : sstate :=
    fold_left (fun s w => snd (remove_writer s (p_id w))) (pool s) s.

  Inductive event := SAppend (r : R) (now : moment) | Attend | SFinalize.
  Definition sstep (s : sstate) (e : event) : result nat * sstate :=
    match e with
    | SAppend r now => stream_append s r now
    | Attend => let '(o, s') := attend s in
                (match o with Ok _ => Ok 0%nat | Raise e => Raise e end, s')
    | SFinalize => (Ok 0%nat, stream_finalize s)
    end.
  Fixpoint srun (s : sstate) (es : list event) : list (result nat) * sstate :=
    match es with
    | [] => ([], s)
    | e :: es' => let '(o, s') := sstep s e in
                  let '(os, s'') := srun s' es' in (o :: os, s'')
    end.
End Stream.
Arguments SAppend {R}. Arguments Attend {R}. Arguments SFinalize {R}.
Arguments mkPooled {R}. Arguments p_id {R}. Arguments p_last {R}. Arguments p_blob {R}.
Arguments pool {R}. Arguments world_of {R}. Arguments ticks {R}. Arguments has_id {R}.
