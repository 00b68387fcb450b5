(** mabel/data/internals/storage_classes/: where a DictSet keeps its records, and
    mabel/data/internals/dictset.py 51-123, 275-283, 322-343, 378-404: how it reads them.

    A generator is modelled by the values it yields and the exception it then ends with, if any. *)
From Verif.Base Require Import Py Value.

Definition generator (A : Type) : Type := list A * option exn.

(** [for x in g: yield f(x)] *)
Fixpoint map_gen {A B} (f : A -> result B) (l : list A) (fin : option exn) : generator B :=
  match l with
  | [] => ([], fin)
  | x :: l' => match f x with
               | Ok y => let '(ys, e) := map_gen f l' fin in (y :: ys, e)
               | Raise e => ([], Some e)
               end
  end.

(** dictset.py 51-72 *)
Inductive storage_class := NO_PERSISTANCE | MEMORY | DISK | COMPRESSED_MEMORY.

Section Storage.
  (** orjson.dumps and orjson.loads (base_storage_class.py 29-38), lz4.frame.compress and decompress *)
  Context (dump_json : value -> str) (parse_json : str -> result value).
  Context (compress decompress : str -> str).

  (** ** storage_class_compressed_memory.py *)
  (** 22 *)
  Definition BATCH_SIZE : nat := 250.
  Definition compressed_batch (batch : list value) : str := compress (dump_json (VList batch)).
  (** 26-48 [__init__]: the batches and the length *)
  Fixpoint fill_batches (batch : list value) (batches : list str) (length_ : nat) (iterable : list value) : list str * nat :=
    match iterable with
    | item :: rest =>
        let batch := batch ++ [item] in
        let length_ := S length_ in
        if (BATCH_SIZE <=? length batch)%nat
        then fill_batches [] (batches ++ [compressed_batch batch]) length_ rest
        else fill_batches batch batches length_ rest
    | [] => (match batch with [] => batches | _ => batches ++ [compressed_batch batch] end, length_)
    end.
  Definition compressed_init (iterable : list value) : list str * nat := fill_batches [] [] 0 iterable.
  (** 58-60, 65: [parse_json(decompress(batch))], which must be a list *)
  Definition open_batch (batch : str) : result (list value) :=
    let* v := parse_json (decompress batch) in
    match v with VList l => Ok l | _ => Raise TypeError end.
  (** 63-68 [_inner_reader()]: empty records are left out *)
  Fixpoint compressed_records (batches : list str) : generator value :=
    match batches with
    | [] => ([], None)
    | b :: rest =>
        match open_batch b with
        | Ok records => let '(ys, e) := compressed_records rest in (filter truthy records ++ ys, e)
        | Raise e => ([], Some e)
        end
    end.
  (** 51-61 [_inner_reader( *locations )]; [batch_number] stays -1 *)
  Fixpoint compressed_at (batches : list str) (batch : list value) (ordered_location : list Z) : generator value :=
    match ordered_location with
    | [] => ([], None)
    | i :: rest =>
        let requested_batch := (i / Z.of_nat BATCH_SIZE)%Z in
        match (if (requested_batch =? -1)%Z then Ok batch
               else let* b := py_index batches requested_batch in open_batch b) with
        | Raise e => ([], Some e)
        | Ok batch =>
            match py_index batch (i mod Z.of_nat BATCH_SIZE)%Z with
            | Raise e => ([], Some e)
            | Ok record => let '(ys, e) := compressed_at batches batch rest in (record :: ys, e)
            end
        end
    end.
  Definition compressed_reader (batches : list str) (locations : list Z) : generator value :=
    match locations with
    | [] => compressed_records batches
    | _ => compressed_at batches [] (isort Z.leb locations)
    end.

  (** ** storage_class_disk.py *)
  Definition newline : ascii := "010".
  (** 18: 16 MB *)
  Definition BUFFER_SIZE : N := 16 * 1024 * 1024.
  (** 33-46 [__init__]: the file and the length; the rows are dictionaries so have no [mini] (37-38) *)
  Fixpoint fill_file (file buffer : str) (iterator : list value) : str :=
    match iterator with
    | row :: rest =>
        let buffer := buffer ++ (dump_json row ++ [newline]) in
        if (BUFFER_SIZE <? N.of_nat (length buffer))%N then fill_file (file ++ buffer) [] rest
        else fill_file file buffer rest
    | [] => if (0 <? length buffer)%nat then file ++ buffer else file
    end.
  (** 28, 35, 48: [enumerate] leaves the number of the last row, or -1 *)
  Definition disk_init (iterator : list value) : str * Z :=
    (fill_file [] [] iterator, (fold_left (fun n _ => n + 1) iterator (-1) + 1)%Z).

  (** [readline] until it returns nothing *)
  Fixpoint file_lines (line file : str) : list str :=
    match file with
    | c :: rest => if Ascii.eqb c newline then (line ++ [c]) :: file_lines [] rest else file_lines (line ++ [c]) rest
    | [] => match line with [] => [] | _ => [line] end
    end.
  (** 51-60 [_read_file]: mmap refuses an empty file *)
  Definition read_file (file : str) : generator str :=
    match file with [] => ([], Some ValueError) | _ => (file_lines [] file, None) end.
  (** 72-76: the lines numbered from [i] *)
  Fixpoint disk_at (i max_location : Z) (locations : list Z) (lines : list str) (fin : option exn) : generator value :=
    match lines with
    | [] => ([], fin)
    | line :: rest =>
        if mem Z.eqb i locations then
          match parse_json line with
          | Raise e => ([], Some e)
          | Ok record =>
              if (i =? max_location)%Z then ([record], None)
              else let '(ys, e) := disk_at (i + 1) max_location locations rest fin in (record :: ys, e)
          end
        else disk_at (i + 1) max_location locations rest fin
    end.
  Definition zmax (l : list Z) (d : Z) : Z := fold_left Z.max l d.
  Definition zmin (l : list Z) (d : Z) : Z := fold_left Z.min l d.
  (** 62-79 [_inner_reader]; running out of lines in 69-70 is a StopIteration inside a generator *)
  Definition disk_reader (file : str) (locations : list Z) : generator value :=
    let '(lines, fin) := read_file file in
    match locations with
    | [] => map_gen parse_json lines fin
    | l :: ls =>
        let max_location := zmax ls l in
        let min_location := zmin ls l in
        let skipped := Z.to_nat min_location in
        if (length lines <? skipped)%nat
        then ([], Some (match fin with Some e => e | None => RuntimeError end))
        else disk_at min_location max_location locations (skipn skipped lines) fin
    end.

  (** ** A set and its storage *)
  (** dictset.py 76-112 [DictSet(rows, storage_class=...)].  For NO_PERSISTANCE the rows are a list
      ([Plain]) or a generator ([Lazy]). *)
  Inductive store :=
  | Plain (rows : list value)
  | Lazy (rows : list value)
  | InMemory (data : list value)
  | OnDisk (file : str) (length_ : Z)
  | Compressed (batches : list str) (length_ : nat).
  Definition persist (c : storage_class) (rows : list value) : store :=
    match c with
    | NO_PERSISTANCE => Plain rows
    | MEMORY => InMemory rows
    | DISK => let '(file, n) := disk_init rows in OnDisk file n
    | COMPRESSED_MEMORY => let '(batches, n) := compressed_init rows in Compressed batches n
    end.

  (** what a new iterator yields: storage_class_memory.py 19, storage_class_disk.py 77-79,
      storage_class_compressed_memory.py 63-68 *)
  Definition contents (s : store) : generator value :=
    match s with
    | Plain rows | Lazy rows | InMemory rows => (rows, None)
    | OnDisk file _ => disk_reader file []
    | Compressed batches _ => compressed_reader batches []
    end.

  (** dictset.py 275-283 [count] *)
  Definition count (s : store) : Z :=
    match s with
    | Plain rows | InMemory rows => Z.of_nat (length rows)
    | Lazy _ => (-1)%Z
    | OnDisk _ n => n
    | Compressed _ n => Z.of_nat n
    end.

  (** dictset.py 342: [for i, r in iter(...)] unpacks every record; the parts of a dictionary are its keys, which
      are no numbers *)
  Fixpoint unpack_pairs (rows : list value) : option exn :=
    match rows with
    | [] => None
    | VDict [_; _] :: rest => unpack_pairs rest
    | _ => Some ValueError
    end.
  (** dictset.py 322-343 [get_items]; a StorageClassMemory has no [__getitem__] *)
  Definition get_items (s : store) (locations : list Z) : generator value :=
    match s with
    | OnDisk file _ => disk_reader file locations
    | Compressed batches _ => compressed_reader batches locations
    | Plain rows =>
        match mapM (py_index rows) locations with
        | Ok l => (l, None)
        | Raise e => ([], Some e)
        end
    | InMemory _ => ([], None)
    | Lazy rows => ([], unpack_pairs rows)
    end.
End Storage.

(** ** Iterating (base_storage_class.py 17-24 and the same in the three classes; dictset.py 114-123)

    [made] is, for each generator which was made, how many values were taken from it; [current] is the
    generator the storage remembers ([self.iterator]). *)
Record iterators := { made : list nat; current : option nat }.
Definition new_storage : iterators := {| made := []; current := None |}.

Inductive taken := Item (v : value) | Stop.

Fixpoint bump (l : list nat) (g : nat) : list nat :=
  match l, g with
  | n :: l', O => S n :: l'
  | n :: l', S g' => n :: bump l' g'
  | [], _ => []
  end.

(** [__iter__]: a new generator, which the storage remembers *)
Definition iter_new (s : iterators) : nat * iterators :=
  (length (made s), {| made := made s ++ [0]; current := Some (length (made s)) |}).
(** [next(g)] for a generator made before *)
Definition next_of (rows : list value) (g : nat) (s : iterators) : taken * iterators :=
  match nth_error (made s) g with
  | Some n =>
      match nth_error rows n with
      | Some v => (Item v, {| made := bump (made s) g; current := current s |})
      | None => (Stop, s)
      end
  | None => (Stop, s)
  end.
(** [__next__], which is what [next(dictset)] calls *)
Definition next_current (rows : list value) (s : iterators) : taken * iterators :=
  match current s with
  | Some g => next_of rows g s
  | None => let '(g, s) := iter_new s in next_of rows g s
  end.

(** read up to [n] values, or until there are no more if [n] is greater than their number *)
Fixpoint pull (rows : list value) (n : nat) (next : iterators -> taken * iterators) (s : iterators) : list value * iterators :=
  match n with
  | O => ([], s)
  | S n' => match next s with
            | (Item v, s) => let '(vs, s) := pull rows n' next s in (v :: vs, s)
            | (Stop, s) => ([], s)
            end
  end.

(** what users do with a set *)
Inductive use :=
| Collect              (* collect_list() and everything which reads a new iterator to its end *)
| First                (* dictset.py 378-382 *)
| Take (n : nat)       (* dictset.py 384-404, n >= 1 *)
| ForLoop              (* for record in dictset: ... *)
| ForBreak (n : nat).  (* the same, left in the n-th round *)

Definition all_of (rows : list value) : nat := S (length rows).
Definition do_use (rows : list value) (u : use) (s : iterators) : list value * iterators :=
  match u with
  | Collect => let '(g, s) := iter_new s in pull rows (all_of rows) (next_of rows g) s
  | First => let '(g, s) := iter_new s in pull rows 1 (next_of rows g) s
  | Take n => let '(g, s) := iter_new s in pull rows n (next_of rows g) s
  | ForLoop => pull rows (all_of rows) (next_current rows) s
  | ForBreak n => pull rows n (next_current rows) s
  end.
Fixpoint do_uses (rows : list value) (us : list use) (s : iterators) : list (list value) * iterators :=
  match us with
  | [] => ([], s)
  | u :: us' => let '(out, s) := do_use rows u s in
                let '(outs, s) := do_uses rows us' s in (out :: outs, s)
  end.

(** single steps, in any order: several readers may be active at once *)
Inductive step := NewIterator | NextOf (g : nat) | Next.
(** the generator read from, and the value *)
Definition do_step (rows : list value) (o : step) (s : iterators) : option (nat * value) * iterators :=
  match o with
  | NewIterator => (None, snd (iter_new s))
  | NextOf g => match next_of rows g s with (Item v, s) => (Some (g, v), s) | (Stop, s) => (None, s) end
  | Next => let g := match current s with Some g => g | None => length (made s) end in
            match next_current rows s with (Item v, s) => (Some (g, v), s) | (Stop, s) => (None, s) end
  end.
Fixpoint do_steps (rows : list value) (os : list step) (s : iterators) : list (nat * value) * iterators :=
  match os with
  | [] => ([], s)
  | o :: os' => let '(out, s) := do_step rows o s in
                let '(outs, s) := do_steps rows os' s in
                (match out with Some x => x :: outs | None => outs end, s)
  end.
