(** mabel/data/readers/internals/multiprocess_wrapper.py: reading the blobs in several processes.

    The parent and the workers share two queues.  A step is one action of one of them on the queues; the steps of
    the processes interleave in any order. *)
From Verif.Base Require Import Py Value.

Section Pool.
  (** blobs *)
  Context {B : Type}.

  (** what is in the send queue: 21, 96, 121, 124 *)
  Inductive message := Item (b : B) | Terminate.
  (** 56-78: waiting for its first item (at most a second), waiting for a further one (without end), reading a
      blob, ended *)
  Inductive worker := Starting | Waiting | Working (b : B) | Stopped.
  (** the parent: in its loop (112-134), left it by its condition (112-116), left it after 600 seconds (126-131),
      left it because the client wants no more records (132-134) *)
  Inductive status := Running | Ended | Expired | Abandoned.

  Record pool := mkPool {
    send : list message;        (* send_queue *)
    replies : list B;           (* reply_queue: the records of these blobs *)
    workers : list worker;
    unsent : list B;            (* items_to_read[item_index:] *)
    delivered : list B;         (* the blobs whose records the parent has yielded, in order *)
    taken : list (nat * B);     (* which worker took which blob *)
    lost : list B;              (* blobs whose worker ended before it replied *)
    parent : status }.

  (** 90: [max(min(len(items_to_read), cpu_count() - 1), 2)] *)
  Definition slots_for (items : list B) (cpus : nat) : nat := Nat.max (Nat.min (length items) (cpus - 1)) 2.
  (** 91-110 *)
  Definition start_pool (items : list B) (slots : nat) : pool :=
    mkPool (map Item (firstn slots items)) [] (repeat Starting slots) (skipn slots items) [] [] [] Running.

  Fixpoint set_worker (i : nat) (w : worker) (ws : list worker) : list worker :=
    match ws, i with
    | [], _ => []
    | _ :: ws', O => w :: ws'
    | x :: ws', S i' => x :: set_worker i' w ws'
    end.
  Definition expects (w : worker) : Prop := w = Starting \/ w = Waiting.

  Inductive event := Take | Stop | GiveUp | Reply | Die | Deliver | End | Expire.
  (** [slots] is the size of the reply queue (91) *)
  Inductive step (slots : nat) : event -> pool -> pool -> Prop :=
  (** 58, 73: a worker gets a blob *)
  | step_take i w b q s : parent s = Running -> nth_error (workers s) i = Some w -> expects w -> send s = Item b :: q ->
      step slots Take s (mkPool q (replies s) (set_worker i (Working b) (workers s)) (unsent s) (delivered s)
                           (taken s ++ [(i, b)]) (lost s) (parent s))
  (** 58, 62, 73: a worker gets the signal to end *)
  | step_stop i w q s : parent s = Running -> nth_error (workers s) i = Some w -> expects w -> send s = Terminate :: q ->
      step slots Stop s (mkPool q (replies s) (set_worker i Stopped (workers s)) (unsent s) (delivered s)
                           (taken s) (lost s) (parent s))
  (** 59-60: no first item within a second *)
  | step_give_up i s : parent s = Running -> nth_error (workers s) i = Some Starting -> send s = [] ->
      step slots GiveUp s (mkPool (send s) (replies s) (set_worker i Stopped (workers s)) (unsent s) (delivered s)
                             (taken s) (lost s) (parent s))
  (** 66-71: a worker waits for room and replies *)
  | step_reply i b s : parent s = Running -> nth_error (workers s) i = Some (Working b) -> (length (replies s) < slots)%nat ->
      step slots Reply s (mkPool (send s) (replies s ++ [b]) (set_worker i Waiting (workers s)) (unsent s) (delivered s)
                            (taken s) (lost s) (parent s))
  (** 69-71: the worker ends with an exception: a record cannot be serialized, or another worker took the room
      and there is none for 30 seconds; or the process is killed *)
  | step_die i b s : parent s = Running -> nth_error (workers s) i = Some (Working b) ->
      step slots Die s (mkPool (send s) (replies s) (set_worker i Stopped (workers s)) (unsent s) (delivered s)
                          (taken s) (lost s ++ [b]) (parent s))
  (** 118-124: the parent gets a reply, yields its records and sends the next blob or the signal to end *)
  | step_deliver b q s : parent s = Running -> replies s = b :: q ->
      step slots Deliver s
        (mkPool (send s ++ match unsent s with b' :: _ => [Item b'] | [] => [Terminate] end) q (workers s)
                (match unsent s with _ :: u => u | [] => [] end) (delivered s ++ [b]) (taken s) (lost s) (parent s))
  (** 112-116: no process is alive and the queues are empty *)
  | step_end s : parent s = Running -> (forall w, In w (workers s) -> w = Stopped) -> replies s = [] -> send s = [] ->
      step slots End s (mkPool (send s) (replies s) (workers s) (unsent s) (delivered s) (taken s) (lost s) Ended)
  (** 126-131: no reply for a second and 600 seconds have passed *)
  | step_expire s : parent s = Running -> replies s = [] ->
      step slots Expire s (mkPool (send s) (replies s) (workers s) (unsent s) (delivered s) (taken s) (lost s) Expired).

  (** the executions *)
  Inductive steps (slots : nat) : list event -> pool -> pool -> Prop :=
  | steps_nil s : steps slots [] s s
  | steps_cons e es s s' s'' : step slots e s s' -> steps slots es s' s'' -> steps slots (e :: es) s s''.

  (** 119, 132-134: the client stops reading while it is given the records of a blob; nothing is sent for it *)
  Definition abandons (s s' : pool) : Prop :=
    exists b q, parent s = Running /\ replies s = b :: q /\
      s' = mkPool (send s) q (workers s) (unsent s) (delivered s) (taken s) (lost s) Abandoned.
  Definition in_loop (s : pool) : pool :=
    mkPool (send s) (replies s) (workers s) (unsent s) (delivered s) (taken s) (lost s) Running.
  Definition by_worker (e : event) : bool :=
    match e with Take | Stop | GiveUp | Reply | Die => true | Deliver | End | Expire => false end.
  (** 136-141: the parent has left its loop, it neither reads nor sends any more; the workers go on as before (56-78) *)
  Inductive closing (slots : nat) : list event -> pool -> pool -> Prop :=
  | closing_nil s : closing slots [] s s
  | closing_cons e es s s' s'' : by_worker e = true -> parent s <> Running -> parent s' = parent s ->
      step slots e (in_loop s) (in_loop s') -> closing slots es s' s'' -> closing slots (e :: es) s s''.
  (** 140-141: [process.join()] for each process: the read ends once every process has *)
  Definition joined (s : pool) : Prop := forall w, In w (workers s) -> w = Stopped.
End Pool.
Arguments message B : clear implicits.
Arguments worker B : clear implicits.
Arguments pool B : clear implicits.

(** ** what passes between the processes *)
Section Fix.
  (** Python's str() of a list or a dictionary *)
  Context (py_str : value -> str).
  (** 26-40: only numbers, booleans and texts are left as they are.  Records come from JSON, so there are no
      tuples, sets, dates or bytes; floats are not in the model. *)
  Fixpoint fix_fields (v : value) : value :=
    match v with
    | VInt _ | VBool _ | VStr _ => v
    | VDict d => VStr (py_str (VDict (map (fun kv => (fst kv, fix_fields (snd kv))) d)))
    | VList l => VStr (py_str (VList (map fix_fields l)))
    | VNull => VStr $"None"
    end.
  (** 25, 42-47 *)
  Definition fix_dict (obj : value) : value :=
    match obj with
    | VDict d => VDict (map (fun kv => (fst kv, fix_fields (snd kv))) d)
    | _ => obj
    end.
  (** 50-53, 69-71: [b"\n".join(map(serialize, records))]; lz4 left out *)
  Context (dump_json : value -> str) (parse_json : str -> result value).
  Definition pack (records : list value) : str := join ["010"%char] (map (fun r => dump_json (fix_dict r)) records).
  (** 119: [map(json, [r for r in text.split(b"\n") if r])] *)
  Definition unpack (text : str) : result (list value) :=
    mapM parse_json (filter (fun r => negb (str_eqb r [])) (split "010"%char text)).
End Fix.
