(** What the users of a batch writer rely on. *)
From Verif.Base Require Import Py.
From Verif.Model Require Import Paths Writers.
From Verif.Spec Require Import Frames.

Section Records.
  Context {R : Type} (E : setting R).

  (** the records for which append returned *)
  Fixpoint accepted (cs : list (call)) (os : list outcome) : list R :=
    match cs, os with
    | Append r :: cs', Returned _ :: os' => r :: accepted cs' os'
    | _ :: cs', _ :: os' => accepted cs' os'
    | _, _ => []
    end.
  (** the records append did not refuse as invalid *)
  Fixpoint not_refused (cs : list (call)) : list R :=
    match cs with
    | Append r :: cs' => match s_check E r with
                         | Ok _ => r :: not_refused cs'
                         | Raise _ => not_refused cs'
                         end
    | _ :: cs' => not_refused cs'
    | [] => []
    end.

  Definition texts_of (g : list R) (texts : list str) : Prop := Forall2 (fun r t => s_ser E r = Ok t) g texts.
  (** the blob with content [data] holds the records [g], in order *)
  Definition holds (g : list R) (data : str) : Prop :=
    match s_format E with
    | Parquet => s_parquet E g = Ok data
    | Zstd => exists texts, texts_of g texts /\ data = s_zstd E (concat texts)
    | _ => exists texts, texts_of g texts /\ data = concat texts
    end.

  (** a storage operation that fails leaves nothing behind *)
  Definition clean_failures : Prop := forall n k, s_fails E n <> Some (Some k).

  (** the writer writes blobs in the folder [dir], named <id><ext> *)
  Definition writes_in (dir ext : str) : Prop :=
    s_filename E = dir ++ $"/" ++ $"{stem}" ++ ext /\
    ~ In "{"%char dir /\ ~ In "{"%char ext /\ ~ In "/"%char ext /\
    (exists d c, dir = d ++ [c] /\ c <> "/"%char) /\
    ~ In "{"%char (s_node E) /\ ~ In "/"%char (s_node E).
End Records.

Definition marker (dir : str) : str := dir ++ $"/frame.complete".
(** the stored blobs but for the markers *)
Definition data_of (dir : str) (log : list (str * str)) : list (str * str) :=
  filter (fun p => negb (str_eqb (fst p) (marker dir))) log.
Definition marked (dir : str) (log : list (str * str)) : Prop := In (marker dir) (map fst log).

(** nothing stored yet *)
Definition nothing : world := mkWorld 0 [].

(** calendar order: the first field in which two moments differ decides *)
Definition before (a b : moment) : Prop :=
  (year a < year b \/ year a = year b /\
  (month a < month b \/ month a = month b /\
  (day a < day b \/ day a = day b /\
  (hour a < hour b \/ hour a = hour b /\
  (minute a < minute b \/ minute a = minute b /\ second a < second b)))))%N.

(** what can be left of a log of storage operations when the process is killed: the operations so
    far, of the one in progress any beginning *)
Definition crashed (log log' : list (str * str)) : Prop :=
  exists k, log' = firstn k log \/
    exists name data cut, nth_error log k = Some (name, data) /\
      log' = firstn k log ++ [(name, firstn cut data)].

(** lower case letters, digits, "." and "-": what blob identifiers and extensions are made of *)
Definition plain_char (c : ascii) : bool :=
  let n := N_of_ascii c in
  ((97 <=? n) && (n <=? 122) || (48 <=? n) && (n <=? 57) || (n =? 45) || (n =? 46))%N.
Definition plain (s : str) : Prop := forall c, In c s -> plain_char c = true.

Section Batch.
  Context {R : Type} (E : setting R).
  (** the records the writer took: in the text formats those for which append returned, in parquet
      format all but the refused ones *)
  Definition taken (cs : list call) (os : list outcome) : list R :=
    if is_parquet (s_format E) then not_refused E cs else accepted cs os.

  (** the nanosecond clock: strictly increasing between the first [k] storage operations, all made
      in the years 2006 to 2554 *)
  Definition good_clock (k : nat) : Prop :=
    (forall n, (n < k)%nat -> 2 ^ 60 <= s_clock E n < 2 ^ 64)%N /\
    (forall n m, (n < m)%nat -> (m < k)%nat -> s_clock E n < s_clock E m)%N.
End Batch.

(** every live blob of the folder is in a frame older than [frame] *)
Definition older_frames (present : entry -> Prop) (frame : str) : Prop :=
  forall e, present e -> e_by e = None /\
    exists f, e_frame e = Some f /\ length f = length frame /\ str_ltb f frame = true.

(** every live blob of the folder is in another frame than [frame] *)
Definition other_frames (present : entry -> Prop) (frame : str) : Prop :=
  forall e, present e -> e_by e = None /\
    exists f, e_frame e = Some f /\ length f = length frame /\ f <> frame.

(** ** Batches which overlap *)
(** a batch: how its writer is set up, the name of its frame, what it was asked to do, what came of it, and what is left
    of its storage operations (all of them, or those made before it was killed or the reader looked) *)
Record batch (R : Type) := mkBatch {
  b_setting : setting R; b_frame : str; b_ext : str;
  b_records : list R; b_finalizes : list bool;
  b_outcomes : list outcome; b_state : @state R; b_left : list (str * str) }.
Arguments b_setting {R}. Arguments b_frame {R}. Arguments b_ext {R}. Arguments b_records {R}.
Arguments b_finalizes {R}. Arguments b_outcomes {R}. Arguments b_state {R}. Arguments b_left {R}.

Section Overlap.
  Context {R : Type} (root : str).
  Definition b_dir (b : batch R) : str := root ++ $"/" ++ b_frame b.
  Definition b_calls (b : batch R) : list call := map Append (b_records b) ++ map Finalize (b_finalizes b).
  (** the batch writes in its own frame below [root] and was run, as far as what is left of it *)
  Definition ran (b : batch R) : Prop :=
    let E := b_setting b in
    writes_in E (b_dir b) (b_ext b) /\ clean_failures E /\ plain (s_node E) /\ plain (b_ext b) /\
    (~ In "/"%char (b_frame b) /\ startswith $"as_at_" (b_frame b) = true) /\
    contains $"BACKOUT" (b_dir b) = false /\
    run E (new_writer nothing) (b_calls b) = (b_outcomes b, b_state b) /\
    good_clock E (attempts (st_world (b_state b))) /\
    crashed (puts (st_world (b_state b))) (b_left b).
  Definition completed (b : batch R) : Prop := marked (b_dir b) (b_left b).
  (** no two of them use the same frame, and the names of the frames are comparable (all of one length) *)
  Definition frames_apart (bs : list (batch R)) : Prop :=
    NoDup (map b_frame bs) /\
    forall b b', In b bs -> In b' bs -> length (b_frame b) = length (b_frame b').
  (** [b] is the complete one whose frame has the greatest name *)
  Definition newest_complete (bs : list (batch R)) (b : batch R) : Prop :=
    In b bs /\ completed b /\
    forall b', In b' bs -> completed b' -> b_frame b' <> b_frame b -> str_ltb (b_frame b') (b_frame b) = true.
End Overlap.
