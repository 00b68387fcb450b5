(** Writer, storage and reader together. *)
From Verif.Base Require Import Py Value.
From Verif.Model Require Import Paths Dates Frames ReadRange Cursor Storage Writers Adapters Reader.
From Verif.Spec Require Import Paths Dates Writers Adapters.

(** a storage operation of a batch writer: a blob, named by the inner writer for the time, or the completion marker *)
Inductive operation := StoreBlob (time : N) (data : str) | StoreMarker (time : N).
(** the operations behind the log of a writer *)
Definition operations_of {R} (E : setting R) (log : list (str * str)) (ops : list operation) : Prop :=
  Forall2 (fun e o => match o with
                      | StoreBlob t data => e = (blob_name (s_filename E) (s_node E) t, data)
                      | StoreMarker t => e = (completion_path (s_filename E), [])
                      end) log ops.
(** the inner writer of an adapter does them one after the other *)
Fixpoint operate (k : kind) (i : inner) (node : str) (ops : list operation) (s : stored) : result (inner * stored) :=
  match ops with
  | [] => Ok (i, s)
  | StoreBlob t data :: ops' => let* (_, i, s) := commit k i None node t data s in operate k i node ops' s
  | StoreMarker t :: ops' => let* (_, i, s) := mark_complete k i node t s in operate k i node ops' s
  end.

(** partitions: folders whose names are text and the fields of a day; the text has no braces, slashes or dots *)
Definition partition_folder (p : list seg) : Prop :=
  (forall s, In (Lit s) p -> no_braces s /\ ~ In "/"%char s /\ ~ In "."%char s) /\ (exists g, In g p /\ g <> Lit []).
(** they name the day, and nothing finer *)
Definition daily_partitions (parts : list (list seg)) : Prop :=
  (forall p, In p parts -> partition_folder p) /\
  (forall g, In g [Year; Month; Day] -> In g (concat parts)) /\ (forall g, In g [Hour; Minute; Second] -> ~ In g (concat parts)).
(** the partitions argument of writers and readers: texts, which may each stand for several folders *)
Definition written_as (parts : list (list seg)) (texts : list str) : Prop :=
  texts <> [] /\ join $"/" texts = join $"/" (map template_text parts).
(** the default of both *)
Definition default_folders : list (list seg) := [[Lit $"year_"; Year]; [Lit $"month_"; Month]; [Lit $"day_"; Day]].
(** a dataset with partitions, and a day of it as a writer's date *)
Definition dataset_template (dataset : str) (parts : list (list seg)) : list seg :=
  Lit dataset :: flat_map (fun p => Lit $"/" :: p) parts.
Definition a_day (y m d : Z) : moment := mkMoment (Z.to_N y) (Z.to_N m) (Z.to_N d) 0 0 0.
(** names of folders *)
Definition folder_names (names : list str) : Prop := names <> [] /\ forall c, In c names -> component c /\ no_braces c.

(** a reader with the inner reader [k] on what is stored: the listing, and the first [n] records *)
Definition listing (k : kind) (rnd : str) (hours : list moment) (path : str) (s : stored) : list str :=
  match get_blobs_at_path k rnd hours path s with Ok l => l | Raise _ => [] end.
(** the hours of a reader's range *)
Definition range_hours (now start stop : datetime) : list moment :=
  match date_range now (BDatetime start) (BDatetime stop) with Ok hs => map fields_of hs | Raise _ => [] end.
Definition read_selected (parse : str -> result value) (unzstd : str -> result str) (other : str -> str -> generator value)
    (columns : value -> result value) (filters : value -> result bool)
    (hash : str -> Z) (loads : str -> result cdict) (k : kind) (now : datetime) (rnd : str) (t : list seg)
    (start stop : datetime) (n : nat) (s : stored) : result (list value * saved) :=
  read_records hash loads
    (fun _ => list_range None (fun p => listing k rnd (range_hours now start stop) p s) now rnd (template_text t ++ $"/") start stop) 0
    (blob_records parse unzstd other (fun name => get_blob_bytes k name s) columns filters None) NoCursor n.
(** all the columns, no filter *)
Definition read_stored (parse : str -> result value) (unzstd : str -> result str) (other : str -> str -> generator value) :=
  read_selected parse unzstd other pass_thru pass_thru_filter.
(** what a reader of [written] gives: of nothing there is no data, otherwise the first [n] of [rows] *)
Definition found (written : list value) (n : nat) (rows : list value) : result (list value) :=
  match written with [] => Raise DataNotFoundError | _ => Ok (firstn n rows) end.
(** the records of a read *)
Definition records_read (r : result (list value * saved)) : result (list value) := let* (records, _) := r in Ok records.
