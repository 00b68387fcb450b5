(** C21-C25: reading a dataset. *)
From Verif.Base Require Import Py Value.
From Verif.Model Require Import Paths Dates Frames ReadRange Cursor Storage Writers Reader Json.
From Verif.Spec Require Import Paths Frames Cursor Json Writers Reader.
From Verif.Spec Require Import Decoders.   (* data_blob *)
From Verif.Proofs Require Reader RoundTrip DataBlobs.
From Verif.Proofs Require Import ReaderCases.

(** C22: with prefixes given, a dataset starting with none of them is denied before anything is asked of the
    environment; one starting with a prefix, and every dataset if the list is empty, is read as without the list. *)
Theorem whitelist_confines_datasets :
  forall (A : Type) (dates : result (datetime * datetime))
         (use : datetime * datetime -> result A * list request) (dataset : str) (limit : Z),
    (forall prefixes, prefixes <> [] ->
      (~ permitted prefixes dataset ->
         use_reader dates use (Some prefixes) dataset limit = (Raise AccessDenied, [])) /\
      (permitted prefixes dataset ->
         use_reader dates use (Some prefixes) dataset limit = use_reader dates use None dataset limit)) /\
    use_reader dates use (Some []) dataset limit = use_reader dates use None dataset limit /\
    (exists more, snd (use_reader dates use None dataset limit) = CreateAdapter dataset :: more).
Proof. exact (@Reader.whitelist). Qed.
Print Assumptions whitelist_confines_datasets.

(** C21: with a freshness limit the reader uses the first day back, within the limit, which has any blob; it
    raises DataNotFoundError exactly if there is none; there is no third outcome. *)
Theorem freshness_newest_day :
  forall (list_at : nat -> result (list str)) (limit : Z),
    (1 < limit)%Z -> (forall k, exists blobs, list_at k = Ok blobs) ->
    (forall k blobs, find_blobs list_at limit = Ok (k, blobs) <-> newest_day list_at limit k blobs) /\
    (find_blobs list_at limit = Raise DataNotFoundError <->
     forall k, (Z.of_nat k * 24 * 60 * 60 <= limit)%Z -> list_at k = Ok []) /\
    ((exists k blobs, find_blobs list_at limit = Ok (k, blobs)) \/
     find_blobs list_at limit = Raise DataNotFoundError).
Proof. exact Reader.freshness. Qed.
Print Assumptions freshness_newest_day.

(** C21: the search ends whatever the listings are, also if they raise; without a limit (or one of a second)
    only the day asked for is looked at. *)
Theorem freshness_search_ends :
  forall (list_at : nat -> result (list str)) (limit : Z),
    (forall k, list_at k <> Raise OutOfFuel) -> find_blobs list_at limit <> Raise OutOfFuel.
Proof. exact Reader.find_blobs_ends. Qed.
Print Assumptions freshness_search_ends.
Theorem no_limit_no_stepping_back :
  forall (list_at : nat -> result (list str)) (limit : Z), (limit <= 1)%Z ->
    find_blobs list_at limit = let* blobs := list_at 0%nat in Ok (0%nat, blobs).
Proof. exact Reader.no_limit. Qed.
Print Assumptions no_limit_no_stepping_back.

(** C23.  Partial: the filter is applied to what select leaves, so the result is the selected columns of the
    records satisfying the filter if the filter gives the same on the record and on its selected columns. *)
Theorem select_and_filter_exact_partial :
  forall (columns : value -> result value) (filters : value -> result bool)
         (c : value -> value) (p : value -> bool) (rows : list value) (fin : option exn),
    (forall r, In r rows -> columns r = Ok (c r)) ->
    (forall r, In r rows -> filters (c r) = Ok (p (c r))) ->
    select_and_filter columns filters rows fin = (filter p (map c rows), fin) /\
    ((forall r, In r rows -> p (c r) = p r) ->
     fst (select_and_filter columns filters rows fin) = map c (filter p rows)).
Proof.
  intros columns filters c p rows fin Hc Hp.
  rewrite (Reader.select_and_filter_total _ _ _ _ _ fin Hc Hp). split; [reflexivity|]. exact (Reader.filter_map_comm p c rows).
Qed.
Print Assumptions select_and_filter_exact_partial.

(** ... and not in general: selecting column a and filtering on column b. *)
Definition keep_a (r : value) : value :=
  match r with VDict d => VDict (filter (fun kv => str_eqb (fst kv) $"a") d) | _ => r end.
Definition b_is_1 (r : value) : bool :=
  match r with VDict d => match dget str_eqb $"b" d with Some (VInt 1) => true | _ => false end | _ => false end.
Theorem select_before_filter_refuted :
  exists rows, fst (select_and_filter (fun r => Ok (keep_a r)) (fun r => Ok (b_is_1 r)) rows None) <>
               map keep_a (filter b_is_1 rows).
Proof. exists [VDict [($"a", VInt 5); ($"b", VInt 1)]]. vm_compute. discriminate. Qed.
Print Assumptions select_before_filter_refuted.

(** C24: after any history of appends and finalizes that ends in a finalize which returned, with any blob size
    and any storage failures that leave nothing behind, reading the stored blobs gives the records for which
    append returned, in order.  Missing for all: the empty ones are not read (see below). *)
Theorem written_then_read_partial :
  forall (parse : str -> result value) (unzstd : str -> result str)
         (other : str -> str -> generator value) (read_blob : str -> result str)
         (fits : value -> Prop) (image : value -> value)
         (E : setting value) (root frame ext : str)
         (cs : list call) (f : bool) (os : list outcome) (x : option str) (s : state)
         (hash : str -> Z) (loads : str -> result cdict) (n : nat),
    writes_in E (root ++ $"/" ++ frame) ext ->
    read_as parse unzstd other E ext fits image -> relative_folder (root ++ $"/" ++ frame) ->
    clean_failures E ->
    run E (new_writer nothing) (cs ++ [Finalize f]) = (os ++ [Returned x], s) ->
    good_clock E (attempts (st_world s)) ->
    reads_log read_blob (puts (st_world s)) ->
    let written := taken E (cs ++ [Finalize f]) (os ++ [Returned x]) in
    (forall r, In r written -> fits r) -> written <> [] ->
    exists c,
      read_records hash loads (fun _ => Ok (map fst (data_of (root ++ $"/" ++ frame) (puts (st_world s))))) 0
        (blob_records parse unzstd other read_blob pass_thru pass_thru_filter None) NoCursor n
      = Ok (firstn n (filter truthy (map image written)), c).
Proof.
  intros parse unzstd other read_blob fits image E root frame ext cs f os x s hash loads n W J F.
  exact (RoundTrip.plain_history parse unzstd other read_blob E root frame ext fits image W J F cs f os x s hash loads n).
Qed.
Print Assumptions written_then_read_partial.

(** C23 and C24 together: with a selection and a filter which give something for every record, exactly what they give
    for the records for which append returned, empty ones too. *)
Theorem written_then_selected :
  forall (parse : str -> result value) (unzstd : str -> result str)
         (other : str -> str -> generator value) (read_blob : str -> result str)
         (fits : value -> Prop) (image : value -> value)
         (E : setting value) (root frame ext : str) (columns : value -> result value) (filters : value -> result bool)
         (c : value -> value) (p : value -> bool)
         (cs : list call) (f : bool) (os : list outcome) (x : option str) (s : state)
         (hash : str -> Z) (loads : str -> result cdict) (n : nat),
    writes_in E (root ++ $"/" ++ frame) ext ->
    read_as parse unzstd other E ext fits image -> relative_folder (root ++ $"/" ++ frame) ->
    clean_failures E ->
    run E (new_writer nothing) (cs ++ [Finalize f]) = (os ++ [Returned x], s) ->
    good_clock E (attempts (st_world s)) ->
    reads_log read_blob (puts (st_world s)) ->
    let written := taken E (cs ++ [Finalize f]) (os ++ [Returned x]) in
    (forall r, In r written -> fits r /\ applies columns filters c p (image r)) -> written <> [] ->
    exists cursor,
      read_records hash loads (fun _ => Ok (map fst (data_of (root ++ $"/" ++ frame) (puts (st_world s))))) 0
        (blob_records parse unzstd other read_blob columns filters None) NoCursor n
      = Ok (firstn n (filter p (map c (map image written))), cursor).
Proof.
  intros parse unzstd other read_blob fits image E root frame ext columns filters c p cs f os x s hash loads n W J F.
  destruct J as (e_ & x_ & HX & HD).
  exact (RoundTrip.history parse unzstd other read_blob E root frame ext e_ x_ fits image W HX HD F columns filters c p cs f os x s hash loads n).
Qed.
Print Assumptions written_then_selected.

(** C24 and C08 together: a batch of a new frame, killed at any point, then a read of its folder: the reader
    gives what it gave before the batch, or, the frame being complete, exactly the batch's records in order; of a
    complete batch without records it says that there is no data. *)
Theorem batch_then_read_partial :
  forall (parse : str -> result value) (unzstd : str -> result str)
         (other : str -> str -> generator value) (read_blob : str -> result str)
         (fits : value -> Prop) (image : value -> value)
         (E : setting value) (root frame ext : str) (es : list entry)
         (rs : list value) (fs : list bool) (os : list outcome) (s : state)
         (log' : list (str * str)) (listing : list str)
         (hash : str -> Z) (loads : str -> result cdict) (n : nat),
    writes_in E (root ++ $"/" ++ frame) ext ->
    read_as parse unzstd other E ext fits image -> relative_folder (root ++ $"/" ++ frame) ->
    clean_failures E -> plain (s_node E) -> plain ext ->
    ~ In "/"%char frame /\ startswith $"as_at_" frame = true ->
    contains $"BACKOUT" (root ++ $"/" ++ frame) = false ->
    NoDup es -> tidy root (live root es) -> older_frames (live root es) frame ->
    run E (new_writer nothing) (map Append rs ++ map Finalize fs) = (os, s) ->
    good_clock E (attempts (st_world s)) ->
    crashed (puts (st_world s)) log' -> NoDup listing ->
    (forall m, In m listing <-> In m (map (name_in root) es) \/ In m (map fst log')) ->
    reads_log read_blob log' ->
    let written := taken E (map Append rs ++ map Finalize fs) os in
    (forall r, In r written -> fits r) ->
    let read store :=
      read_records hash loads (fun _ => get_list_of_blobs None (fun _ => store) [root]) 0
        (blob_records parse unzstd other read_blob pass_thru pass_thru_filter None) NoCursor n in
    (~ marked (root ++ $"/" ++ frame) log' /\ read listing = read (map (name_in root) es)) \/
    (marked (root ++ $"/" ++ frame) log' /\ (written <> [] -> exists c, read listing = Ok (firstn n (filter truthy (map image written)), c)) /\
     (written = [] -> read listing = Raise DataNotFoundError)).
Proof.
  intros parse unzstd other read_blob fits image E root frame ext es rs fs os s log' listing hash loads n W J F.
  exact (RoundTrip.plain_batch parse unzstd other read_blob E root frame ext fits image W J F es rs fs os s log' listing hash loads n).
Qed.
Print Assumptions batch_then_read_partial.

(** what is asked of the JSON library is met by a codec *)
Theorem one_line_json_exists : one_line_json dumps loads.
Proof. exact RoundTrip.json_one_line. Qed.
Print Assumptions one_line_json_exists.

(** C24 fails for empty records: they are written, and left out by a reader without filters. *)
Theorem empty_records_lost_refuted :
  exists (data : str) (rows : list value),
    decode loads unz no_other $".jsonl" data = Some (rows, None) /\ data = concat (map (fun r => dumps r ++ ["010"%char]) rows) /\
    fst (select_and_filter pass_thru pass_thru_filter rows None) <> rows.
Proof.
  exists (dumps (VDict []) ++ ["010"%char]), [VDict []]. split; [|split]; vm_compute; [reflexivity|reflexivity|discriminate].
Qed.
Print Assumptions empty_records_lost_refuted.

(** C25: blobs of JSON lines, some unreadable, some with damaged lines.  A read delivers, in ascending order of
    the blob names, the records of each blob up to its first damaged line, and does not raise. *)
Theorem damage_costs_rest_of_blob :
  forall (parse : str -> result value) (unzstd : str -> result str) (other : str -> str -> generator value)
         (read_blob : str -> result str) (hash : str -> Z) (loads : str -> result cdict)
         (blobs : list str) (content : str -> option (list str)) (rs : str -> list value)
         (names : list str) (n : nat),
    (forall b, In b blobs -> file_with_extension $".jsonl" b /\
       match content b with
       | Some lines => read_blob b = Ok (lines_text lines) /\ Forall one_line lines /\
                       until_damage parse lines (rs b)
       | None => (exists e, read_blob b = Raise e) /\ rs b = []
       end) ->
    blobs <> [] -> ascending_names blobs names ->
    exists c,
      read_records hash loads (fun _ => Ok blobs) 0
        (blob_records parse unzstd other read_blob pass_thru pass_thru_filter None) NoCursor n
      = Ok (firstn n (flat_map (fun b => filter truthy (rs b)) names), c).
Proof. exact RoundTrip.damaged. Qed.
Print Assumptions damage_costs_rest_of_blob.

(** C25, whatever the blobs hold, whatever the select and the filter do: the read does not raise, and every
    record delivered was decoded from one of the blobs, and none from a completion marker or another control file. *)
Theorem reading_never_raises_nor_invents :
  forall (parse : str -> result value) (unzstd : str -> result str) (other : str -> str -> generator value)
         (read_blob : str -> result str) (hash : str -> Z) (loads : str -> result cdict)
         (columns : value -> result value) (filters : value -> result bool) (override : option str)
         (blobs : list str) (n : nat),
    (exists b, In b blobs /\ data_blob b) ->
    exists out c,
      read_records hash loads (fun _ => Ok blobs) 0
        (blob_records parse unzstd other read_blob columns filters override) NoCursor n
      = Ok (firstn n out, c) /\
      forall r, In r out -> exists b data ext rows fin row,
        In b blobs /\ data_blob b /\ read_blob b = Ok data /\ decode parse unzstd other ext data = Some (rows, fin) /\
        In row rows /\ columns row = Ok r /\ filters r = Ok true.
Proof. exact DataBlobs.never_raises. Qed.
Print Assumptions reading_never_raises_nor_invents.

Theorem json_lines_rows_are_lines :
  forall (parse : str -> result value) (unzstd : str -> result str) (other : str -> str -> generator value)
         (data : str) (rows : list value) (fin : option exn) (r : value),
    decode parse unzstd other $".jsonl" data = Some (rows, fin) -> In r rows ->
    exists line, In line (splitlines data) /\ parse line = Ok r.
Proof. exact RoundTrip.jsonl_rows. Qed.
Print Assumptions json_lines_rows_are_lines.

(** *** Examples *)
Example ex_denied : use_reader (Ok (0, 0)%Z) (fun _ => (Ok tt, [ListBlobs $"secret"])) (Some [$"open/"; $"pub"]) $"secret" 0
  = (Raise AccessDenied, []).
Proof. vm_compute. reflexivity. Qed.
Example ex_allowed : use_reader (Ok (0, 0)%Z) (fun _ => (Ok tt, [ListBlobs $"public/x"])) (Some [$"open/"; $"pub"]) $"public/x" 0
  = (Ok tt, [CreateAdapter $"public/x"; ListBlobs $"public/x"]).
Proof. vm_compute. reflexivity. Qed.
Example ex_permitted : permitted [$"open/"; $"pub"] $"public/x" /\ ~ permitted [$"open/"] $"public/x".
Proof.
  split; [exists $"pub", $"lic/x"; split; [right; left|]; reflexivity|].
  intros (p & r & [<-|[]] & E). discriminate E.
Qed.
(** a prefix is not a folder: "foo" permits "foobar", and "open/" permits "open/../secret" *)
Example ex_prefix_only : permitted [$"foo"] $"foobar" /\ permitted [$"open/"] $"open/../secret".
Proof. split; [exists $"foo", $"bar"|exists $"open/", $"../secret"]; split; (left + idtac); reflexivity. Qed.
(** data three days ago: found within 4 days and within exactly 3 days, not within 2 days *)
Example ex_fresh : find_blobs three_days_ago (4 * 86400) = Ok (3%nat, [$"b/set/x.jsonl"]) /\
  find_blobs three_days_ago (3 * 86400) = Ok (3%nat, [$"b/set/x.jsonl"]) /\
  find_blobs three_days_ago (3 * 86400 - 1) = Raise DataNotFoundError /\
  find_blobs three_days_ago 0 = Ok (0%nat, []).
Proof. vm_compute. repeat split. Qed.
Example ex_fresh_days : newest_day three_days_ago (3 * 86400) 3 [$"b/set/x.jsonl"] /\ (forall k, exists b, three_days_ago k = Ok b).
Proof.
  split; [|intros [|[|[|[|k]]]]; eexists; reflexivity].
  split; [reflexivity|]. split; [discriminate|]. split; [|lia].
  intros [|[|[|j]]] H; reflexivity || lia.
Qed.
(** the days are stepped back one by one *)
Example ex_days_back : list_days_back None (fun p => if str_eqb p $"b/s/year_2024/month_02/day_29" then [$"b/s/year_2024/month_02/day_29/x.jsonl"] else [])
    0%Z [] $"b/s/year_{yyyy}/month_{mm}/day_{dd}/" (of_fields 2024 3 2 0 0 0) (of_fields 2024 3 2 0 0 0) 2
  = Ok [$"b/s/year_2024/month_02/day_29/x.jsonl"].
Proof. vm_compute. reflexivity. Qed.
(** a select which keeps the filtered column *)
Example ex_select : select_and_filter (fun r => Ok (keep_a r)) (fun r => Ok (negb (py_eq r (VDict [($"a", VInt 5)]))))
    [VDict [($"a", VInt 5); ($"b", VInt 1)]; VDict [($"b", VInt 1); ($"a", VInt 6)]] None
  = ([VDict [($"a", VInt 6)]], None).
Proof. vm_compute. reflexivity. Qed.
(** writing and reading, plain and compressed; the record of the fifth append, which raised, is not there *)
Example ex_round_trip :
  accepted (some_calls ++ [Finalize false]) (outcome_of Jsonl $".jsonl") = [a_record 1; a_record 2; a_record 3; a_record 4] /\
  (let* (rs, _) := read_records (fun _ => 0%Z) (fun _ => Raise ValueError)
     (fun _ => Ok (map fst (data_of (folder ++ $"/" ++ frame) (log_of Jsonl $".jsonl")))) 0
     (blob_records loads unz no_other (read_from (log_of Jsonl $".jsonl")) pass_thru pass_thru_filter None) NoCursor 9 in Ok rs)
  = Ok [a_record 1; a_record 2; a_record 3; a_record 4] /\
  (let* (rs, _) := read_records (fun _ => 0%Z) (fun _ => Raise ValueError)
     (fun _ => Ok (map fst (data_of (folder ++ $"/" ++ frame) (log_of Zstd $".jsonl.zstd")))) 0
     (blob_records loads unz no_other (read_from (log_of Zstd $".jsonl.zstd")) pass_thru pass_thru_filter None) NoCursor 2 in Ok rs)
  = Ok [a_record 1; a_record 2].
Proof. vm_compute. repeat split. Qed.
Example ex_round_trip_ok :
  (exists os x, outcome_of Jsonl $".jsonl" = os ++ [Returned x]) /\
  reads_log (read_from (log_of Jsonl $".jsonl")) (log_of Jsonl $".jsonl") /\
  (forall r, In r [a_record 1; a_record 2; a_record 3; a_record 4] -> distinct_keys r /\ truthy r = true).
Proof.
  split; [|split].
  - exists (removelast (outcome_of Jsonl $".jsonl")). eexists. vm_compute. reflexivity.
  - intros n d H. unfold read_from. rewrite H. reflexivity.
  - intros r H. repeat (destruct H as [<-|H]; [split; [|reflexivity];
      split; [repeat constructor; cbn; intuition discriminate|repeat split]|]). destruct H.
Qed.
(** a damaged third line: the two records before it *)
Example ex_damage : until_damage loads [$"{}"; $"[1]"; $"oops"; $"3"] [VDict []; VList [VInt 1]] /\
  blob_records loads unz no_other (fun _ => Ok (lines_text [$"{""a"":1}"; $"[1]"; $"oops"; $"3"])) pass_thru pass_thru_filter None $"b/x.jsonl"
  = [VDict [($"a", VInt 1)]; VList [VInt 1]].
Proof.
  split; [|vm_compute; reflexivity].
  exists [$"{}"; $"[1]"], [$"oops"; $"3"]. split; [reflexivity|]. split; [repeat constructor|].
  right. do 3 eexists. split; [reflexivity|]. vm_compute. reflexivity.
Qed.
Example ex_file : file_with_extension $".jsonl" $"b/x.y.jsonl".
Proof.
  exists $"b", $"x.y", $"jsonl". split; [reflexivity|]. split; [reflexivity|].
  split; [discriminate|]. split; [discriminate|]. split; [cbn; intuition discriminate|].
  split; [cbn; intuition discriminate|]. split; [cbn; intuition discriminate|]. split; [intros r; discriminate|].
  exists "b"%char. split; [left; auto|]. split; discriminate.
Qed.
(** blobs with records and without *)
Example ex_data_blob : data_blob $"a/b.jsonl" /\ ~ data_blob $"a/frame.complete" /\ ~ data_blob $"a/b.jsonl.tmp".
Proof. repeat split; [apply DataBlobs.readable; reflexivity|..]; intros H; apply DataBlobs.readable in H; discriminate H. Qed.
