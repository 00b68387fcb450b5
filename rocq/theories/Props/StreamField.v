(** C90: a stream partitioned by a field of its records is read by the values of that field. *)
From Coq Require Import Sorted.
From Verif.Base Require Import Py Value.
From Verif.Model Require Import Paths Dates Frames ReadRange Cursor Storage Writers Stream Reader.
From Verif.Model Require Json.
From Verif.Spec Require Import Paths Dates Frames Cursor Json Writers Stream Reader StreamRead StreamField.
From Verif.Proofs Require StreamField StreamFieldCases StreamReadCases ReaderCases.
Local Open Scope Z_scope.

(** The writer's template is any daily one followed by /by_F/F={F}.  Records of any number at any times go
    through the pool, the attendant and eviction as in C81.  A reader of one day which asks for F = v is given exactly the
    valid records appended on that day whose field, or a member of whose list, has the letters, digits and
    spaces of v: each once, in the order of the appends, and none of another value.  Without any, reading raises
    DataNotFoundError ([gives]).
    What is missing for all: values and fields whose folder names have BACKOUT, names of fields with other characters, and
    values which differ in other characters only ([..._refuted] below); storage that fails.  Records whose list has two such values are in
    [stream_by_field_copies_partial]; the storage adapters are in FieldStore.v. *)
Theorem stream_by_field_then_read_day_partial :
  forall (parse : str -> result value) (unzstd : str -> result str)
         (other : str -> str -> generator value) (read_blob : str -> result str)
         (fits : value -> Prop) (image : value -> value)
         (columns : value -> result value) (filters : value -> result bool) (c : value -> value) (p : value -> bool)
         (V : Type) (M : streaming value V) (es : list event) (os : list (result nat)) (s : sstate) (store : str -> list str)
         (t : list seg) (F op v : str) (now : datetime) (rnd : str) (y m d hh mm ss hh' mm' ss' : Z)
         (hash : str -> Z) (loads : str -> result cdict) (n : nat),
    stream_settings parse unzstd other fits image M -> stream_ran read_blob M es os s ->
    daily_template t -> proper_template (map Date t) -> field_name F ->
    m_template M = stream_template (field_template t F) ->
    (forall r at_, In (SAppend r at_) es -> texts_differ M F r) ->
    In op [$"="; $"=="] -> contains $"BACKOUT" (kept_text v) = false ->
    valid_date y m d -> valid_time hh mm ss -> valid_time hh' mm' ss' ->
    of_fields y m d hh mm ss <= of_fields y m d hh' mm' ss' ->
    clean_folder (day_folder t (y, m, d)) -> lists_folder store (puts (world_of s)) (day_folder t (y, m, d)) ->
    let wanted := filter (has_text M F (kept_text v)) (accepted_on M (on_day (y, m, d)) es os) in
    (forall r, In r wanted -> fits r /\ applies columns filters c p (image r)) ->
    gives wanted (firstn n (filter p (map c (map image wanted)))) (read_records hash loads
      (fun _ => list_range (Some (F, op, v)) store now rnd (template_text t ++ $"/") (of_fields y m d hh mm ss) (of_fields y m d hh' mm' ss'))
      0 (blob_records parse unzstd other read_blob columns filters None) NoCursor n).
Proof.
  intros parse unzstd other read_blob fits image columns filters c p V M es os s store t F op v now rnd y m d hh mm ss hh' mm' ss' hash loads n S R DT P FN T TD.
  exact (StreamField.read_value_day parse unzstd other read_blob fits image M t F columns filters c p es os s store S R DT P FN T TD op v now rnd y m d hh mm ss hh' mm' ss' hash loads n).
Qed.
Print Assumptions stream_by_field_then_read_day_partial.

(** Over a range of days: day after day. *)
Theorem stream_by_field_then_read_range_partial :
  forall (parse : str -> result value) (unzstd : str -> result str)
         (other : str -> str -> generator value) (read_blob : str -> result str)
         (fits : value -> Prop) (image : value -> value)
         (columns : value -> result value) (filters : value -> result bool) (c : value -> value) (p : value -> bool)
         (V : Type) (M : streaming value V) (es : list event) (os : list (result nat)) (s : sstate) (store : str -> list str)
         (t : list seg) (F op v : str) (now : datetime) (rnd : str) (y m d hh mm ss y' m' d' hh' mm' ss' : Z)
         (hash : str -> Z) (loads : str -> result cdict) (n : nat),
    stream_settings parse unzstd other fits image M -> stream_ran read_blob M es os s ->
    daily_template t -> chronological t -> proper_template (map Date t) -> field_name F ->
    m_template M = stream_template (field_template t F) ->
    (forall r at_, In (SAppend r at_) es -> texts_differ M F r) ->
    In op [$"="; $"=="] -> contains $"BACKOUT" (kept_text v) = false ->
    valid_date y m d -> valid_time hh mm ss -> valid_date y' m' d' -> valid_time hh' mm' ss' -> 1000 <= y -> y' <= 9999 ->
    of_fields y m d hh mm ss <= of_fields y' m' d' hh' mm' ss' ->
    (forall date, within (y, m, d) (y', m', d') date ->
       clean_folder (day_folder t date) /\ lists_folder store (puts (world_of s)) (day_folder t date)) ->
    exists days, consecutive days /\ hd_error days = Some (y, m, d) /\ last days (y', m', d') = (y', m', d') /\
    let wanted := flat_map (fun date => filter (has_text M F (kept_text v)) (accepted_on M (on_day date) es os)) days in
    ((forall r, In r wanted -> fits r /\ applies columns filters c p (image r)) ->
     gives wanted (firstn n (filter p (map c (map image wanted)))) (read_records hash loads
       (fun _ => list_range (Some (F, op, v)) store now rnd (template_text t ++ $"/") (of_fields y m d hh mm ss) (of_fields y' m' d' hh' mm' ss'))
       0 (blob_records parse unzstd other read_blob columns filters None) NoCursor n)).
Proof.
  intros parse unzstd other read_blob fits image columns filters c p V M es os s store t F op v now rnd y m d hh mm ss y' m' d' hh' mm' ss' hash loads n S R DT CH P FN T TD Hop.
  exact (StreamField.read_value_range parse unzstd other read_blob fits image M t F columns filters c p es os s store S R DT P FN T TD op v now rnd y m d hh mm ss y' m' d' hh' mm' ss' hash loads n CH Hop).
Qed.
Print Assumptions stream_by_field_then_read_range_partial.

(** A reader which asks for no value is given, day after day, the records of all the values, value after value in the order of the folders'
    names; a record with a list of values once for each of them. *)
Theorem stream_by_field_then_read_all_partial :
  forall (parse : str -> result value) (unzstd : str -> result str)
         (other : str -> str -> generator value) (read_blob : str -> result str)
         (fits : value -> Prop) (image : value -> value)
         (columns : value -> result value) (filters : value -> result bool) (c : value -> value) (p : value -> bool)
         (V : Type) (M : streaming value V) (es : list event) (os : list (result nat)) (s : sstate) (store : str -> list str)
         (t : list seg) (F : str) (texts : list str) (now : datetime) (rnd : str) (y m d hh mm ss y' m' d' hh' mm' ss' : Z)
         (hash : str -> Z) (loads : str -> result cdict) (n : nat),
    stream_settings parse unzstd other fits image M -> stream_ran read_blob M es os s ->
    daily_template t -> chronological t -> proper_template (map Date t) -> field_name F ->
    m_template M = stream_template (field_template t F) ->
    (forall r at_, In (SAppend r at_) es -> texts_differ M F r) ->
    (** [texts] are the values of the days, in order *)
    (forall x, In x texts -> (forall a, In a x -> is_alpha a || is_digit a || is_space a = true) /\ contains $"BACKOUT" x = false) ->
    StronglySorted (fun x y => str_ltb (x ++ $"/") (y ++ $"/") = true) texts ->
    (forall date r x, within (y, m, d) (y', m', d') date -> In r (accepted_on M (on_day date) es os) ->
       has_text M F x r = true -> contains $"BACKOUT" x = false -> In x texts) ->
    valid_date y m d -> valid_time hh mm ss -> valid_date y' m' d' -> valid_time hh' mm' ss' -> 1000 <= y -> y' <= 9999 ->
    of_fields y m d hh mm ss <= of_fields y' m' d' hh' mm' ss' ->
    (forall date, within (y, m, d) (y', m', d') date ->
       clean_folder (day_folder t date) /\ lists_folder store (puts (world_of s)) (day_folder t date)) ->
    exists days, consecutive days /\ hd_error days = Some (y, m, d) /\ last days (y', m', d') = (y', m', d') /\
    let wanted := flat_map (fun date => flat_map (fun x => filter (has_text M F x) (accepted_on M (on_day date) es os)) texts) days in
    ((forall r, In r wanted -> fits r /\ applies columns filters c p (image r)) ->
     gives wanted (firstn n (filter p (map c (map image wanted)))) (read_records hash loads
       (fun _ => list_range None store now rnd (template_text t ++ $"/") (of_fields y m d hh mm ss) (of_fields y' m' d' hh' mm' ss'))
       0 (blob_records parse unzstd other read_blob columns filters None) NoCursor n)).
Proof.
  intros parse unzstd other read_blob fits image columns filters c p V M es os s store t F texts now rnd y m d hh mm ss y' m' d' hh' mm' ss' hash loads n S R DT CH P FN T TD.
  exact (StreamField.read_all_range parse unzstd other read_blob fits image M t F columns filters c p es os s store S R DT P FN T TD texts now rnd y m d hh mm ss y' m' d' hh' mm' ss' hash loads n CH).
Qed.
Print Assumptions stream_by_field_then_read_all_partial.

(** Without asking that the members of a record's list have different folders: a record comes as often as different
    members of its list have the folder asked for ([members_with]).  In the three theorems above that is once. *)
Theorem stream_by_field_copies_partial :
  forall (parse : str -> result value) (unzstd : str -> result str)
         (other : str -> str -> generator value) (read_blob : str -> result str)
         (fits : value -> Prop) (image : value -> value)
         (columns : value -> result value) (filters : value -> result bool) (c : value -> value) (p : value -> bool)
         (V : Type) (M : streaming value V) (es : list event) (os : list (result nat)) (s : sstate) (store : str -> list str)
         (t : list seg) (F op v : str) (times : str -> value -> nat) (now : datetime) (rnd : str) (y m d hh mm ss y' m' d' hh' mm' ss' : Z)
         (hash : str -> Z) (loads : str -> result cdict) (n : nat),
    stream_settings parse unzstd other fits image M -> stream_ran read_blob M es os s ->
    daily_template t -> chronological t -> proper_template (map Date t) -> field_name F ->
    m_template M = stream_template (field_template t F) ->
    (forall x r at_, In (SAppend r at_) es -> members_with M F x r (times x r)) ->
    In op [$"="; $"=="] -> contains $"BACKOUT" (kept_text v) = false ->
    valid_date y m d -> valid_time hh mm ss -> valid_date y' m' d' -> valid_time hh' mm' ss' -> 1000 <= y -> y' <= 9999 ->
    of_fields y m d hh mm ss <= of_fields y' m' d' hh' mm' ss' ->
    (forall date, within (y, m, d) (y', m', d') date ->
       clean_folder (day_folder t date) /\ lists_folder store (puts (world_of s)) (day_folder t date)) ->
    exists days, consecutive days /\ hd_error days = Some (y, m, d) /\ last days (y', m', d') = (y', m', d') /\
    let wanted := flat_map (fun date => day_copies M times date es os (kept_text v)) days in
    ((forall r, In r wanted -> fits r /\ applies columns filters c p (image r)) ->
     gives wanted (firstn n (filter p (map c (map image wanted)))) (read_records hash loads
       (fun _ => list_range (Some (F, op, v)) store now rnd (template_text t ++ $"/") (of_fields y m d hh mm ss) (of_fields y' m' d' hh' mm' ss'))
       0 (blob_records parse unzstd other read_blob columns filters None) NoCursor n)).
Proof.
  intros parse unzstd other read_blob fits image columns filters c p V M es os s store t F op v times now rnd y m d hh mm ss y' m' d' hh' mm' ss' hash loads n S R DT CH P FN T TD Hop.
  exact (StreamField.copies_value_range parse unzstd other read_blob fits image M t F columns filters c p es os s store S R DT P FN T times TD op v now rnd y m d hh mm ss y' m' d' hh' mm' ss' hash loads n CH Hop).
Qed.
Print Assumptions stream_by_field_copies_partial.

(** What goes wrong.  A value which contains BACKOUT: the records are accepted and stored, and never read. *)
Import ReaderCases StreamReadCases StreamFieldCases.
Theorem value_like_a_backout_is_not_read_refuted :
  exists (M : streaming value str) es os s v r,
    (forall other, stream_settings Json.loads unz other distinct_keys (fun r => r) M) /\ stream_ran (read_from (puts (world_of s))) M es os s /\
    m_template M = stream_template (field_template st_template $"user") /\
    In r (accepted_on M (on_day (2024, 2, 28)) es os) /\ has_text M $"user" (kept_text v) r = true /\
    read_records (fun _ => 0) (fun _ => Raise ValueError)
      (fun _ => list_range (Some ($"user", $"=", v)) (fun q => filter (startswith (q ++ $"/")) (map fst (puts (world_of s)))) 0 []
         (template_text st_template ++ $"/") (of_fields 2024 2 28 0 0 0) (of_fields 2024 2 28 23 0 0))
      0 (blob_records Json.loads unz no_other (read_from (puts (world_of s))) pass_thru pass_thru_filter None) NoCursor 10
    = Raise DataNotFoundError.
Proof. exact StreamFieldCases.backout_value. Qed.
Print Assumptions value_like_a_backout_is_not_read_refuted.

(** A field with another character in its name: the folders have the name as it is, the reader looks for it
    without the character, doesn't find it, and gives the records of every value. *)
Theorem field_with_underscore_is_not_filtered_refuted :
  exists (M : streaming value str) es os s r rs cursor,
    (forall other, stream_settings Json.loads unz other distinct_keys (fun r => r) M) /\ stream_ran (read_from (puts (world_of s))) M es os s /\
    m_template M = stream_template (field_template st_template $"user_id") /\
    m_get M r $"user_id" = [$"bob"] /\ In r rs /\
    read_records (fun _ => 0) (fun _ => Raise ValueError)
      (fun _ => list_range (Some ($"user_id", $"=", $"ann")) (fun q => filter (startswith (q ++ $"/")) (map fst (puts (world_of s)))) 0 []
         (template_text st_template ++ $"/") (of_fields 2024 2 28 0 0 0) (of_fields 2024 2 29 23 0 0))
      0 (blob_records Json.loads unz no_other (read_from (puts (world_of s))) pass_thru pass_thru_filter None) NoCursor 10
    = Ok (rs, cursor).
Proof. exact StreamFieldCases.underscore_field. Qed.
Print Assumptions field_with_underscore_is_not_filtered_refuted.

(** Two values which differ in other characters only: asking for the one gives the records of both. *)
Theorem values_may_share_a_folder_refuted :
  exists (M : streaming value str) es os s r rs cursor,
    (forall other, stream_settings Json.loads unz other distinct_keys (fun r => r) M) /\ stream_ran (read_from (puts (world_of s))) M es os s /\
    m_template M = stream_template (field_template st_template $"user") /\
    m_get M r $"user" = [$"a1"] /\ In r rs /\
    read_records (fun _ => 0) (fun _ => Raise ValueError)
      (fun _ => list_range (Some ($"user", $"=", $"a-1")) (fun q => filter (startswith (q ++ $"/")) (map fst (puts (world_of s)))) 0 []
         (template_text st_template ++ $"/") (of_fields 2024 2 28 0 0 0) (of_fields 2024 2 29 23 0 0))
      0 (blob_records Json.loads unz no_other (read_from (puts (world_of s))) pass_thru pass_thru_filter None) NoCursor 10
    = Ok (rs, cursor).
Proof. exact StreamFieldCases.shared_folder. Qed.
Print Assumptions values_may_share_a_folder_refuted.

(** A concrete stream of two users, a record of both, on four days; three days read. *)
Section Example.
  Notation F := $"user".
  Notation log := (f_log F $"ann" $"bob b").
  Notation es := (f_events F $"ann" $"bob b").
  Notation os := (fst (f_run F $"ann" $"bob b")).
  Example ex_hypotheses :
    (forall other, stream_settings Json.loads unz other distinct_keys (fun r => r) (fw F)) /\
    stream_ran (read_from log) (fw F) es os (snd (f_run F $"ann" $"bob b")) /\
    daily_template st_template /\ chronological st_template /\ proper_template (map Date st_template) /\ field_name F /\
    m_template (fw F) = stream_template (field_template st_template F) /\
    (forall r at_, In (SAppend r at_) es -> texts_differ (fw F) F r) /\
    (forall x, In x [$"ann"; $"bob b"] -> (forall a, In a x -> is_alpha a || is_digit a || is_space a = true) /\ contains $"BACKOUT" x = false) /\
    StronglySorted (fun x y => str_ltb (x ++ $"/") (y ++ $"/") = true) [$"ann"; $"bob b"] /\
    (forall date r x, within (2024, 2, 28) (2024, 3, 1) date -> In r (accepted_on (fw F) (on_day date) es os) ->
       has_text (fw F) F x r = true -> contains $"BACKOUT" x = false -> In x [$"ann"; $"bob b"]) /\
    (forall date, within (2024, 2, 28) (2024, 3, 1) date ->
       clean_folder (day_folder st_template date) /\ lists_folder (f_store F $"ann" $"bob b") log (day_folder st_template date)).
  Proof.
    split; [intros other; apply f_settings|]. split; [exact f_ran|]. split; [exact st_daily|]. split; [exact st_chronological|].
    split; [exact st_proper|]. split; [exact f_name|]. split; [reflexivity|]. split; [exact f_differ|]. split; [exact f_valid|].
    split; [repeat constructor|]. split; [exact f_texts|exact f_folders].
  Qed.
  Example ex_ann : f_read F $"ann" $"bob b" (Some (F, $"=", $"ann")) (of_fields 2024 3 1 12 0 0)
    = Some [one F 1 $"ann"; both F 3 [$"ann"; $"bob b"]; one F 4 $"ann"].
  Proof. vm_compute. reflexivity. Qed.
  Example ex_bob : f_read F $"ann" $"bob b" (Some (F, $"==", $"bob b")) (of_fields 2024 3 1 12 0 0)
    = Some [one F 2 $"bob b"; both F 3 [$"ann"; $"bob b"]; one F 5 $"bob b"].
  Proof. vm_compute. reflexivity. Qed.
  Example ex_cat : f_read F $"ann" $"bob b" (Some (F, $"=", $"cat")) (of_fields 2024 3 1 12 0 0) = None.
  Proof. vm_compute. reflexivity. Qed.
  Example ex_all : f_read F $"ann" $"bob b" None (of_fields 2024 3 1 12 0 0)
    = Some [one F 1 $"ann"; both F 3 [$"ann"; $"bob b"]; one F 4 $"ann"; one F 2 $"bob b"; both F 3 [$"ann"; $"bob b"]; one F 5 $"bob b"].
  Proof. vm_compute. reflexivity. Qed.
  (** the two members of a list have one folder: the record comes twice *)
  Example ex_twice :
    stream_ran (read_from (f_log F $"a-1" $"a1")) (fw F) (f_events F $"a-1" $"a1") (fst (f_run F $"a-1" $"a1")) (snd (f_run F $"a-1" $"a1")) /\
    (forall x r at_, In (SAppend r at_) (f_events F $"a-1" $"a1") -> members_with (fw F) F x r (f_times F x r)) /\
    f_read F $"a-1" $"a1" (Some (F, $"=", $"a1")) (of_fields 2024 3 1 12 0 0)
    = Some [one F 1 $"a-1"; one F 2 $"a1"; both F 3 [$"a-1"; $"a1"]; both F 3 [$"a-1"; $"a1"]; one F 4 $"a-1"; one F 5 $"a1"].
  Proof. split; [exact f_ran_shared|]. split; [intros x r at_ _; apply f_members|vm_compute; reflexivity]. Qed.
End Example.
