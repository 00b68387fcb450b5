(** C19, C20, C55, C56: dates, ranges of dates, durations. *)
From Coq Require Import Sorted.
From Verif.Base Require Import Py.
From Verif.Model Require Import Paths Dates Frames ReadRange.
From Verif.Spec Require Import Paths Dates DateRange.
From Verif.Proofs Require Dates DateText DateShape DateRange ReadRange.
Local Open Scope Z_scope.

(** Instants and civil dates correspond (so the theorems below, which speak of seconds, speak of
    calendar dates). *)
Theorem civil_dates_correspond :
  forall y m d hh mm ss : Z, valid_date y m d -> valid_time hh mm ss ->
    fields_of (of_fields y m d hh mm ss) =
    mkMoment (Z.to_N y) (Z.to_N m) (Z.to_N d) (Z.to_N hh) (Z.to_N mm) (Z.to_N ss).
Proof. exact Dates.fields_of_fields. Qed.
Print Assumptions civil_dates_correspond.

(** The calendar: the day number after a date's is the next calendar day's. *)
Theorem calendar_successor :
  forall (n y m d : Z), 1 <= n -> ord2ymd n = (y, m, d) -> next_day (y, m, d) (ord2ymd (n + 1)).
Proof. exact Dates.ord_next. Qed.
Print Assumptions calendar_successor.

(** C19 *)
Theorem date_range_every_hour_once :
  forall (now : datetime) (b1 b2 : bound) (s e hs he : Z),
    starts now b1 s -> ends now b2 e -> hour_of s hs -> hour_of e he ->
    (he < hs -> date_range now b1 b2 = Raise ValueError) /\
    (hs <= he -> exists l, date_range now b1 b2 = Ok l /\ StronglySorted Z.lt l /\
       forall x, In x l <-> full_hour x /\ hs <= x <= he).
Proof. exact DateRange.range_between_bounds. Qed.
Print Assumptions date_range_every_hour_once.

(** The reader takes its two dates in either order. *)
Theorem reader_takes_dates_in_either_order :
  forall (today : datetime) (b1 b2 : bound) (s e : Z), starts today b1 s -> starts today b2 e ->
    reader_dates today b1 b2 = Ok (Z.min s e, Z.max s e).
Proof. exact DateRange.reader_dates_ordered. Qed.
Print Assumptions reader_takes_dates_in_either_order.

Theorem date_range_every_day :
  forall (now : datetime) (s e y m d : Z) (l : list Z),
    0 <= s -> s <= e -> date_range now (BDatetime s) (BDatetime e) = Ok l ->
    valid_date y m d -> s / 86400 <= of_fields y m d 0 0 0 / 86400 <= e / 86400 ->
    exists hh, 0 <= hh <= 23 /\ In (of_fields y m d hh 0 0) l.
Proof. exact Dates.every_day_visited. Qed.
Print Assumptions date_range_every_day.

Example ex_range :
  exists l, date_range 0 (BText $"2024-02-28") (BDate 2024 3 1) = Ok l /\ length l = 72%nat /\
    In (of_fields 2024 2 29 17 0 0) l /\ date_range 0 (BText $"2024-02-28") (BText $"2024-03-01") = Ok l /\ valid_date 2024 2 29.
Proof.
  eexists. split; [vm_compute; reflexivity|]. split; [reflexivity|]. split; [|split].
  - vm_compute. intuition.
  - vm_compute. reflexivity.
  - split; [lia|]. exists 29. split; [|lia]. right. right. split; auto. left. split; auto.
    split; [exists 506; reflexivity|]. left. intros [k H]. lia.
Qed.

(** C20 *)
Theorem folders_differ_iff_days_differ :
  forall (rnd : str) (t : list seg) (a b : moment),
    daily_template t -> plausible a -> plausible b ->
    (cycle_path rnd (template_text t ++ $"/") a = cycle_path rnd (template_text t ++ $"/") b <-> same_day a b).
Proof. exact ReadRange.folder_iff_day. Qed.
Print Assumptions folders_differ_iff_days_differ.

Theorem range_lists_each_day_once :
  forall (pf : option (str * str * str)) (store : str -> list str) (now : datetime) (rnd : str) (t : list seg)
         (y m d hh mm ss y' m' d' hh' mm' ss' : Z),
    daily_template t -> valid_date y m d -> valid_time hh mm ss -> valid_date y' m' d' -> valid_time hh' mm' ss' ->
    of_fields y m d hh mm ss <= of_fields y' m' d' hh' mm' ss' ->
    exists days, consecutive days /\ hd_error days = Some (y, m, d) /\ last days (0, 0, 0) = (y', m', d') /\
      NoDup (map (day_folder t) days) /\
      list_range pf store now rnd (template_text t ++ $"/") (of_fields y m d hh mm ss) (of_fields y' m' d' hh' mm' ss')
      = get_list_of_blobs pf store (map (day_folder t) days).
Proof. exact ReadRange.range_each_day_once. Qed.
Print Assumptions range_lists_each_day_once.

Example ex_listing :
  daily_template (Lit $"data/set/" :: default_partitions) /\
  list_range None (fun p => [p ++ $"/x.jsonl"]) 0 [] (template_text (Lit $"data/set/" :: default_partitions) ++ $"/")
    (of_fields 2023 12 31 22 0 0) (of_fields 2024 1 2 1 0 0)
  = Ok [$"data/set/year_2023/month_12/day_31/x.jsonl"; $"data/set/year_2024/month_01/day_01/x.jsonl";
        $"data/set/year_2024/month_01/day_02/x.jsonl"].
Proof.
  split; [|vm_compute; reflexivity].
  assert (T: template_ok (Lit $"data/set/" :: default_partitions)).
  { intros s H. cbn in H. repeat (destruct H as [H|H]; [try discriminate; injection H as <-; split; cbv; intuition discriminate|]). destruct H. }
  split; [split; [exact T|cbn; intuition]|]. cbn. repeat split; intuition discriminate.
Qed.

(** C56 *)
Theorem iso_date_parses :
  forall y m d : Z, valid_date y m d -> y <= 9999 ->
    parse_iso (iso_date y m d) = Ok (Some (of_fields y m d 0 0 0)).
Proof. exact DateText.iso_date_ok. Qed.
Print Assumptions iso_date_parses.

Theorem iso_minutes_parse :
  forall (y m d hh mm : Z) (sep : ascii) (zone : str),
    valid_date y m d -> y <= 9999 -> valid_time hh mm 0 ->
    In sep $"T " -> zone_text zone -> (length zone <= 17)%nat ->
    parse_iso (iso_minutes sep y m d hh mm ++ zone) = Ok (Some (of_fields y m d hh mm 0)).
Proof. exact DateText.iso_minutes_ok. Qed.
Print Assumptions iso_minutes_parse.

Theorem iso_seconds_parse :
  forall (y m d hh mm ss : Z) (sep : ascii) (frac zone : str),
    valid_date y m d -> y <= 9999 -> valid_time hh mm ss ->
    In sep $"T " -> ~ In "+"%char frac -> zone_text zone ->
    (length frac <= 9)%nat -> (length (frac ++ zone) <= 14)%nat ->
    parse_iso (iso_seconds sep y m d hh mm ss ++ frac ++ zone) = Ok (Some (of_fields y m d hh mm ss)).
Proof. exact DateText.iso_seconds_ok. Qed.
Print Assumptions iso_seconds_parse.

Theorem iso_parse_never_raises : forall v : str, exists o, parse_iso v = Ok o.
Proof. exact DateText.parse_iso_never_raises. Qed.
Print Assumptions iso_parse_never_raises.

(** Whatever is accepted has ten to thirty-three characters, the separators of a date in their places, and names a
    day and time there are: where the places of the year, month and day hold digits, they are those of the moment; a
    date alone is its midnight.  Missing: that nothing malformed is accepted, see the refutations. *)
Theorem iso_accepted_partial : forall (v : str) (t : datetime), parse_iso v = Ok (Some t) ->
  (10 <= length v <= 33)%nat /\
  (exists c, nth_error v 4 = Some c /\ In c $"-:") /\ (exists c, nth_error v 7 = Some c /\ In c $"-:") /\
  exists y m d hh mm ss, valid_date y m d /\ y <= 9999 /\ valid_time hh mm ss /\ t = of_fields y m d hh mm ss /\
    (forall z, number z (firstn 4 v) -> z = y) /\ (forall z, number z (firstn 2 (skipn 5 v)) -> z = m) /\
    (forall z, number z (firstn 2 (skipn 8 v)) -> z = d) /\
    (length v = 10%nat -> hh = 0 /\ mm = 0 /\ ss = 0).
Proof. exact DateShape.iso_accepts. Qed.
Print Assumptions iso_accepted_partial.

Example ex_iso : iso_seconds "T"%char 2024 2 29 13 5 59 ++ $".123456" ++ $"+01:00" = $"2024-02-29T13:05:59.123456+01:00"
  /\ parse_iso $"2024-02-29T13:05:59.123456+01:00" = Ok (Some (of_fields 2024 2 29 13 5 59))
  /\ parse_iso $"2023-02-29" = Ok None /\ parse_iso $"last tuesday" = Ok None.
Proof. vm_compute. auto. Qed.

(** Findings: malformed texts are accepted (blanks inside, trailing text) ... *)
Theorem iso_malformed_accepted_refuted :
  exists v w : str, (forall y m d, valid_date y m d -> y <= 9999 -> v <> iso_date y m d) /\
    parse_iso v = Ok (Some (of_fields 2020 1 1 0 0 0)) /\
    w = $"2020-01-01 10:20:30 or so" /\ parse_iso w = Ok (Some (of_fields 2020 1 1 10 20 30)).
Proof.
  exists $"2020- 1- 1", $"2020-01-01 10:20:30 or so". split; [|vm_compute; auto].
  intros y m d V H9. exact (DateText.blank_not_iso y m d V H9).
Qed.
Print Assumptions iso_malformed_accepted_refuted.

(** ... and the hours of a negative offset are read as seconds when the text has none. *)
Theorem iso_negative_offset_refuted :
  exists zone : str, zone = $"-05:00" /\
    parse_iso (iso_minutes "T"%char 2020 1 1 10 20 ++ zone) = Ok (Some (of_fields 2020 1 1 10 20 5)) /\
    parse_iso (iso_minutes "T"%char 2020 1 1 10 20) = Ok (Some (of_fields 2020 1 1 10 20 0)).
Proof. exists $"-05:00". vm_compute. auto. Qed.
Print Assumptions iso_negative_offset_refuted.

(** C55 *)
Theorem duration_text_exact :
  forall (d h m s : Z) (gd gh gm gs : str),
    opt_quantity "d"%char d gd -> opt_quantity "h"%char h gh -> opt_quantity "m"%char m gm -> opt_quantity "s"%char s gs ->
    (timedelta_range (total_seconds d h m s) -> parse_delta (gd ++ gh ++ gm ++ gs) = Ok (total_seconds d h m s)) /\
    (~ timedelta_range (total_seconds d h m s) -> parse_delta (gd ++ gh ++ gm ++ gs) = Raise OverflowError).
Proof. exact DateText.parse_delta_exact. Qed.
Print Assumptions duration_text_exact.

(** ... any other text is the longest prefix of it which is a duration text (nothing counts as zero).  Missing:
    that it never raises, see the refutation. *)
Theorem duration_text_prefix_partial :
  forall text : str, exists d h m s gd gh gm gs rest,
    text = gd ++ gh ++ gm ++ gs ++ rest /\
    opt_quantity "d"%char d gd /\ opt_quantity "h"%char h gh /\ opt_quantity "m"%char m gm /\ opt_quantity "s"%char s gs /\
    (forall d' h' m' s' gd' gh' gm' gs' rest', text = gd' ++ gh' ++ gm' ++ gs' ++ rest' ->
       opt_quantity "d"%char d' gd' -> opt_quantity "h"%char h' gh' -> opt_quantity "m"%char m' gm' -> opt_quantity "s"%char s' gs' ->
       (length rest <= length rest')%nat) /\
    (timedelta_range (total_seconds d h m s) -> parse_delta text = Ok (total_seconds d h m s)) /\
    (~ timedelta_range (total_seconds d h m s) -> parse_delta text = Raise OverflowError).
Proof. exact DateText.parse_delta_prefix. Qed.
Print Assumptions duration_text_prefix_partial.

Example ex_delta : parse_delta $"3d5H19m" = Ok (total_seconds 3 5 19 0) /\ parse_delta $"-5h-30m" = Ok (total_seconds 0 (-5) (-30) 0)
  /\ quantity "h"%char 5 $"5H" /\ parse_delta $"5h3d" = Ok (total_seconds 0 5 0 0) /\ parse_delta $"soon" = Ok 0.
Proof.
  split; [reflexivity|]. split; [reflexivity|]. split; [|split; reflexivity].
  apply (q_plus "h"%char 5 $"5" "H"%char); [exists 5%N; split; reflexivity|reflexivity].
Qed.

(** Finding: a number too large raises, although the text is a duration. *)
Theorem duration_never_raises_refuted :
  exists text : str, quantity "d"%char 1000000000 text /\ parse_delta text = Raise OverflowError.
Proof.
  exists $"1000000000d". split; [|vm_compute; reflexivity].
  apply (q_plus "d"%char 1000000000 $"1000000000" "d"%char); [exists 1000000000%N; split; reflexivity|reflexivity].
Qed.
Print Assumptions duration_never_raises_refuted.
