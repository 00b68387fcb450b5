(** C08-C12: batch writing. *)
From Verif.Base Require Import Py.
From Verif.Model Require Import Paths Frames Writers.
From Verif.Spec Require Import Paths Frames Writers.
From Verif.Proofs Require Writers Batch BatchFolder.

(** C10, text formats: after every history of calls, with any pattern of storage failures that leave
    nothing behind, the stored blobs followed by what is not stored yet are exactly the records for
    which append returned, in order; nothing is waiting once a finalize has returned. *)
Theorem appended_records_stored_once_in_order :
  forall (R : Type) (E : setting R) (dir ext : str) (cs : list call) (os : list outcome) (s : state),
    writes_in E dir ext -> clean_failures E -> s_format E <> Parquet ->
    run E (new_writer nothing) cs = (os, s) ->
    exists groups waiting,
      Forall2 (holds E) groups (map snd (data_of dir (puts (st_world s)))) /\
      concat groups ++ waiting = accepted cs os /\
      (forall g, In g groups -> g <> []) /\
      (forall cs' f os' x, cs = cs' ++ [Finalize f] -> os = os' ++ [Returned x] -> waiting = []).
Proof.
  intros R E dir ext cs os s W CF NP H. rewrite <- (Writers.taken_text E cs os NP).
  exact (Writers.stored_in_order E dir ext W CF cs os s H).
Qed.
Print Assumptions appended_records_stored_once_in_order.

(** C10, parquet.  Partial: a record is kept also when append raised because a storage failure
    occurred while rolling over; without failures it is as above. *)
Theorem appended_records_stored_parquet_partial :
  forall (R : Type) (E : setting R) (dir ext : str) (cs : list call) (os : list outcome) (s : state),
    writes_in E dir ext -> clean_failures E -> s_format E = Parquet ->
    run E (new_writer nothing) cs = (os, s) ->
    (exists groups waiting,
      Forall2 (holds E) groups (map snd (data_of dir (puts (st_world s)))) /\
      concat groups ++ waiting = not_refused E cs /\
      (forall g, In g groups -> g <> []) /\
      (forall cs' f os' x, cs = cs' ++ [Finalize f] -> os = os' ++ [Returned x] -> waiting = [])) /\
    ((forall n, s_fails E n = None) -> (forall g, exists d, s_parquet E g = Ok d) ->
     not_refused E cs = accepted cs os).
Proof.
  intros R E dir ext cs os s W CF P H. split.
  - pose proof (Writers.stored_in_order E dir ext W CF cs os s H) as S.
    unfold Writers.stored_records in S. rewrite P in S. exact S.
  - intros F Q. eapply Writers.parquet_accepted; eauto. rewrite P. reflexivity.
Qed.
Print Assumptions appended_records_stored_parquet_partial.

(** C11: a stored text blob holds at least one record and exceeds the limit by at most its last
    record; *)
Theorem blob_size_limit :
  forall (R : Type) (E : setting R) (dir ext : str) (cs : list call) (os : list outcome) (s : state),
    writes_in E dir ext -> clean_failures E ->
    run E (new_writer nothing) cs = (os, s) ->
    (0 <= s_max E)%Z -> is_parquet (s_format E) = false ->
    exists groups,
      Forall2 (holds E) groups (map snd (data_of dir (puts (st_world s)))) /\
      forall g, In g groups -> g <> [] /\
        forall texts, texts_of E g texts ->
          (Z.of_nat (length (concat (removelast texts))) <= s_max E)%Z.
Proof. intros R E dir ext cs os s W CF. exact (Writers.blob_sizes E dir ext W CF cs os s). Qed.
Print Assumptions blob_size_limit.

(** ... and append stores a blob only when it is larger than the limit. *)
Theorem rollover_only_when_full :
  forall (R : Type) (E : setting R) (dir ext : str) (cs : list call) (os : list outcome) (s : state)
         (r : R) (o : outcome) (s' : state),
    writes_in E dir ext -> clean_failures E ->
    run E (new_writer nothing) cs = (os, s) -> step E s (Append r) = (o, s') ->
    (0 <= s_max E)%Z -> (s_nbytes E [] <= s_max E)%Z ->
    exists added, puts (st_world s') = puts (st_world s) ++ added /\
      forall n d, In (n, d) added -> exists g, holds E g d /\
        (if is_parquet (s_format E) then s_max E < s_nbytes E g
         else exists texts, texts_of E g texts /\ s_max E < Z.of_nat (length (concat texts)))%Z.
Proof.
  intros R E dir ext cs os s r o s' W CF. exact (Writers.rollover E dir ext W CF cs os s r o s').
Qed.
Print Assumptions rollover_only_when_full.

(** C12: with a record that fails validation the call raises and everything else, the stored blobs
    and the outcome of all other calls, is as if it had not been made; *)
Theorem invalid_record_leaves_no_trace :
  forall (R : Type) (E : setting R) (cs1 : list call) (r : R) (cs2 : list call) (e : exn)
         (os : list outcome) (s : state),
    s_check E r = Raise e ->
    run E (new_writer nothing) (cs1 ++ Append r :: cs2) = (os, s) ->
    exists os1 os2, os = os1 ++ Raised e :: os2 /\ length os1 = length cs1 /\
      run E (new_writer nothing) (cs1 ++ cs2) = (os1 ++ os2, s).
Proof. exact @Writers.invalid_no_trace. Qed.
Print Assumptions invalid_record_leaves_no_trace.
(** ... and the record count is the number of appends that returned. *)
Theorem record_count_exact :
  forall (R : Type) (E : setting R) (cs : list call) (os : list outcome) (s : state),
    run E (new_writer nothing) cs = (os, s) -> st_records s = length (accepted cs os).
Proof. intros R E cs os s H. exact (Writers.records_count E cs _ _ _ H). Qed.
Print Assumptions record_count_exact.

(** C09: once finalize(has_failure=True) has returned, no later call stores the marker.  Partial: when
    the commit inside that finalize raises, the failure is not remembered (refuted below). *)
Theorem failed_batch_never_complete_partial :
  forall (R : Type) (E : setting R) (dir ext : str) (cs1 cs2 : list call) (os1 : list outcome)
         (x : option str) (os2 : list outcome) (s : state),
    writes_in E dir ext -> clean_failures E -> length os1 = length cs1 ->
    run E (new_writer nothing) (cs1 ++ Finalize true :: cs2) = (os1 ++ Returned x :: os2, s) ->
    exists s1 added, run E (new_writer nothing) (cs1 ++ [Finalize true]) = (os1 ++ [Returned x], s1) /\
      puts (st_world s) = puts (st_world s1) ++ added /\ ~ marked dir added.
Proof.
  intros R E dir ext cs1 cs2 os1 x os2 s W CF. exact (Writers.failed_never_complete E dir ext W CF cs1 cs2 os1 x os2 s).
Qed.
Print Assumptions failed_batch_never_complete_partial.
(** ... the marker is stored by exactly the finalize calls that report no failure and return a name,
    and only if a record was appended or always_complete was asked for. *)
Theorem marker_written_exactly_when :
  forall (R : Type) (E : setting R) (dir ext : str) (cs : list call) (os : list outcome) (s : state)
         (c : call) (o : outcome) (s' : state),
    writes_in E dir ext -> clean_failures E ->
    run E (new_writer nothing) cs = (os, s) -> step E s c = (o, s') ->
    exists added, puts (st_world s') = puts (st_world s) ++ added /\
      (marked dir added <-> exists x, c = Finalize false /\ o = Returned (Some x)) /\
      (marked dir added -> accepted cs os <> [] \/ s_always E = true).
Proof.
  intros R E dir ext cs os s c o s' W CF. exact (Writers.marker_step_exact E dir ext W CF cs os s c o s').
Qed.
Print Assumptions marker_written_exactly_when.

(** C08: records are appended to a new frame of folder [root] and the batch is finalized (the
    finalize may be retried); calls may raise, and the process may be killed during or between any
    storage operations.  A reader then lists either what it listed before or exactly the blobs of
    the batch, in the order they were written, holding all the records. *)
Theorem batch_visible_all_at_once_or_not_at_all :
  forall (R : Type) (E : setting R) (root frame ext : str) (es : list entry)
         (rs : list R) (fs : list bool) (os : list outcome) (s : state)
         (log' : list (str * str)) (listing : list str),
    writes_in E (root ++ $"/" ++ frame) ext -> clean_failures E ->
    plain (s_node E) -> plain ext ->
    ~ In "/"%char frame /\ startswith $"as_at_" frame = true ->
    contains $"BACKOUT" (root ++ $"/" ++ frame) = false ->
    (* the folder before: frames only, all older than the new one *)
    NoDup es -> tidy root (live root es) -> older_frames (live root es) frame ->
    (* the batch, and what is left of its storage operations *)
    run E (new_writer nothing) (map Append rs ++ map Finalize fs) = (os, s) ->
    good_clock E (attempts (st_world s)) ->
    crashed (puts (st_world s)) log' ->
    (* the store lists the old and the new blobs, in any order *)
    NoDup listing ->
    (forall n, In n listing <-> In n (map (name_in root) es) \/ In n (map fst log')) ->
    exists out before,
      get_list_of_blobs None (fun _ => listing) [root] = Ok out /\
      get_list_of_blobs None (fun _ => map (name_in root) es) [root] = Ok before /\
      ((~ marked (root ++ $"/" ++ frame) log' /\ out = before) \/
       (marked (root ++ $"/" ++ frame) log' /\ out = map fst (data_of (root ++ $"/" ++ frame) log') /\
        exists groups, Forall2 (holds E) groups (map snd (data_of (root ++ $"/" ++ frame) log')) /\
          concat groups = taken E (map Append rs ++ map Finalize fs) os)).
Proof.
  intros R E root frame ext es rs fs os s log' listing W CF PN PE FR NB Hnd T O H CL Hc Hl HI.
  exact (Batch.all_or_nothing E root frame ext _ W CF CL PN PE FR NB es rs fs os s log' listing Hnd T O H Hc Hl HI eq_refl).
Qed.
Print Assumptions batch_visible_all_at_once_or_not_at_all.

(** ... where the frame a batch writer makes is directly below the folder a reader of the same
    dataset, partitions and day lists. *)
Theorem batch_frame_is_below_reader_folder :
  forall (rnd rnd' : str) (ds ps : list str) (p : list seg) (now date : moment) (f : format) (ext : str),
    template_ok p -> template_text p = join $"/" ps -> ps <> [] -> ds <> [] ->
    (forall c, In c (ds ++ ps) -> component c) -> (forall c, In c ds -> no_braces c) ->
    exists fid root,
      new_frame_id rnd (join $"/" ds) ps now date = Ok fid /\
      cycle_path rnd' (join $"/" (ds ++ ps) ++ $"/") date = Ok root /\
      inner_filename f ext fid =
        Ok ((root ++ $"/" ++ as_at_text now) ++ $"/" ++ $"{stem}" ++ extension f ext).
Proof. exact BatchFolder.frame_folder. Qed.
Print Assumptions batch_frame_is_below_reader_folder.

(** C05, C08: ... and its name comes after the names of the frames made at earlier moments, so the
    newest frame by name is the one made last (this is what [older_frames] asks for). *)
Theorem later_frames_have_greater_names :
  forall a b : moment,
    plausible a -> plausible b -> (year a < 10000)%N -> (year b < 10000)%N -> before a b ->
    length (as_at_text a) = length (as_at_text b) /\ str_ltb (as_at_text a) (as_at_text b) = true.
Proof. exact BatchFolder.as_at_ordered. Qed.
Print Assumptions later_frames_have_greater_names.

(** *** Examples *)
Definition ex_root : str := $"data/set/year_2024/month_02/day_29".
Definition ex_frame : str := $"as_at_20240229-120000".
(** text records; the third attempt to store something fails; the empty record is invalid *)
Definition ex_set (f : format) (max : Z) (fails : nat -> option (option nat)) : setting str :=
  mkSetting str f max (ex_root ++ $"/" ++ ex_frame ++ $"/{stem}.jsonl") $"1f-2a" false
    (fun r => match r with [] => Raise ValidationError | _ => Ok tt end)
    (fun r => Ok (r ++ ["010"%char])) (fun s => s)
    (fun g => Z.of_nat (length (concat g))) (fun g => Ok (concat g))
    (fun n => 2 ^ 60 + N.of_nat n)%N fails.
Definition third_fails (n : nat) : option (option nat) := match n with 2 => Some None | _ => None end%nat.
Definition ex_E := ex_set Jsonl 3 third_fails.
Lemma plain_list s : forallb plain_char s = true -> plain s.
Proof. intros H c Hc. rewrite forallb_forall in H. auto. Qed.
Definition ex_calls : list (call (R:=str)) :=
  map Append [$"ab"; $"cd"; []; $"ef"; $"gh"; $"ij"; $"kl"] ++ map Finalize [false; false].
Definition ex_name (n : N) : str := blob_name (s_filename ex_E) (s_node ex_E) (2 ^ 60 + n)%N.
Definition nl : str := ["010"%char].
(** the settings meet the hypotheses of the theorems above *)
Example ex_set_ok :
  writes_in ex_E (ex_root ++ $"/" ++ ex_frame) $".jsonl" /\ clean_failures ex_E /\
  good_clock ex_E (attempts (st_world (snd (run ex_E (new_writer nothing) ex_calls)))) /\
  plain (s_node ex_E) /\ plain $".jsonl" /\
  (~ In "/"%char ex_frame /\ startswith $"as_at_" ex_frame = true) /\
  contains $"BACKOUT" (ex_root ++ $"/" ++ ex_frame) = false.
Proof.
  split; [|split; [|split; [|split; [|split; [|split]]]]].
  - split; [reflexivity|]. repeat (split; [cbv; intuition discriminate|]).
    split; [exists (ex_root ++ $"/as_at_20240229-12000"), "0"%char; split; [reflexivity|discriminate]|].
    split; cbv; intuition discriminate.
  - intros n k. cbn. unfold third_fails. destruct n as [|[|[]]]; discriminate.
  - replace (attempts _) with 5%nat by (vm_compute; reflexivity).
    split; cbn [ex_E ex_set s_clock]; intros; lia.
  - apply plain_list; reflexivity.
  - apply plain_list; reflexivity.
  - split; [cbv; intuition discriminate|reflexivity].
  - reflexivity.
Qed.
(** ... as does a folder with an older frame *)
Definition ex_old : list entry :=
  [mkEntry None (Some $"as_at_20240228-120000") $"100-2.jsonl";
   mkEntry None (Some $"as_at_20240228-120000") $"frame.complete"].
Example ex_old_ok : NoDup ex_old /\ tidy ex_root (live ex_root ex_old) /\ older_frames (live ex_root ex_old) ex_frame.
Proof.
  assert (I: forall P, (forall e, In e ex_old -> P e) -> forall e, live ex_root ex_old e -> P e) by (intros P H e [He _]; auto).
  assert (NB: forall e, live ex_root ex_old e -> e_by e = None) by (apply I; intros e [<-|[<-|[]]]; auto).
  split; [|split].
  - unfold ex_old. repeat constructor; cbn; intuition discriminate.
  - constructor.
    + intros c Hc. vm_compute in Hc.
      repeat (destruct Hc as [<-|Hc]; [repeat split; intros e b f He Hb; rewrite NB in Hb by auto; discriminate|]). destruct Hc.
    + intros e b f He Hb. rewrite NB in Hb by auto. discriminate.
    + intros e f [He _] Ef. assert (f = $"as_at_20240228-120000") by (destruct He as [<-|[<-|[]]]; injection Ef as <-; reflexivity).
      subst f. split; [cbv; intuition discriminate|]. split; [reflexivity|]. split; [reflexivity|].
      intros e' b f' He' Hb. rewrite NB in Hb by auto. discriminate.
    + intros e e' f f' [He _] [He' _]. destruct He as [<-|[<-|[]]], He' as [<-|[<-|[]]]; intros [= <-] [= <-]; reflexivity.
    + intros e [He _]. destruct He as [<-|[<-|[]]]; (split; [cbv; intuition discriminate|]); repeat split; discriminate.
  - intros e [He _]. destruct He as [<-|[<-|[]]]; (split; [reflexivity|]); eexists; (split; [reflexivity|]); split; reflexivity.
Qed.
(** the run: the invalid record is refused; the storage fails during the first finalize, the second
    one stores the rest and the marker *)
Example ex_run :
  let '(os, s) := run ex_E (new_writer nothing) ex_calls in
  os = [Returned None; Returned None; Raised ValidationError; Returned None; Returned None;
        Returned None; Returned None; Raised StorageError; Returned (Some (ex_name 3))] /\
  accepted ex_calls os = [$"ab"; $"cd"; $"ef"; $"gh"; $"ij"; $"kl"] /\
  puts (st_world s) =
    [(ex_name 0, $"ab" ++ nl ++ $"cd" ++ nl); (ex_name 1, $"ef" ++ nl ++ $"gh" ++ nl);
     (ex_name 3, $"ij" ++ nl ++ $"kl" ++ nl);
     (ex_root ++ $"/" ++ ex_frame ++ $"/frame.complete", [])].
Proof. vm_compute. auto. Qed.

(** *** Findings *)
(** C09: the commit inside finalize(has_failure=True) raises; the failure is forgotten and the next
    finalize marks the frame complete. *)
Definition first_fails (n : nat) : option (option nat) := match n with O => Some None | _ => None end.
Theorem failed_batch_never_complete_refuted :
  exists (E : setting str) dir ext r os s,
    writes_in E dir ext /\ clean_failures E /\
    run E (new_writer nothing) [Append r; Finalize true; Finalize false] = (os, s) /\
    marked dir (puts (st_world s)).
Proof.
  exists (ex_set Jsonl 100 first_fails), (ex_root ++ $"/" ++ ex_frame), $".jsonl", $"ab".
  eexists; eexists. split; [exact (proj1 ex_set_ok)|].
  split; [intros [|n] k; discriminate|]. split; [vm_compute; reflexivity|]. vm_compute. auto.
Qed.
Print Assumptions failed_batch_never_complete_refuted.

(** C10, parquet: an append that raised has nevertheless stored its record, so a retry stores it
    twice. *)
Theorem raised_append_stores_nothing_refuted :
  exists (E : setting str) dir ext r os s,
    writes_in E dir ext /\ clean_failures E /\ s_format E = Parquet /\
    run E (new_writer nothing) [Append r; Append r; Finalize false] = (os, s) /\
    accepted [Append r; Append r; Finalize false] os = [r] /\
    exists d, holds E [r; r] d /\ map snd (data_of dir (puts (st_world s))) = [d].
Proof.
  exists (ex_set Parquet 1 first_fails), (ex_root ++ $"/" ++ ex_frame), $".jsonl", $"ab".
  eexists; eexists. split; [exact (proj1 ex_set_ok)|].
  split; [intros [|n] k; discriminate|]. split; [reflexivity|]. split; [vm_compute; reflexivity|].
  split; [reflexivity|]. eexists. split; [reflexivity|]. vm_compute. reflexivity.
Qed.
Print Assumptions raised_append_stores_nothing_refuted.

(** C10: a storage failure that leaves a torn blob behind (a full disk, say): the blob is retried
    under another name, and both are in the completed frame. *)
Definition first_tears (n : nat) : option (option nat) := match n with O => Some (Some 4%nat) | _ => None end.
Theorem torn_blob_is_superseded_refuted :
  exists (E : setting str) dir ext rs os s torn,
    writes_in E dir ext /\ s_format E = Jsonl /\
    run E (new_writer nothing) (map Append rs ++ [Finalize false; Finalize false]) = (os, s) /\
    marked dir (puts (st_world s)) /\ torn <> [] /\
    map snd (data_of dir (puts (st_world s))) = [torn; concat (map (fun r => r ++ nl) rs)].
Proof.
  exists (ex_set Jsonl 100 first_tears), (ex_root ++ $"/" ++ ex_frame), $".jsonl", [$"ab"; $"cd"].
  eexists; eexists; eexists. split; [exact (proj1 ex_set_ok)|]. split; [reflexivity|].
  split; [vm_compute; reflexivity|]. split; [vm_compute; auto|]. split; [|vm_compute; reflexivity]. discriminate.
Qed.
Print Assumptions torn_blob_is_superseded_refuted.

(** 31 January, 23:59:59 comes before 1 February *)
Definition ex_jan : moment := mkMoment 2024 1 31 23 59 59.
Definition ex_feb : moment := mkMoment 2024 2 1 0 0 0.
Example frame_names_across_months : plausible ex_jan /\ plausible ex_feb /\ before ex_jan ex_feb /\
  as_at_text ex_jan = $"as_at_20240131-235959" /\ as_at_text ex_feb = $"as_at_20240201-000000".
Proof. repeat split; try reflexivity. right. split; [reflexivity|]. left. reflexivity. Qed.
