(** C20 (first half), C54, C61: paths of datasets. *)
From Verif.Base Require Import Py.
From Verif.Model Require Import Paths.
From Verif.Spec Require Import Paths.
From Verif.Proofs Require Paths.

(** C54: every path below a bucket, relative or absolute: the parts put together name the same place. *)
Theorem paths_split_and_rebuild :
  forall s : str, beyond_bucket s ->
    exists bucket folder stem suffix,
      get_parts s = Ok (bucket, folder, stem, suffix)
      /\ components_of (bucket ++ $"/" ++ folder ++ opt_text stem ++ opt_text suffix) = components_of s
      /\ (relative (bucket ++ $"/" ++ folder ++ opt_text stem ++ opt_text suffix) <-> relative s)
      /\ (exists f, folder = f ++ $"/").
Proof. exact Paths.get_parts_rebuild. Qed.
Print Assumptions paths_split_and_rebuild.

(** ... the stem and extension are those of the last component, if it has them. *)
Theorem path_stem_and_extension :
  forall (s b folder : str) (stem suffix : option str),
    beyond_bucket s -> get_parts s = Ok (b, folder, stem, suffix) ->
    (forall a e, stem = Some a /\ suffix = Some ($"." ++ e) <->
       stem_and_extension (last (components_of s) []) a e) /\
    ((exists a e, stem = Some a /\ suffix = Some ($"." ++ e)) \/ (stem = None /\ suffix = None)).
Proof. exact Paths.get_parts_stem. Qed.
Print Assumptions path_stem_and_extension.

(** ... every other path: an error if there is nothing in it, else a bucket, to which a folder named partitions is added. *)
Theorem path_of_a_bucket_only :
  forall s : str, ~ beyond_bucket s ->
    (s = [] /\ get_parts s = Raise ValueError) \/
    (s <> [] /\ relative s /\ components_of s = [] /\ get_parts s = Raise IndexError) \/
    (exists b, get_parts s = Ok (b, $"partitions/", None, None) /\
       ((relative s /\ components_of s = [b]) \/
        (~ relative s /\ components_of s = [] /\ components_of b = [] /\ ~ relative b))).
Proof. exact Paths.get_parts_short. Qed.
Print Assumptions path_of_a_bucket_only.
Example ex_paths :
  get_parts $"data/a/b.c.json" = Ok ($"data", $"a/", Some $"b.c", Some $".json") /\
  get_parts $"//srv/a/./set" = Ok ($"//", $"srv/a/set/", None, None) /\
  get_parts $"./." = Raise IndexError /\ get_parts $"data/" = Ok ($"data", $"partitions/", None, None) /\
  beyond_bucket $"data/a/b.c.json" /\ beyond_bucket $"//srv/a/./set".
Proof.
  do 4 (split; [reflexivity|]). split; [left|right].
  - split; [intros r; discriminate|vm_compute; lia].
  - split; [intros H; eapply H; reflexivity|discriminate].
Qed.

(** C54, for datasets with partitions (the default): different names have different folders, and the
    folder is the name followed by the filled-in partitions. *)
Theorem dataset_folders_distinct_partial :
  forall (rnd : str) (ds ds' ps : list str) (p : list seg) (d : moment),
    template_ok p -> template_text p = join $"/" ps -> ps <> [] ->
    (forall c, In c (ds ++ ds' ++ ps) -> component c) ->
    (forall c, In c (ds ++ ds') -> no_braces c) -> ds <> [] -> ds' <> [] -> no_extension (last ps []) ->
    build_path rnd (join $"/" (ds ++ ps)) d = Ok (join $"/" ds ++ $"/" ++ fill p d ++ $"/") /\
    (build_path rnd (join $"/" (ds ++ ps)) d = build_path rnd (join $"/" (ds' ++ ps)) d -> ds = ds').
Proof. exact Paths.datasets_distinct. Qed.
Print Assumptions dataset_folders_distinct_partial.

Example ex_dataset :
  build_path [] $"data/my.set/year_{yyyy}/month_{mm}/day_{dd}" (mkMoment 2024 2 29 13 5 0)
  = Ok $"data/my.set/year_2024/month_02/day_29/".
Proof. vm_compute. reflexivity. Qed.
Example ex_partitions : template_ok default_partitions /\ day_template default_partitions /\
  template_text default_partitions = join $"/" [$"year_{yyyy}"; $"month_{mm}"; $"day_{dd}"].
Proof.
  assert (T: template_ok default_partitions).
  { intros s H. cbn in H. repeat (destruct H as [H|H]; [try discriminate; injection H as <-; split; cbv; intuition discriminate|]). destruct H. }
  split; [exact T|]. split; [|reflexivity]. split; [exact T|]. cbn. intuition.
Qed.
Example ex_parts : get_parts $"bucket/a/b/file.tar.gz" = Ok ($"bucket", $"a/b/", Some $"file.tar", Some $".gz").
Proof. vm_compute. reflexivity. Qed.

(** Finding: without partitions a dataset whose last component has a dot loses that component, so
    two different datasets share a folder (and it is not the folder a reader looks in). *)
Theorem dataset_folders_distinct_refuted :
  exists (ds ds' : str) (d : moment),
    ds <> ds' /\ (forall rnd, build_path rnd ds d = build_path rnd ds' d) /\
    (forall rnd, exists w r, build_path rnd ds d = Ok w /\ cycle_path rnd (ds ++ $"/") d = Ok r
                       /\ components_of w <> components_of r).
Proof.
  exists $"data/v1.0", $"data/v1.1", (mkMoment 2024 1 1 0 0 0). split; [discriminate|].
  split; [intros; reflexivity|]. intros rnd. exists $"data/./", $"data/v1.0".
  split; [reflexivity|]. split; [reflexivity|]. vm_compute. discriminate.
Qed.
Print Assumptions dataset_folders_distinct_refuted.

(** C61: the folder a writer of a dataset (with partitions) writes to on a day is the folder a
    reader of the same dataset and partitions lists for that day. *)
Theorem writer_folder_is_reader_folder :
  forall (rnd rnd' : str) (t : list seg) (comps : list str) (d : moment),
    template_ok t -> template_text t = join $"/" comps ->
    (2 <= length comps)%nat -> (forall c, In c comps -> component c) -> no_extension (last comps []) ->
    build_path rnd (template_text t) d = Ok (fill t d ++ $"/")
    /\ cycle_path rnd' (template_text t ++ $"/") d = Ok (pp_str (pp_parse (fill t d ++ $"/"))).
Proof. exact Paths.writer_reader_folder. Qed.
Print Assumptions writer_folder_is_reader_folder.
