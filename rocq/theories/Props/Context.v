(** C93 - C95: contexts from a configuration file and arguments, safe names of fields, drawings of histograms. *)
From Verif.Base Require Import Py Value.
From Verif.Model Require Import Context.
From Verif.Model Require Json.
From Verif.Spec Require Import Context.
From Verif.Proofs Require Context ContextCases.
Import ContextCases.

(** ** C93.  [glob], [open_read] and [loads] are the file system and orjson; the file is the last one found.  The context
    has every argument with the argument's value; everything else is as the file says, but for config, which is an empty
    dictionary when the file has none or has a false one. *)
Theorem context_has_arguments_and_configuration :
  forall (glob : str -> list str) (open_read : str -> result str) (loads : str -> result value)
         (arguments config : record) (files : list str) (name file text : str),
    NoDup (map fst arguments) ->
    (dget str_eqb $"config_file" arguments = Some (VStr name) \/
     dget str_eqb $"config_file" arguments = None /\ name = $"config.json") ->
    glob ($"**/" ++ name) = files ++ [file] -> open_read file = Ok text -> loads text = Ok (VDict config) ->
    exists context, build_context glob open_read loads arguments = Ok context /\
      (forall k v, dget str_eqb k arguments = Some v -> dget str_eqb k context = Some v) /\
      (forall k, dget str_eqb k arguments = None -> k <> $"config" -> dget str_eqb k context = dget str_eqb k config) /\
      (dget str_eqb $"config" arguments = None ->
         (forall v, dget str_eqb $"config" config = Some v -> truthy v = true -> dget str_eqb $"config" context = Some v) /\
         (forall v, dget str_eqb $"config" config = Some v -> truthy v = false -> dget str_eqb $"config" context = Some (VDict [])) /\
         (dget str_eqb $"config" config = None -> dget str_eqb $"config" context = Some (VDict []))).
Proof. exact Context.build_stated. Qed.
Print Assumptions context_has_arguments_and_configuration.

(** Without such a file: IndexError; not JSON: ValueError; JSON but no object: AttributeError. *)
Theorem context_errors :
  forall (glob : str -> list str) (open_read : str -> result str) (loads : str -> result value) (arguments : record) (name : str),
    dget str_eqb $"config_file" arguments = Some (VStr name) ->
    (glob ($"**/" ++ name) = [] -> build_context glob open_read loads arguments = Raise IndexError) /\
    (forall files file text, glob ($"**/" ++ name) = files ++ [file] -> open_read file = Ok text ->
       (loads text = Raise ValueError -> build_context glob open_read loads arguments = Raise ValueError) /\
       (forall v, loads text = Ok v -> (forall d, v <> VDict d) -> build_context glob open_read loads arguments = Raise AttributeError)).
Proof.
  intros glob open_read loads arguments name H. split; [exact (Context.build_missing glob open_read loads arguments name H)|].
  intros files file text G O. split.
  - exact (Context.build_not_json glob open_read loads arguments name files file text H G O).
  - exact (fun v => Context.build_not_dict glob open_read loads arguments name files file text v H G O).
Qed.
Print Assumptions context_errors.

Example ex_context :
  build_context some_glob (fun f => let* s := some_file f in Ok (quoted s)) Json.loads [($"config_file", VStr $"job.json"); ($"name", VStr $"y")]
  = Ok [($"retries", VInt 3); ($"name", VStr $"y"); ($"config", VDict []); ($"config_file", VStr $"job.json")].
Proof. vm_compute. reflexivity. Qed.
Example ex_missing : build_context some_glob some_file Json.loads [($"config_file", VStr $"none.json")] = Raise IndexError.
Proof. vm_compute. reflexivity. Qed.

(** ** C94.  A safe name has only letters, digits, underscores and dashes; of every name exactly these are left, in order. *)
Theorem safe_names :
  forall name, safe_field_name name = filter letter_digit_dash name.
Proof. exact Context.safe_stated. Qed.
Print Assumptions safe_names.
Theorem safe_names_stay : forall name, safe_field_name (safe_field_name name) = safe_field_name name.
Proof. exact Context.safe_again. Qed.
Print Assumptions safe_names_stay.
(** Different names may become the same, and a name may become nothing. *)
Theorem safe_names_differ_refuted : exists a b, a <> b /\ a <> [] /\ safe_field_name a = safe_field_name b /\ exists c, c <> [] /\ safe_field_name c = [].
Proof. exists $"a b", $"ab". split; [discriminate|]. split; [discriminate|]. split; [reflexivity|]. exists $"?!". split; [discriminate|reflexivity]. Qed.
Print Assumptions safe_names_differ_refuted.
Example ex_safe : safe_field_name $"user name: (id_2)-x" = $"usernameid_2-x".
Proof. reflexivity. Qed.

(** ** C95.  A drawing has one character for every bin; its height is the number of whole eighths of the fullest bin
    (0 is a space, 8 a full block); so the fullest bins are full, bins of the same number look the same, and fuller bins are never lower. *)
Theorem drawing_shows_the_bins :
  forall bins most, In most bins -> (forall b, In b bins -> b <= most) -> 0 < most ->
    exists heights, draw bins = Ok heights /\
      Forall2 (fun b h => h * most <= 8 * b /\ 8 * b < S h * most) bins heights.
Proof. exact Context.draw_shown. Qed.
Print Assumptions drawing_shows_the_bins.
Theorem drawing_of_empty_bins :
  forall bins, bins <> [] -> (forall b, In b bins -> b = 0) -> draw bins = Ok (repeat 0 (length bins)).
Proof. exact Context.draw_nothing. Qed.
Print Assumptions drawing_of_empty_bins.
(** A bin with values may look empty: it has less than an eighth of the fullest. *)
Theorem only_empty_bins_look_empty_refuted :
  exists bins heights i, draw bins = Ok heights /\ nth i heights 9 = 0 /\ 0 < nth i bins 0.
Proof. exists [1; 9], [0; 8], 0. repeat split. cbn. lia. Qed.
Print Assumptions only_empty_bins_look_empty_refuted.
Example ex_draw : draw [2; 1; 4; 0] = Ok [4; 2; 8; 0].
Proof. reflexivity. Qed.
