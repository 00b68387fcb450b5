(** Path templates, as text with day placeholders. *)
From Verif.Base Require Import Py.
From Verif.Model Require Import Paths.

(** a template: literal text (without braces) and placeholders *)
Inductive seg := Lit (s : str) | Year | Month | Day | Hour | Minute | Second.
Definition seg_text (g : seg) : str :=
  match g with
  | Lit s => s | Year => $"{yyyy}" | Month => $"{mm}" | Day => $"{dd}"
  | Hour => $"{HH}" | Minute => $"{MM}" | Second => $"{SS}"
  end.
Definition template_text (t : list seg) : str := concat (map seg_text t).
Definition no_braces (s : str) : Prop := ~ In "{"%char s /\ ~ In "}"%char s.
Definition template_ok (t : list seg) : Prop := forall s, In (Lit s) t -> no_braces s.

(** what a placeholder stands for *)
Definition seg_value (d : moment) (g : seg) : str :=
  match g with
  | Lit s => s | Year => dec (year d) | Month => dec_pad 2 (month d) | Day => dec_pad 2 (day d)
  | Hour => dec_pad 2 (hour d) | Minute => dec_pad 2 (minute d) | Second => dec_pad 2 (second d)
  end.
Definition fill (t : list seg) (d : moment) : str := concat (map (seg_value d) t).

Definition day_template (t : list seg) : Prop :=
  template_ok t /\ In Year t /\ In Month t /\ In Day t.
Definition same_day (a b : moment) : Prop := year a = year b /\ month a = month b /\ day a = day b.
(** a calendar field fits two digits *)
Definition plausible (d : moment) : Prop :=
  (month d < 100 /\ day d < 100 /\ hour d < 100 /\ minute d < 100 /\ second d < 100)%N.

(** a path component as written by a user: not empty, not ".", without "/" *)
Definition component (c : str) : Prop := c <> [] /\ c <> $"." /\ ~ In "/"%char c.
(** a dataset name that ends in no file extension *)
Definition no_extension (c : str) : Prop := ~ In "."%char c.

(** the components of a path, as everyone reads it: "a//b/./c/" has the components a, b and c *)
Definition components_of (s : str) : list str :=
  filter (fun c => negb (str_eqb c []) && negb (str_eqb c $".")) (split "/"%char s).
Definition relative (s : str) : Prop := forall r, s <> "/"%char :: r.
(** the name is the stem, a dot and the extension: the dot is the last one, and neither its first nor its last character *)
Definition stem_and_extension (name stem ext : str) : Prop :=
  name = stem ++ $"." ++ ext /\ stem <> [] /\ ext <> [] /\ ~ In "."%char ext.
(** the path is more than a bucket: the root, or the first component of a relative path, is the bucket *)
Definition beyond_bucket (s : str) : Prop :=
  (relative s /\ (2 <= length (components_of s))%nat) \/ (~ relative s /\ components_of s <> []).
(** an optional text, nothing if absent *)
Definition opt_text (o : option str) : str := match o with Some s => s | None => [] end.
(** the default partitions of writers and readers: year_{yyyy}/month_{mm}/day_{dd} *)
Definition default_partitions : list seg :=
  [Lit $"year_"; Year; Lit $"/month_"; Month; Lit $"/day_"; Day].

(** a template with the day but nothing finer *)
Definition daily_template (t : list seg) : Prop :=
  day_template t /\ ~ In Hour t /\ ~ In Minute t /\ ~ In Second t.
(** the year is written first, then the month, then the day *)
Definition chronological (t : list seg) : Prop :=
  exists a b c rest, t = a ++ Year :: b ++ Month :: c ++ Day :: rest /\
    (forall g, In g [Year; Month; Day] -> ~ In g a) /\ (forall g, In g [Month; Day] -> ~ In g b) /\ ~ In Day c.
(** the folder of a day, as pathlib writes it *)
Definition day_folder (t : list seg) (day : Z * Z * Z) : str :=
  let '(y, m, d) := day in
  pp_str (pp_parse (fill t (mkMoment (Z.to_N y) (Z.to_N m) (Z.to_N d) 0 0 0) ++ $"/")).
