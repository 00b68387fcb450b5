(** What the markers for dates in the names of datasets stand for. *)
From Verif.Base Require Import Py.
From Verif.Model Require Import Paths.
From Verif.Spec Require Import Paths System.

(** folders 2024/02/29 *)
Definition short_folders : list (list seg) := [[Year]; [Month]; [Day]].
(** folders as they are written in the partitions argument *)
Definition partition_text (parts : list (list seg)) : str := join $"/" (map template_text parts).
(** a marker and the folders it stands for *)
Definition stands_for (marker : str) (folders : list (list seg)) : Prop :=
  (marker = $"{datefolders}" /\ folders = default_folders) \/ (marker = $"{datefolders_short}" /\ folders = short_folders).
