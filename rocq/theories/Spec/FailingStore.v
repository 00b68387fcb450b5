(** Stream writers whose storage fails now and then, and the adapters behind them. *)
From Verif.Base Require Import Py Value.
From Verif.Model Require Import Stream Collector.
From Verif.Spec Require Import StreamStore.

(** the partitions the records of the appends of a history go to, whether the appends returned or raised *)
Definition partition_appended {R V} (M : streaming R V) (es : list (cevent (R:=R))) (id : str) : Prop :=
  exists r at_, In (Event (SAppend r at_)) es /\ In id (targets M r at_).
