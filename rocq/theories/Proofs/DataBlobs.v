(** Which blobs are read for their records (C25, C77). *)
From Verif.Base Require Import Py Value PyFacts ValueFacts.
From Verif.Model Require Import Cursor Reader.
From Verif.Spec Require Import Decoders.
From Verif.Proofs Require Import RoundTrip.
From Verif.Proofs Require Decoders Sources Cursor.

Lemma own_extension name : member_extension name (last_extension name).
Proof.
  unfold last_extension. exists (last (split "."%char name) []). split; [reflexivity|].
  pose proof (split_nonempty "."%char name) as N. destruct (exists_last N) as (pre & x & E).
  rewrite E, last_last. split.
  - apply (split_no_sep "."%char name). rewrite E. apply in_or_app. right. now left.
  - rewrite <- (join_split "."%char name), E. destruct pre as [|y pre]; [now left|right].
    exists (join $"." (y :: pre)). now rewrite join_app by discriminate.
Qed.
Lemma readable name : is_readable name = true <-> data_blob name.
Proof.
  unfold is_readable, data_blob. split.
  - intros H. exists (last_extension name). split; [apply own_extension|].
    destruct (dget str_eqb (last_extension name) KNOWN_EXTENSIONS) as [t|] eqn:E; [|discriminate].
    apply (dget_Some_In str_eqb str_keqb) in E. cbn in E.
    revert E. generalize (last_extension name) as x. intros x E.
    repeat (destruct E as [E|E]; [assert (t = DATA) by (destruct t; congruence); assert (E1 := f_equal fst E); assert (E2 := f_equal snd E);
                                  cbn in E1, E2; subst x; cbn; first [tauto|congruence]|]).
    destruct E.
  - intros (ext & M & I). rewrite (Decoders.member_extension_eq name ext M).
    cbn in I. repeat (destruct I as [<-|I]; [reflexivity|]). destruct I.
Qed.
Lemma unreadable name : ~ data_blob name -> is_readable name = false.
Proof. intros H. destruct (is_readable name) eqn:E; [|reflexivity]. now apply readable in E. Qed.

Lemma no_data hash loads blobs records cursor n :
  Forall (fun b => ~ data_blob b) blobs ->
  read_records hash loads (fun _ => Ok blobs) 0 records cursor n = Raise DataNotFoundError.
Proof. intros H. apply Sources.no_readable. eapply Forall_impl; [|exact H]. exact unreadable. Qed.

Lemma never_raises parse unzstd other read_blob hash loads columns filters override blobs n :
  (exists b, In b blobs /\ data_blob b) ->
  exists out c,
    read_records hash loads (fun _ => Ok blobs) 0 (blob_records parse unzstd other read_blob columns filters override) NoCursor n
    = Ok (firstn n out, c) /\
    forall r, In r out -> exists b data ext rows fin row,
      In b blobs /\ data_blob b /\ read_blob b = Ok data /\ decode parse unzstd other ext data = Some (rows, fin) /\
      In row rows /\ columns row = Ok r /\ filters r = Ok true.
Proof.
  intros (b & Hb & D). destruct (RoundTrip.never_raises parse unzstd other read_blob hash loads columns filters override blobs n) as (out & c & E & H).
  { intros N. assert (I : In b (filter is_readable blobs)) by (apply filter_In; split; [exact Hb|now apply readable]).
    rewrite N in I. destruct I. }
  exists out, c. split; [exact E|]. intros r Hr. destruct (H r Hr) as (b' & data & ext & rows & fin & row & H1 & H2 & R).
  exists b', data, ext, rows, fin, row. split; [exact H1|]. split; [now apply readable|exact R].
Qed.
