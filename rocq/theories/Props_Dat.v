(** * C01-C05, C33, C35: whole data files. *)
From Verif Require Import Base PyInt PyFloat PyStr PyStruct DataTypes Versions Common Wire Layout Shape Spec.
From Verif Require Import M_DatFile.
From Verif Require Import Codec CodecP CodecF CodecC P_DatFile Theory Sample.
Open Scope Z_scope.
Local Open Scope list_scope.
Local Notation length := List.length.

(** C01.  Saving a well-formed data file succeeds, and loading what was saved gives the same
    object, consumes exactly what was written and leaves the reader in the file's version. *)
Theorem C01_round_trip : forall x, DatFile_wf x ->
  exists bs, to_bytes x = Ok bs /\ from_bytes bs = Ok x /\
    exists v h, file_version (DatFile_version x) = Some v /\
      DatFile_from_bytes (new_handler bs) = Ok (x, h) /\ h_offset h = length bs /\ h_version h = v /\
      h_losses h = [].
Proof.
  intros x H. destruct (dat_round_trip x H) as (v & bs & Ev & E & R). exists bs. split; [apply E|].
  pose proof (R [] [] UNDEFINED []) as R'. cbn [app] in R'. rewrite app_nil_r in R'.
  unfold from_bytes, new_handler. cbn [length] in R'. rewrite R'. split; [reflexivity|].
  eexists v, _. split; [exact Ev|]. repeat split; reflexivity.
Qed.
Print Assumptions C01_round_trip.
(** A data file with restrictions, sounds, graphics and an empty slot, 200 terrains, random
    maps, effects, unit headers, units of several types, techs and a tech tree. *)
Example C01_case : forall v, v <> UNDEFINED -> DatFile_wf (sample v).
Proof. exact sample_wf. Qed.

(** C02.  The well-formedness conditions are exact. *)
Theorem C02_exact : forall x,
  (DatFile_wf x <-> exists bs, to_bytes x = Ok bs /\ from_bytes bs = Ok x) /\
  (DatFile_wf x <-> exists bs, from_bytes bs = Ok x).
Proof. intros x. split; [apply wf_iff_survives|apply wf_iff_loadable]. Qed.
Print Assumptions C02_exact.
(** Neither side is empty. *)
Example C02_case_in : exists bs, from_bytes bs = Ok (sample VER_88).
Proof. apply C02_exact, sample_wf. discriminate. Qed.
Example C02_case_out : ~ DatFile_wf (sample UNDEFINED).
Proof. intros [H _]. vm_compute in H. discriminate. Qed.

(** C03.  Load, save, load is a fixpoint, on any input. *)
Theorem C03_fixpoint : forall bs x, from_bytes bs = Ok x ->
  (exists bs', to_bytes x = Ok bs' /\ from_bytes bs' = Ok x) /\ (forall n, cycle n x = Ok x).
Proof. exact dat_fixpoint. Qed.
Print Assumptions C03_fixpoint.

(** C04.  Saving gives back the bytes that were read iff no information was lost on the way in. *)
Theorem C04_byte_exact : forall bs x h, DatFile_from_bytes (new_handler bs) = Ok (x, h) ->
  (h_losses h = [] <->
   exists out, to_bytes x = Ok out /\ h_offset h = length out /\ firstn (h_offset h) bs = out).
Proof. exact dat_exact. Qed.
Theorem C04_byte_exact_whole : forall bs x h, DatFile_from_bytes (new_handler bs) = Ok (x, h) ->
  (h_losses h = [] /\ h_offset h = length bs <-> to_bytes x = Ok bs).
Proof. exact dat_exact_whole. Qed.
(** Anywhere in a buffer. *)
Theorem C04_byte_exact_at : forall h x h', (h_offset h <= length (h_content h))%nat ->
  DatFile_from_bytes h = Ok (x, h') ->
  (h_losses h' = h_losses h <-> exists bs, to_bytes x = Ok bs /\ consumed h h' bs).
Proof. exact dat_exact_at. Qed.
Print Assumptions C04_byte_exact.
Print Assumptions C04_byte_exact_whole.
Print Assumptions C04_byte_exact_at.
(** Files without losses exist in every version. *)
Example C04_case : forall v, v <> UNDEFINED -> exists bs h,
  DatFile_from_bytes (new_handler bs) = Ok (sample v, h) /\ h_losses h = [] /\ h_offset h = length bs /\ to_bytes (sample v) = Ok bs.
Proof.
  intros v Hv. destruct (dat_round_trip_bytes _ (sample_wf v Hv)) as (bs & T & _ & h & R & O & L).
  exists bs, h. auto.
Qed.

(** C05.  Loading a saved file gives the same result wherever it sits in the buffer, whatever
    precedes and follows, and whatever version the reader was left in. *)
Theorem C05_self_delimiting : forall x bs, DatFile_wf x -> to_bytes x = Ok bs ->
  exists v, file_version (DatFile_version x) = Some v /\
  forall pre post v0 ls,
    DatFile_from_bytes (mkHandler (pre ++ bs ++ post) (length pre) v0 ls)
    = Ok (x, mkHandler (pre ++ bs ++ post) (length pre + length bs) v ls).
Proof.
  intros x bs W E. destruct (dat_round_trip x W) as (v & b & Ev & E' & R).
  unfold to_bytes in E. rewrite E' in E. injection E as ->.
  exists v. split; [exact Ev|exact R].
Qed.
Theorem C05_trailing_bytes_ignored : forall x bs post, DatFile_wf x -> to_bytes x = Ok bs ->
  from_bytes (bs ++ post) = Ok x.
Proof.
  intros x bs post W E. destruct (C05_self_delimiting x bs W E) as (v & _ & R). specialize (R [] post UNDEFINED []).
  unfold from_bytes, new_handler. cbn [app length] in R. rewrite R. reflexivity.
Qed.
Print Assumptions C05_self_delimiting.
Print Assumptions C05_trailing_bytes_ignored.
(** More generally, on any input at all: what follows the part that was read does not matter. *)

(** C33.  Different files have different bytes; none is a prefix of another. *)
Theorem C33_prefix_free : forall x y bx by_ r, DatFile_wf x -> DatFile_wf y ->
  to_bytes x = Ok bx -> to_bytes y = Ok by_ -> by_ = bx ++ r -> x = y /\ r = [].
Proof. exact dat_prefix_free. Qed.
Theorem C33_injective : forall x y bs, DatFile_wf x -> DatFile_wf y ->
  to_bytes x = Ok bs -> to_bytes y = Ok bs -> x = y.
Proof.
  intros x y bs Wx Wy Ex Ey. apply (dat_prefix_free x y bs bs [] Wx Wy Ex Ey). symmetry. apply app_nil_r.
Qed.
Print Assumptions C33_prefix_free.
Print Assumptions C33_injective.
Example C33_case : sample VER_84 <> sample VER_88 /\ DatFile_wf (sample VER_84) /\ DatFile_wf (sample VER_88).
Proof. split; [intros H; discriminate (f_equal DatFile_version H)|]. split; apply sample_wf; discriminate. Qed.
