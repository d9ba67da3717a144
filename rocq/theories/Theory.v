(** * Consequences of the codec facts. *)
From Verif Require Import Base PyInt PyFloat PyStr PyStruct DataTypes Versions Common Wire Layout Shape.
From Verif Require Import Codec CodecP CodecF CodecC P_Simple P_More P_Unit P_UnitR P_Civ P_DatFile Spec.
From Verif Require Import M_Sound M_PlayerColour M_Effect M_TerrainRestriction M_Graphic
  M_TerrainBlock M_RandomMaps M_Task M_UnitHeaders M_Unit M_Civ M_Tech M_TechTree M_DatFile.
From Coq Require Import ZifyBool.
Open Scope Z_scope.
Local Open Scope list_scope.
Local Notation length := List.length.

(** A reader that decodes [bs], run where it consumed [bs], lost nothing. *)
Lemma decodes_unlost {A} (fb : rd A) v bs h x h' y :
  (forall pre post ls, fb (mkHandler (pre ++ bs ++ post) (length pre) (h_version h) ls)
    = Ok (y, mkHandler (pre ++ bs ++ post) (length pre + length bs) v ls)) ->
  fb h = Ok (x, h') -> consumed h h' bs -> h_losses h' = h_losses h.
Proof.
  intros D E (pre & post & C & O & O'). destruct h as [c o w ls]. cbn [h_content h_offset h_version h_losses] in *.
  subst c o. rewrite D in E. injection E as _ <-. reflexivity.
Qed.
Lemma took_consumed h h' cs bs : (h_offset h <= length (h_content h))%nat ->
  encode cs = Some bs -> took h h' cs -> consumed h h' bs.
Proof.
  intros Ho Eb (b & Eb' & S & O). rewrite Eb in Eb'. injection Eb' as <-.
  exists (firstn (h_offset h) (h_content h)), (skipn (h_offset h') (h_content h)).
  rewrite <- S, firstn_skipn, firstn_length_le by exact Ho. auto.
Qed.

Section Any.
  Context {A : Type} {tb : A -> Version -> res bytes} {fb : rd A} {lay : Version -> A -> list cell}
    {shape : Version -> A -> Prop} {arity : A -> Prop} {C : Codec tb fb lay shape arity}.

  Lemma codec_table : follows_table tb lay arity.
  Proof. intros v x H. exact (c_lay v x H). Qed.
  Lemma codec_round_trip : round_trips tb fb lay shape.
  Proof.
    intros v x [Hc Hs]. destruct (c_parses v x Hs Hc) as (bs & E & R). exists bs. split; [|exact R].
    destruct (tb x v) eqn:Et; pose proof (c_lay v x (c_arity v x Hs)) as L; unfold Lay in L; rewrite Et, E in L; cbn in L; congruence.
  Qed.
  Lemma codec_wf h x h' : fb h = Ok (x, h') -> wf lay shape (h_version h) x.
  Proof.
    intros E. destruct (c_reads (h_version h) h x h' eq_refl E) as (_ & P & cs & (_ & Hc & Hs) & _).
    split; assumption.
  Qed.
  Lemma codec_stable : stable tb fb lay shape.
  Proof.
    intros h x h' E. pose proof (codec_wf h x h' E) as W. split; [exact W|]. apply codec_round_trip, W.
  Qed.
  Lemma codec_re_encodes : re_encodes tb fb.
  Proof.
    intros h x h' Ho E. destruct (c_reads (h_version h) h x h' eq_refl E) as (_ & P & cs & (Hp & Hc & Hs) & T). split.
    - intros Q. destruct (T Q) as (p & Tk). rewrite (Hp p) in Tk. pose proof Tk as (bs & Eb & _). exists bs.
      split; [|exact (took_consumed h h' _ bs Ho Eb Tk)].
      pose proof (c_lay (h_version h) x (c_arity (h_version h) x Hs)) as L. unfold Lay in L. rewrite Eb in L.
      destruct (tb x (h_version h)); cbn in L; congruence.
    - intros (bs & Eb & Cn). destruct (codec_round_trip (h_version h) x (conj Hc Hs)) as (bs' & Eb' & D).
      rewrite Eb in Eb'. injection Eb' as <-.
      exact (decodes_unlost fb _ _ h x h' x D E Cn).
  Qed.
  Lemma codec_only_moves : only_moves fb.
  Proof.
    intros h x h' E. destruct (c_reads (h_version h) h x h' eq_refl E) as ((Hc & Hv & _) & _). auto.
  Qed.
  Lemma codec_prefix_free : prefix_free tb lay shape.
  Proof.
    intros v x y bx by_ r Wx Wy Ex Ey E.
    destruct (codec_round_trip v x Wx) as (b1 & E1 & D1). destruct (codec_round_trip v y Wy) as (b2 & E2 & D2).
    rewrite Ex in E1. injection E1 as <-. rewrite Ey in E2. injection E2 as <-. subst by_.
    pose proof (D1 [] (r ++ []) []) as R1. pose proof (D2 [] [] []) as R2.
    cbn [app] in R1, R2. rewrite app_assoc in R1. rewrite R1 in R2. injection R2 as -> L. split; [reflexivity|].
    rewrite app_length in L. destruct r; [reflexivity|cbn in L; lia].
  Qed.
End Any.

(** ** Data files *)
Lemma wf_arity x : DatFile_wf x -> DatFile_arity x.
Proof.
  intros [_ Hs]. unfold DatFile_shape in Hs. destruct (file_version (DatFile_version x)); [|contradiction].
  destruct Hs as (_ & _ & _ & _ & _ & H & _). eapply Forall_impl; [|exact H]. intros c Hc. eapply c_arity, Hc.
Qed.
Lemma to_bytes_table x w : DatFile_arity x -> returned (DatFile_to_bytes x w) = encode (DatFile_layout x).
Proof. apply DatFile_lay. Qed.
Lemma dat_round_trip x : DatFile_wf x -> exists v bs, file_version (DatFile_version x) = Some v /\
  (forall w, DatFile_to_bytes x w = Ok bs) /\
  forall pre post v0 ls,
    DatFile_from_bytes (mkHandler (pre ++ bs ++ post) (length pre) v0 ls)
    = Ok (x, mkHandler (pre ++ bs ++ post) (length pre + length bs) v ls).
Proof.
  intros H. destruct (DatFile_parses x H) as (v & bs & Ev & E & R). exists v, bs. split; [exact Ev|]. split; [|exact R].
  intros w. pose proof (to_bytes_table x w (wf_arity x H)) as L. rewrite E in L.
  destruct (DatFile_to_bytes x w); cbn in L; congruence.
Qed.
Lemma dat_round_trip_bytes x : DatFile_wf x -> exists bs, to_bytes x = Ok bs /\ from_bytes bs = Ok x /\
  exists h, DatFile_from_bytes (new_handler bs) = Ok (x, h) /\ h_offset h = length bs /\ h_losses h = [].
Proof.
  intros H. destruct (dat_round_trip x H) as (v & bs & Ev & E & R). exists bs. split; [apply E|].
  pose proof (R [] [] UNDEFINED []) as R'. cbn [app] in R'. rewrite app_nil_r in R'.
  unfold from_bytes, new_handler. cbn [length] in R'. rewrite R'. split; [reflexivity|]. eexists. split; [reflexivity|]. split; reflexivity.
Qed.
Lemma from_bytes_wf bs x : from_bytes bs = Ok x -> DatFile_wf x.
Proof.
  unfold from_bytes. destruct (DatFile_from_bytes (new_handler bs)) as [[y h]|] eqn:E; [|discriminate].
  intros H. injection H as ->. apply (DatFile_reads _ _ _ E).
Qed.
Lemma wf_iff_survives x : DatFile_wf x <-> exists bs, to_bytes x = Ok bs /\ from_bytes bs = Ok x.
Proof.
  split.
  - intros H. destruct (dat_round_trip_bytes x H) as (bs & E & F & _). eauto.
  - intros (bs & _ & F). exact (from_bytes_wf bs x F).
Qed.
Lemma wf_iff_loadable x : DatFile_wf x <-> exists bs, from_bytes bs = Ok x.
Proof.
  split.
  - intros H. destruct (dat_round_trip_bytes x H) as (bs & E & F & _). eauto.
  - intros (bs & F). exact (from_bytes_wf bs x F).
Qed.
Lemma dat_fixpoint bs x : from_bytes bs = Ok x ->
  (exists bs', to_bytes x = Ok bs' /\ from_bytes bs' = Ok x) /\ forall n, cycle n x = Ok x.
Proof.
  intros F. pose proof (proj1 (wf_iff_survives x) (from_bytes_wf bs x F)) as H. split; [exact H|].
  destruct H as (b & E & G). intros n. induction n as [|n IH]; [reflexivity|]. cbn [cycle]. rewrite E, G. exact IH.
Qed.

(** *** Byte-exactness *)
Lemma dat_exact_at h x h' : (h_offset h <= length (h_content h))%nat -> DatFile_from_bytes h = Ok (x, h') ->
  (h_losses h' = h_losses h <-> exists bs, to_bytes x = Ok bs /\ consumed h h' bs).
Proof.
  intros Ho E. destruct (DatFile_reads _ _ _ E) as (_ & _ & Ev & W & Q).
  destruct (dat_round_trip x W) as (v & bs & Ev' & Eb & D). split.
  - intros L. specialize (Q L). exists bs. split; [apply Eb|].
    apply (took_consumed h h' (DatFile_layout x) bs Ho); [|exact Q].
    pose proof (to_bytes_table x UNDEFINED (wf_arity x W)) as T. rewrite Eb in T. symmetry. exact T.
  - intros (b & Eb' & C). unfold to_bytes in Eb'. rewrite Eb in Eb'. injection Eb' as <-.
    eapply decodes_unlost; [|exact E|exact C]. intros pre post ls. apply D.
Qed.
Lemma dat_exact bs x h : DatFile_from_bytes (new_handler bs) = Ok (x, h) ->
  (h_losses h = [] <-> exists out, to_bytes x = Ok out /\ h_offset h = length out /\ firstn (h_offset h) bs = out).
Proof.
  intros E. destruct (dat_exact_at (new_handler bs) x h) as [F G]; [cbn; lia|exact E|].
  cbn [new_handler h_losses h_offset h_content] in *. split.
  - intros L. destruct (F L) as (out & T & pre & post & C & O & O'). exists out. split; [exact T|].
    destruct pre; [|discriminate]. cbn [length app Nat.add] in *. split; [exact O'|].
    cbn in C. rewrite O', C, firstn_app, Nat.sub_diag, firstn_all, app_nil_r. reflexivity.
  - intros (out & T & O & S). apply G. exists out. split; [exact T|]. exists [], (skipn (h_offset h) bs).
    split; [|split; [reflexivity|exact O]]. cbn. rewrite <- S. symmetry. apply firstn_skipn.
Qed.
Lemma dat_exact_whole bs x h : DatFile_from_bytes (new_handler bs) = Ok (x, h) ->
  (h_losses h = [] /\ h_offset h = length bs <-> to_bytes x = Ok bs).
Proof.
  intros E. destruct (dat_exact bs x h E) as [F G]. split.
  - intros [L O]. destruct (F L) as (out & T & O' & S). rewrite O, firstn_all in S. congruence.
  - intros T. destruct (dat_round_trip_bytes x) as (b & T' & _ & h2 & R & O & L).
    { eapply from_bytes_wf. unfold from_bytes. rewrite E. reflexivity. }
    rewrite T in T'. injection T' as <-. rewrite E in R. injection R as <-. auto.
Qed.
Lemma dat_prefix_free x y bx by_ r : DatFile_wf x -> DatFile_wf y ->
  to_bytes x = Ok bx -> to_bytes y = Ok by_ -> by_ = bx ++ r -> x = y /\ r = [].
Proof.
  intros Wx Wy Ex Ey E.
  destruct (dat_round_trip x Wx) as (v1 & b1 & _ & E1 & D1). destruct (dat_round_trip y Wy) as (v2 & b2 & _ & E2 & D2).
  unfold to_bytes in *. rewrite E1 in Ex. injection Ex as <-. rewrite E2 in Ey. injection Ey as <-. subst b2.
  pose proof (D1 [] (r ++ []) UNDEFINED []) as R1. pose proof (D2 [] [] UNDEFINED []) as R2.
  cbn [app] in R1, R2. rewrite app_assoc in R1. rewrite R1 in R2. injection R2 as -> L. split; [reflexivity|].
  rewrite app_length in L. destruct r; [reflexivity|cbn in L; lia].
Qed.
