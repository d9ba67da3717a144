(** * Codecs of civs and techs. *)
From Verif Require Import Base PyInt PyFloat PyStr PyStruct DataTypes Versions Common Wire Layout Shape.
From Verif Require Import Codec CodecP CodecF CodecC P_Simple P_Unit P_UnitR.
From Verif Require Import M_Task M_UnitHeaders M_Unit M_Civ M_Tech.
From Coq Require Import ZifyBool.
Open Scope Z_scope.
Local Open Scope list_scope.
Local Notation length := List.length.

#[global] Arguments flags : simpl never.
#[global] Arguments slots : simpl never.

Definition Civ_arity (x : Civ) : Prop := Forall (on_some Unit_arity) (Civ_units x).
Lemma Civ_pointers_flags x : Civ_unit_pointers x = map flag_of (Civ_units x).
Proof. reflexivity. Qed.
#[global] Instance Civ_codec : Codec Civ_to_bytes Civ_from_bytes Civ_layout Civ_shape Civ_arity.
Proof.
  split; intros.
  - eapply Forall_impl; [|exact H]. intros [u|]; [|auto]. intros Hu. apply Hu.
  - unfold Civ_to_bytes, Civ_layout. unfold Civ_arity in H. rewrite Civ_pointers_flags, flags_map. lay_solve.
  - destruct x; unfold Civ_shape in H; unfold Civ_from_bytes, Civ_layout; cbn in *. rewrite flags_map. parses_solve.
    eapply Parses_bind; [apply Parses_i32_array; unfold count; rewrite map_length; reflexivity|]. repeat parses_step.
  - unfold Reads, Civ_from_bytes. repeat fwd_step. apply Fwd_ret. unfold Civ_layout. cbn.
    split; [use_quiet; rewrite flags_map; unfold count; rewrite map_length; reflexivity|split; [solve [ok_cells]|]]. assumption.
Qed.

#[global] Instance ResearchResourceCost_codec : Codec ResearchResourceCost_to_bytes ResearchResourceCost_from_bytes ResearchResourceCost_layout ResearchResourceCost_shape any.
Proof. codec_plain ResearchResourceCost_to_bytes ResearchResourceCost_from_bytes ResearchResourceCost_layout ResearchResourceCost_shape. Qed.
#[global] Instance ResearchLocation_codec : Codec ResearchLocation_to_bytes ResearchLocation_from_bytes ResearchLocation_layout ResearchLocation_shape any.
Proof. codec_plain ResearchLocation_to_bytes ResearchLocation_from_bytes ResearchLocation_layout ResearchLocation_shape. Qed.
#[global] Instance Tech_codec : Codec Tech_to_bytes Tech_from_bytes Tech_layout Tech_shape any.
Proof.
  split; intros.
  - exact I.
  - unfold Tech_to_bytes, Tech_layout. rewrite ge_88. destruct (since 88 v); cbn [app].
    + unfold Tech_to_bytes_88. lay_solve.
    + unfold Tech_to_bytes_84. destruct (Tech_research_locations x) as [|l r] eqn:E.
      * change (truthy (len (@nil ResearchLocation))) with false. cbn [hd rbind]. cbv beta iota zeta. cbn [no_research_location ResearchLocation_location_id ResearchLocation_research_time ResearchLocation_button_id ResearchLocation_hot_key_id]. lay_solve.
      * assert (Et : truthy (len (l :: r)) = true) by (unfold truthy, len; cbn [length]; lia).
        rewrite Et. unfold py_index. cbn [nth_error rbind hd]. cbv beta iota zeta. lay_solve.
  - destruct x; unfold Tech_shape in H; unfold Tech_from_bytes, Tech_layout; cbn in *. split_ands.
    parses_step. rewrite ge_88. destruct (since 88 v) eqn:V.
    + unfold Tech_from_bytes_88. parses_solve.
    + destruct (one_element _ (H1 eq_refl)) as [l ->]. destruct l. cbn.
      unfold Tech_from_bytes_84. parses_solve.
  - unfold Reads, Tech_from_bytes. fwd_step. rewrite ge_88. destruct (since 88 v) eqn:V.
    + unfold Tech_from_bytes_88. repeat fwd_step. apply Fwd_ret; unfold Tech_layout, Tech_shape; rewrite V; cbn. fwd_end0.
      repeat split; try assumption. discriminate.
    + unfold Tech_from_bytes_84. repeat fwd_step. apply Fwd_ret; unfold Tech_layout, Tech_shape; rewrite V; cbn. fwd_end0.
      repeat split; try assumption.
Qed.
