(** * C31: locality of edits.  Generated by tools/gen_local.py. *)
From Verif Require Import Base PyInt PyFloat PyStr PyStruct DataTypes Versions Common Wire Layout Shape Flat Spec Update Edit.
From Verif Require Import M_Sound M_PlayerColour M_Effect M_TerrainRestriction M_Graphic
  M_TerrainBlock M_RandomMaps M_Task M_UnitHeaders M_Unit M_Civ M_Tech M_TechTree M_DatFile.
From Verif Require Import Codec Theory FlatP SizeP Sample Props_Classes Props_Size.
From Coq Require Import ZifyBool.
Open Scope Z_scope.
Local Open Scope list_scope.
Local Notation length := List.length.

(** [g t] is some object with the value [t] put at one place.  Whatever is put there, the
    encoding of the object differs in the bytes of the cell [mk t] only: what is before and
    what is behind is the same for all [t]. *)
Definition stays_local {A T} (tb : A -> Version -> res bytes) (v : Version) (g : T -> A) (mk : T -> cell) : Prop :=
  exists pre post, forall t bs, tb (g t) v = Ok bs -> exists b, cell_bytes (mk t) = Some b /\ bs = pre ++ b ++ post.

(** The same about a table. *)
Definition local {T} (L : T -> list cell) (mk : T -> cell) : Prop :=
  exists pre post, forall t bs, encode (L t) = Some bs -> exists b, cell_bytes (mk t) = Some b /\ bs = pre ++ b ++ post.
Lemma by_table {A} {tb : A -> Version -> res bytes} {lay} : follows_table tb lay always ->
  forall v T (g : T -> A) mk, local (fun t => lay v (g t)) mk -> stays_local tb v g mk.
Proof.
  intros H v T g mk (pre & post & L). exists pre, post. intros t bs E. apply L. rewrite <- (H v (g t) I), E. reflexivity.
Qed.
Lemma to_table {A} {tb : A -> Version -> res bytes} {lay} : follows_table tb lay always ->
  forall v T (g : T -> A) mk, stays_local tb v g mk -> local (fun t => lay v (g t)) mk.
Proof.
  intros H v T g mk (pre & post & L). exists pre, post. intros t bs E. rewrite <- (H v (g t) I) in E.
  destruct (tb (g t) v) as [b|] eqn:F; [|discriminate]. cbn [returned] in E. apply L. congruence.
Qed.
Lemma by_table_if {A} {tb : A -> Version -> res bytes} {lay ar} : follows_table tb lay ar ->
  forall v T (g : T -> A), (forall t, ar (g t)) -> forall mk, local (fun t => lay v (g t)) mk -> stays_local tb v g mk.
Proof.
  intros H v T g Ha mk (pre & post & L). exists pre, post. intros t bs E. apply L. rewrite <- (H v (g t) (Ha t)), E. reflexivity.
Qed.
Section Local.
  Context {T : Type} {mk : T -> cell}.
  Lemma local_ext L L' : (forall t, L t = L' t) -> local L' mk -> local L mk.
  Proof. intros H (pre & post & K). exists pre, post. intros t bs E. rewrite H in E. apply K, E. Qed.
  Lemma local_here rest : local (fun t => mk t :: rest) mk.
  Proof.
    destruct (encode rest) as [r|] eqn:R.
    - exists [], r. intros t bs E. rewrite encode_cons, R in E. destruct (cell_bytes (mk t)) as [b|]; [|discriminate]. exists b. split; [reflexivity|]. injection E as <-. reflexivity.
    - exists [], []. intros t bs E. rewrite encode_cons, R in E. destruct (cell_bytes (mk t)); discriminate.
  Qed.
  Lemma local_app_r A L : local L mk -> local (fun t => A ++ L t) mk.
  Proof.
    intros (pre & post & K). destruct (encode A) as [a|] eqn:EA.
    - exists (a ++ pre), post. intros t bs E. rewrite encode_app, EA in E. destruct (encode (L t)) as [l|] eqn:EL; [|discriminate].
      destruct (K t l EL) as (b & Hb & ->). exists b. split; [exact Hb|]. injection E as <-. rewrite <- app_assoc. reflexivity.
    - exists [], []. intros t bs E. rewrite encode_app, EA in E. discriminate.
  Qed.
  Lemma local_app_l B L : local L mk -> local (fun t => L t ++ B) mk.
  Proof.
    intros (pre & post & K). destruct (encode B) as [r|] eqn:EB.
    - exists pre, (post ++ r). intros t bs E. rewrite encode_app, EB in E. destruct (encode (L t)) as [l|] eqn:EL; [|discriminate].
      destruct (K t l EL) as (b & Hb & ->). exists b. split; [exact Hb|]. injection E as <-.
      rewrite <- !app_assoc. reflexivity.
    - exists [], []. intros t bs E. rewrite encode_app, EB in E. destruct (encode (L t)); discriminate.
  Qed.
  Lemma local_cons c L : local L mk -> local (fun t => c :: L t) mk.
  Proof. intros H. apply (local_app_r [c] L H). Qed.
  Lemma local_guard c L : local L mk -> local (fun t => guard c (L t)) mk.
  Proof. intros H. unfold guard. destruct c; [exact H|]. exists [], []. discriminate. Qed.
  Lemma local_flat {A} (lay : A -> list cell) g i l : local (fun t => lay (g t)) mk -> local (fun t => flat_map lay (set_nth i (g t) l)) mk.
  Proof.
    intros H. apply local_ext with (fun t => flat_map lay (firstn i l) ++ lay (g t) ++ flat_map lay (skipn (S i) l)).
    - intros t. unfold set_nth. rewrite flat_map_app. reflexivity.
    - apply local_app_r, local_app_l, H.
  Qed.
  Lemma local_slots {A} (lay : A -> list cell) g i l : local (fun t => lay (g t)) mk -> local (fun t => slots lay (set_nth i (Some (g t)) l)) mk.
  Proof. intros H. unfold slots. apply (local_flat _ (fun t => Some (g t))), H. Qed.
  Lemma local_map i l : local (fun t => map mk (set_nth i t l)) mk.
  Proof.
    apply local_ext with (fun t => map mk (firstn i l) ++ mk t :: map mk (skipn (S i) l)).
    - intros t. unfold set_nth. rewrite map_app. reflexivity.
    - apply local_app_r, local_here.
  Qed.
  Lemma local_none : local (fun t => [Refuse]) mk.
  Proof. exists [], []. discriminate. Qed.
End Local.
Lemma length_set_nth {A} i (z : A) l : (i < length l)%nat -> length (set_nth i z l) = length l.
Proof. intros H. unfold set_nth. rewrite app_length. cbn [length]. rewrite firstn_length, skipn_length. lia. Qed.
Lemma count_set_nth {A} i (z : A) l : (i < length l)%nat -> count (set_nth i z l) = count l.
Proof. intros H. unfold count. rewrite length_set_nth by exact H. reflexivity. Qed.
Lemma flags_set_nth {A} i (z : A) l : flags (set_nth i (Some z) l) = set_nth i (I32 1) (flags l).
Proof. unfold flags, set_nth. rewrite map_app, firstn_map. cbn [map]. rewrite skipn_map. reflexivity. Qed.
Lemma first_count {T} i (g : T -> TerrainRestriction) n l : (forall t, length (TerrainRestriction_passable_buildable_dmg_multiplier (g t)) = n) -> forall t,
  match set_nth i (g t) l with [] => 0 | first :: _ => count (TerrainRestriction_passable_buildable_dmg_multiplier first) end
  = match set_nth i (Z.of_nat n) (map (fun r => count (TerrainRestriction_passable_buildable_dmg_multiplier r)) l) with [] => 0 | first :: _ => first end.
Proof.
  intros Q t. unfold set_nth. destruct i; cbn [firstn app]; [unfold count; rewrite Q; reflexivity|]. destruct l; [|reflexivity].
  cbn [firstn app map]. unfold count. rewrite Q. reflexivity.
Qed.
Lemma C07_DatFile_table : follows_table DatFile_to_bytes (fun _ => DatFile_flat_layout) always.
Proof. intros w x _. apply C07_DatFile_flat. Qed.
Ltac counts := match goal with |- local ?L _ =>
  match L with
  | context [count (set_nth _ _ _)] => eapply local_ext; [intros t; rewrite count_set_nth by assumption; reflexivity|]
  | context [length (set_nth _ _ _)] => eapply local_ext; [intros t; rewrite length_set_nth by assumption; reflexivity|]
  | context [flags (set_nth _ _ _)] => eapply local_ext; [intros t; rewrite flags_set_nth; reflexivity|]
  end end.
Ltac loc_step := first
  [ apply local_here | apply local_cons | apply local_app_r | apply local_app_l | assumption
  | apply local_map | apply local_flat; assumption | apply local_slots; assumption
  | apply local_guard
  | match goal with |- local (fun t => if ?c then _ else _) _ => destruct c end ].
Ltac loc := unfold exactly, stored, opt_cells; cbv beta iota; repeat counts; repeat loc_step.

Ltac norm_SoundItem := cbn [with_SoundItem_filename with_SoundItem_resource_id with_SoundItem_probability with_SoundItem_civilization with_SoundItem_icon_set SoundItem_filename SoundItem_resource_id SoundItem_probability SoundItem_civilization SoundItem_icon_set] in *.
Ltac open_SoundItem x := destruct x as [a0 a1 a2 a3 a4].
Theorem C31_SoundItem : forall v x, 
  (stays_local SoundItem_to_bytes v (fun t => with_SoundItem_filename t x) Text) /\
  (stays_local SoundItem_to_bytes v (fun t => with_SoundItem_resource_id t x) I32) /\
  (stays_local SoundItem_to_bytes v (fun t => with_SoundItem_probability t x) I16) /\
  (stays_local SoundItem_to_bytes v (fun t => with_SoundItem_civilization t x) I16) /\
  (stays_local SoundItem_to_bytes v (fun t => with_SoundItem_icon_set t x) I16).
Proof.
  intros v x. split; [apply (by_table C07_SoundItem); open_SoundItem x; unfold SoundItem_layout; norm_SoundItem; loc|]. split; [apply (by_table C07_SoundItem); open_SoundItem x; unfold SoundItem_layout; norm_SoundItem; loc|]. split; [apply (by_table C07_SoundItem); open_SoundItem x; unfold SoundItem_layout; norm_SoundItem; loc|]. split; [apply (by_table C07_SoundItem); open_SoundItem x; unfold SoundItem_layout; norm_SoundItem; loc|]. apply (by_table C07_SoundItem); open_SoundItem x; unfold SoundItem_layout; norm_SoundItem; loc.
Qed.
Ltac norm_Sound := cbn [with_Sound_id with_Sound_play_delay with_Sound_cache_time with_Sound_total_probability with_Sound_items Sound_id Sound_play_delay Sound_cache_time Sound_total_probability Sound_items] in *.
Ltac open_Sound x := destruct x as [a0 a1 a2 a3 a4].
Theorem C31_Sound : forall v x, 
  (stays_local Sound_to_bytes v (fun t => with_Sound_id t x) I16) /\
  (stays_local Sound_to_bytes v (fun t => with_Sound_play_delay t x) I16) /\
  (stays_local Sound_to_bytes v (fun t => with_Sound_cache_time t x) I32) /\
  (stays_local Sound_to_bytes v (fun t => with_Sound_total_probability t x) I16).
Proof.
  intros v x. split; [apply (by_table C07_Sound); open_Sound x; unfold Sound_layout; norm_Sound; loc|]. split; [apply (by_table C07_Sound); open_Sound x; unfold Sound_layout; norm_Sound; loc|]. split; [apply (by_table C07_Sound); open_Sound x; unfold Sound_layout; norm_Sound; loc|]. apply (by_table C07_Sound); open_Sound x; unfold Sound_layout; norm_Sound; loc.
Qed.
Theorem C31_Sound_parts : forall v x, 
  (forall i T (g : T -> SoundItem) mk, (i < length (Sound_items x))%nat -> stays_local SoundItem_to_bytes v g mk ->
     stays_local Sound_to_bytes v (fun t => with_Sound_items (set_nth i (g t) (Sound_items x)) x) mk).
Proof.
  intros v x.  intros i T g mk Hi G; apply (to_table C07_SoundItem) in G; apply (by_table C07_Sound); open_Sound x; unfold Sound_layout; norm_Sound; loc.
Qed.
Ltac norm_PlayerColour := cbn [with_PlayerColour_id with_PlayerColour_player_color_base with_PlayerColour_unit_outline_color with_PlayerColour_unit_selection_color_1 with_PlayerColour_unit_selection_color_2 with_PlayerColour_minimap_color with_PlayerColour_minimap_color_2 with_PlayerColour_minimap_color_3 with_PlayerColour_statistics_text PlayerColour_id PlayerColour_player_color_base PlayerColour_unit_outline_color PlayerColour_unit_selection_color_1 PlayerColour_unit_selection_color_2 PlayerColour_minimap_color PlayerColour_minimap_color_2 PlayerColour_minimap_color_3 PlayerColour_statistics_text] in *.
Ltac open_PlayerColour x := destruct x as [a0 a1 a2 a3 a4 a5 a6 a7 a8].
Theorem C31_PlayerColour : forall v x, 
  (stays_local PlayerColour_to_bytes v (fun t => with_PlayerColour_id t x) I32) /\
  (stays_local PlayerColour_to_bytes v (fun t => with_PlayerColour_player_color_base t x) I32) /\
  (stays_local PlayerColour_to_bytes v (fun t => with_PlayerColour_unit_outline_color t x) I32) /\
  (stays_local PlayerColour_to_bytes v (fun t => with_PlayerColour_unit_selection_color_1 t x) I32) /\
  (stays_local PlayerColour_to_bytes v (fun t => with_PlayerColour_unit_selection_color_2 t x) I32) /\
  (stays_local PlayerColour_to_bytes v (fun t => with_PlayerColour_minimap_color t x) I32) /\
  (stays_local PlayerColour_to_bytes v (fun t => with_PlayerColour_minimap_color_2 t x) I32) /\
  (stays_local PlayerColour_to_bytes v (fun t => with_PlayerColour_minimap_color_3 t x) I32) /\
  (stays_local PlayerColour_to_bytes v (fun t => with_PlayerColour_statistics_text t x) I32).
Proof.
  intros v x. split; [apply (by_table C07_PlayerColour); open_PlayerColour x; unfold PlayerColour_layout; norm_PlayerColour; loc|]. split; [apply (by_table C07_PlayerColour); open_PlayerColour x; unfold PlayerColour_layout; norm_PlayerColour; loc|]. split; [apply (by_table C07_PlayerColour); open_PlayerColour x; unfold PlayerColour_layout; norm_PlayerColour; loc|]. split; [apply (by_table C07_PlayerColour); open_PlayerColour x; unfold PlayerColour_layout; norm_PlayerColour; loc|]. split; [apply (by_table C07_PlayerColour); open_PlayerColour x; unfold PlayerColour_layout; norm_PlayerColour; loc|]. split; [apply (by_table C07_PlayerColour); open_PlayerColour x; unfold PlayerColour_layout; norm_PlayerColour; loc|]. split; [apply (by_table C07_PlayerColour); open_PlayerColour x; unfold PlayerColour_layout; norm_PlayerColour; loc|]. split; [apply (by_table C07_PlayerColour); open_PlayerColour x; unfold PlayerColour_layout; norm_PlayerColour; loc|]. apply (by_table C07_PlayerColour); open_PlayerColour x; unfold PlayerColour_layout; norm_PlayerColour; loc.
Qed.
Ltac norm_EffectCommand := cbn [with_EffectCommand_type with_EffectCommand_a with_EffectCommand_b with_EffectCommand_c with_EffectCommand_d EffectCommand_type EffectCommand_a EffectCommand_b EffectCommand_c EffectCommand_d] in *.
Ltac open_EffectCommand x := destruct x as [a0 a1 a2 a3 a4].
Theorem C31_EffectCommand : forall v x, 
  (stays_local EffectCommand_to_bytes v (fun t => with_EffectCommand_type t x) U8) /\
  (stays_local EffectCommand_to_bytes v (fun t => with_EffectCommand_a t x) I16) /\
  (stays_local EffectCommand_to_bytes v (fun t => with_EffectCommand_b t x) I16) /\
  (stays_local EffectCommand_to_bytes v (fun t => with_EffectCommand_c t x) I16) /\
  (stays_local EffectCommand_to_bytes v (fun t => with_EffectCommand_d t x) F32).
Proof.
  intros v x. split; [apply (by_table C07_EffectCommand); open_EffectCommand x; unfold EffectCommand_layout; norm_EffectCommand; loc|]. split; [apply (by_table C07_EffectCommand); open_EffectCommand x; unfold EffectCommand_layout; norm_EffectCommand; loc|]. split; [apply (by_table C07_EffectCommand); open_EffectCommand x; unfold EffectCommand_layout; norm_EffectCommand; loc|]. split; [apply (by_table C07_EffectCommand); open_EffectCommand x; unfold EffectCommand_layout; norm_EffectCommand; loc|]. apply (by_table C07_EffectCommand); open_EffectCommand x; unfold EffectCommand_layout; norm_EffectCommand; loc.
Qed.
Ltac norm_Effect := cbn [with_Effect_name with_Effect_effect_commands Effect_name Effect_effect_commands] in *.
Ltac open_Effect x := destruct x as [a0 a1].
Theorem C31_Effect : forall v x, 
  (stays_local Effect_to_bytes v (fun t => with_Effect_name t x) Text).
Proof.
  intros v x.  apply (by_table C07_Effect); open_Effect x; unfold Effect_layout; norm_Effect; loc.
Qed.
Theorem C31_Effect_parts : forall v x, 
  (forall i T (g : T -> EffectCommand) mk, (i < length (Effect_effect_commands x))%nat -> stays_local EffectCommand_to_bytes v g mk ->
     stays_local Effect_to_bytes v (fun t => with_Effect_effect_commands (set_nth i (g t) (Effect_effect_commands x)) x) mk).
Proof.
  intros v x.  intros i T g mk Hi G; apply (to_table C07_EffectCommand) in G; apply (by_table C07_Effect); open_Effect x; unfold Effect_layout; norm_Effect; loc.
Qed.
Ltac norm_TerrainPassGraphic := cbn [with_TerrainPassGraphic_exit_tile_sprite_id with_TerrainPassGraphic_enter_tile_sprite_id with_TerrainPassGraphic_walk_tile_sprite_id with_TerrainPassGraphic_walk_sprite_rate TerrainPassGraphic_exit_tile_sprite_id TerrainPassGraphic_enter_tile_sprite_id TerrainPassGraphic_walk_tile_sprite_id TerrainPassGraphic_walk_sprite_rate] in *.
Ltac open_TerrainPassGraphic x := destruct x as [a0 a1 a2 a3].
Theorem C31_TerrainPassGraphic : forall v x, 
  (stays_local TerrainPassGraphic_to_bytes v (fun t => with_TerrainPassGraphic_exit_tile_sprite_id t x) I32) /\
  (stays_local TerrainPassGraphic_to_bytes v (fun t => with_TerrainPassGraphic_enter_tile_sprite_id t x) I32) /\
  (stays_local TerrainPassGraphic_to_bytes v (fun t => with_TerrainPassGraphic_walk_tile_sprite_id t x) I32) /\
  (stays_local TerrainPassGraphic_to_bytes v (fun t => with_TerrainPassGraphic_walk_sprite_rate t x) I32).
Proof.
  intros v x. split; [apply (by_table C07_TerrainPassGraphic); open_TerrainPassGraphic x; unfold TerrainPassGraphic_layout; norm_TerrainPassGraphic; loc|]. split; [apply (by_table C07_TerrainPassGraphic); open_TerrainPassGraphic x; unfold TerrainPassGraphic_layout; norm_TerrainPassGraphic; loc|]. split; [apply (by_table C07_TerrainPassGraphic); open_TerrainPassGraphic x; unfold TerrainPassGraphic_layout; norm_TerrainPassGraphic; loc|]. apply (by_table C07_TerrainPassGraphic); open_TerrainPassGraphic x; unfold TerrainPassGraphic_layout; norm_TerrainPassGraphic; loc.
Qed.
Ltac norm_TerrainRestriction := cbn [with_TerrainRestriction_passable_buildable_dmg_multiplier with_TerrainRestriction_terrain_pass_graphics TerrainRestriction_passable_buildable_dmg_multiplier TerrainRestriction_terrain_pass_graphics] in *.
Ltac open_TerrainRestriction x := destruct x as [a0 a1].
Theorem C31_TerrainRestriction : forall v x, 
  (forall i, (i < length (TerrainRestriction_passable_buildable_dmg_multiplier x))%nat -> stays_local TerrainRestriction_to_bytes v (fun t => with_TerrainRestriction_passable_buildable_dmg_multiplier (set_nth i t (TerrainRestriction_passable_buildable_dmg_multiplier x)) x) F32).
Proof.
  intros v x.  intros i Hi; apply (by_table C07_TerrainRestriction); open_TerrainRestriction x; unfold TerrainRestriction_layout; norm_TerrainRestriction; loc.
Qed.
Theorem C31_TerrainRestriction_parts : forall v x, 
  (forall i T (g : T -> TerrainPassGraphic) mk, (i < length (TerrainRestriction_terrain_pass_graphics x))%nat -> stays_local TerrainPassGraphic_to_bytes v g mk ->
     stays_local TerrainRestriction_to_bytes v (fun t => with_TerrainRestriction_terrain_pass_graphics (set_nth i (g t) (TerrainRestriction_terrain_pass_graphics x)) x) mk).
Proof.
  intros v x.  intros i T g mk Hi G; apply (to_table C07_TerrainPassGraphic) in G; apply (by_table C07_TerrainRestriction); open_TerrainRestriction x; unfold TerrainRestriction_layout; norm_TerrainRestriction; loc.
Qed.
Ltac norm_GraphicDelta := cbn [with_GraphicDelta_graphic_id with_GraphicDelta_padding_1 with_GraphicDelta_sprite_ptr with_GraphicDelta_offset_x with_GraphicDelta_offset_y with_GraphicDelta_display_angle with_GraphicDelta_padding_2 GraphicDelta_graphic_id GraphicDelta_padding_1 GraphicDelta_sprite_ptr GraphicDelta_offset_x GraphicDelta_offset_y GraphicDelta_display_angle GraphicDelta_padding_2] in *.
Ltac open_GraphicDelta x := destruct x as [a0 a1 a2 a3 a4 a5 a6].
Theorem C31_GraphicDelta : forall v x, 
  (stays_local GraphicDelta_to_bytes v (fun t => with_GraphicDelta_graphic_id t x) I16) /\
  (stays_local GraphicDelta_to_bytes v (fun t => with_GraphicDelta_padding_1 t x) I16) /\
  (stays_local GraphicDelta_to_bytes v (fun t => with_GraphicDelta_sprite_ptr t x) I32) /\
  (stays_local GraphicDelta_to_bytes v (fun t => with_GraphicDelta_offset_x t x) I16) /\
  (stays_local GraphicDelta_to_bytes v (fun t => with_GraphicDelta_offset_y t x) I16) /\
  (stays_local GraphicDelta_to_bytes v (fun t => with_GraphicDelta_display_angle t x) I16) /\
  (stays_local GraphicDelta_to_bytes v (fun t => with_GraphicDelta_padding_2 t x) I16).
Proof.
  intros v x. split; [apply (by_table C07_GraphicDelta); open_GraphicDelta x; unfold GraphicDelta_layout; norm_GraphicDelta; loc|]. split; [apply (by_table C07_GraphicDelta); open_GraphicDelta x; unfold GraphicDelta_layout; norm_GraphicDelta; loc|]. split; [apply (by_table C07_GraphicDelta); open_GraphicDelta x; unfold GraphicDelta_layout; norm_GraphicDelta; loc|]. split; [apply (by_table C07_GraphicDelta); open_GraphicDelta x; unfold GraphicDelta_layout; norm_GraphicDelta; loc|]. split; [apply (by_table C07_GraphicDelta); open_GraphicDelta x; unfold GraphicDelta_layout; norm_GraphicDelta; loc|]. split; [apply (by_table C07_GraphicDelta); open_GraphicDelta x; unfold GraphicDelta_layout; norm_GraphicDelta; loc|]. apply (by_table C07_GraphicDelta); open_GraphicDelta x; unfold GraphicDelta_layout; norm_GraphicDelta; loc.
Qed.
Ltac norm_GraphicAngleSound := cbn [with_GraphicAngleSound_frame_num with_GraphicAngleSound_sound_id with_GraphicAngleSound_wwise_sound_id with_GraphicAngleSound_frame_num_2 with_GraphicAngleSound_sound_id_2 with_GraphicAngleSound_wwise_sound_id_2 with_GraphicAngleSound_frame_num_3 with_GraphicAngleSound_sound_id_3 with_GraphicAngleSound_wwise_sound_id_3 GraphicAngleSound_frame_num GraphicAngleSound_sound_id GraphicAngleSound_wwise_sound_id GraphicAngleSound_frame_num_2 GraphicAngleSound_sound_id_2 GraphicAngleSound_wwise_sound_id_2 GraphicAngleSound_frame_num_3 GraphicAngleSound_sound_id_3 GraphicAngleSound_wwise_sound_id_3] in *.
Ltac open_GraphicAngleSound x := destruct x as [a0 a1 a2 a3 a4 a5 a6 a7 a8].
Theorem C31_GraphicAngleSound : forall v x, 
  (stays_local GraphicAngleSound_to_bytes v (fun t => with_GraphicAngleSound_frame_num t x) I16) /\
  (stays_local GraphicAngleSound_to_bytes v (fun t => with_GraphicAngleSound_sound_id t x) I16) /\
  (stays_local GraphicAngleSound_to_bytes v (fun t => with_GraphicAngleSound_wwise_sound_id t x) I32) /\
  (stays_local GraphicAngleSound_to_bytes v (fun t => with_GraphicAngleSound_frame_num_2 t x) I16) /\
  (stays_local GraphicAngleSound_to_bytes v (fun t => with_GraphicAngleSound_sound_id_2 t x) I16) /\
  (stays_local GraphicAngleSound_to_bytes v (fun t => with_GraphicAngleSound_wwise_sound_id_2 t x) I32) /\
  (stays_local GraphicAngleSound_to_bytes v (fun t => with_GraphicAngleSound_frame_num_3 t x) I16) /\
  (stays_local GraphicAngleSound_to_bytes v (fun t => with_GraphicAngleSound_sound_id_3 t x) I16) /\
  (stays_local GraphicAngleSound_to_bytes v (fun t => with_GraphicAngleSound_wwise_sound_id_3 t x) I32).
Proof.
  intros v x. split; [apply (by_table C07_GraphicAngleSound); open_GraphicAngleSound x; unfold GraphicAngleSound_layout; norm_GraphicAngleSound; loc|]. split; [apply (by_table C07_GraphicAngleSound); open_GraphicAngleSound x; unfold GraphicAngleSound_layout; norm_GraphicAngleSound; loc|]. split; [apply (by_table C07_GraphicAngleSound); open_GraphicAngleSound x; unfold GraphicAngleSound_layout; norm_GraphicAngleSound; loc|]. split; [apply (by_table C07_GraphicAngleSound); open_GraphicAngleSound x; unfold GraphicAngleSound_layout; norm_GraphicAngleSound; loc|]. split; [apply (by_table C07_GraphicAngleSound); open_GraphicAngleSound x; unfold GraphicAngleSound_layout; norm_GraphicAngleSound; loc|]. split; [apply (by_table C07_GraphicAngleSound); open_GraphicAngleSound x; unfold GraphicAngleSound_layout; norm_GraphicAngleSound; loc|]. split; [apply (by_table C07_GraphicAngleSound); open_GraphicAngleSound x; unfold GraphicAngleSound_layout; norm_GraphicAngleSound; loc|]. split; [apply (by_table C07_GraphicAngleSound); open_GraphicAngleSound x; unfold GraphicAngleSound_layout; norm_GraphicAngleSound; loc|]. apply (by_table C07_GraphicAngleSound); open_GraphicAngleSound x; unfold GraphicAngleSound_layout; norm_GraphicAngleSound; loc.
Qed.
Ltac norm_Graphic := cbn [with_Graphic_name with_Graphic_file_name with_Graphic_particle_effect_name with_Graphic_slp with_Graphic_is_loaded with_Graphic_old_color_flag with_Graphic_layer with_Graphic_player_color with_Graphic_transparent_selection with_Graphic_coordinates with_Graphic_sound_id with_Graphic_wwise_sound_id with_Graphic_angle_sounds_used with_Graphic_frame_count with_Graphic_angle_count with_Graphic_speed_multiplier with_Graphic_frame_duration with_Graphic_replay_delay with_Graphic_sequence_type with_Graphic_id with_Graphic_mirroring_mode with_Graphic_editor_flag with_Graphic_deltas with_Graphic_angle_sounds Graphic_name Graphic_file_name Graphic_particle_effect_name Graphic_slp Graphic_is_loaded Graphic_old_color_flag Graphic_layer Graphic_player_color Graphic_transparent_selection Graphic_coordinates Graphic_sound_id Graphic_wwise_sound_id Graphic_angle_sounds_used Graphic_frame_count Graphic_angle_count Graphic_speed_multiplier Graphic_frame_duration Graphic_replay_delay Graphic_sequence_type Graphic_id Graphic_mirroring_mode Graphic_editor_flag Graphic_deltas Graphic_angle_sounds] in *.
Ltac open_Graphic x := destruct x as [a0 a1 a2 a3 a4 a5 a6 a7 a8 a9 a10 a11 a12 a13 a14 a15 a16 a17 a18 a19 a20 a21 a22 a23].
Theorem C31_Graphic : forall v x, 
  (stays_local Graphic_to_bytes v (fun t => with_Graphic_name t x) Text) /\
  (stays_local Graphic_to_bytes v (fun t => with_Graphic_file_name t x) Text) /\
  (stays_local Graphic_to_bytes v (fun t => with_Graphic_particle_effect_name t x) Text) /\
  (stays_local Graphic_to_bytes v (fun t => with_Graphic_slp t x) I32) /\
  (stays_local Graphic_to_bytes v (fun t => with_Graphic_is_loaded t x) U8) /\
  (stays_local Graphic_to_bytes v (fun t => with_Graphic_old_color_flag t x) U8) /\
  (stays_local Graphic_to_bytes v (fun t => with_Graphic_layer t x) U8) /\
  (stays_local Graphic_to_bytes v (fun t => with_Graphic_player_color t x) I16) /\
  (stays_local Graphic_to_bytes v (fun t => with_Graphic_transparent_selection t x) U8) /\
  (forall i, (i < length (Graphic_coordinates x))%nat -> stays_local Graphic_to_bytes v (fun t => with_Graphic_coordinates (set_nth i t (Graphic_coordinates x)) x) I16) /\
  (stays_local Graphic_to_bytes v (fun t => with_Graphic_sound_id t x) I16) /\
  (stays_local Graphic_to_bytes v (fun t => with_Graphic_wwise_sound_id t x) I32) /\
  (stays_local Graphic_to_bytes v (fun t => with_Graphic_angle_sounds_used t x) U8) /\
  (stays_local Graphic_to_bytes v (fun t => with_Graphic_frame_count t x) I16) /\
  (stays_local Graphic_to_bytes v (fun t => with_Graphic_angle_count t x) I16) /\
  (stays_local Graphic_to_bytes v (fun t => with_Graphic_speed_multiplier t x) F32) /\
  (stays_local Graphic_to_bytes v (fun t => with_Graphic_frame_duration t x) F32) /\
  (stays_local Graphic_to_bytes v (fun t => with_Graphic_replay_delay t x) F32) /\
  (stays_local Graphic_to_bytes v (fun t => with_Graphic_sequence_type t x) U8) /\
  (stays_local Graphic_to_bytes v (fun t => with_Graphic_id t x) I16) /\
  (stays_local Graphic_to_bytes v (fun t => with_Graphic_mirroring_mode t x) U8) /\
  (stays_local Graphic_to_bytes v (fun t => with_Graphic_editor_flag t x) U8).
Proof.
  intros v x. split; [apply (by_table C07_Graphic); open_Graphic x; unfold Graphic_layout; norm_Graphic; loc|]. split; [apply (by_table C07_Graphic); open_Graphic x; unfold Graphic_layout; norm_Graphic; loc|]. split; [apply (by_table C07_Graphic); open_Graphic x; unfold Graphic_layout; norm_Graphic; loc|]. split; [apply (by_table C07_Graphic); open_Graphic x; unfold Graphic_layout; norm_Graphic; loc|]. split; [apply (by_table C07_Graphic); open_Graphic x; unfold Graphic_layout; norm_Graphic; loc|]. split; [apply (by_table C07_Graphic); open_Graphic x; unfold Graphic_layout; norm_Graphic; loc|]. split; [apply (by_table C07_Graphic); open_Graphic x; unfold Graphic_layout; norm_Graphic; loc|]. split; [apply (by_table C07_Graphic); open_Graphic x; unfold Graphic_layout; norm_Graphic; loc|]. split; [apply (by_table C07_Graphic); open_Graphic x; unfold Graphic_layout; norm_Graphic; loc|]. split; [intros i Hi; apply (by_table C07_Graphic); open_Graphic x; unfold Graphic_layout; norm_Graphic; loc|]. split; [apply (by_table C07_Graphic); open_Graphic x; unfold Graphic_layout; norm_Graphic; loc|]. split; [apply (by_table C07_Graphic); open_Graphic x; unfold Graphic_layout; norm_Graphic; loc|]. split; [apply (by_table C07_Graphic); open_Graphic x; unfold Graphic_layout; norm_Graphic; loc|]. split; [apply (by_table C07_Graphic); open_Graphic x; unfold Graphic_layout; norm_Graphic; loc|]. split; [apply (by_table C07_Graphic); open_Graphic x; unfold Graphic_layout; norm_Graphic; loc|]. split; [apply (by_table C07_Graphic); open_Graphic x; unfold Graphic_layout; norm_Graphic; loc|]. split; [apply (by_table C07_Graphic); open_Graphic x; unfold Graphic_layout; norm_Graphic; loc|]. split; [apply (by_table C07_Graphic); open_Graphic x; unfold Graphic_layout; norm_Graphic; loc|]. split; [apply (by_table C07_Graphic); open_Graphic x; unfold Graphic_layout; norm_Graphic; loc|]. split; [apply (by_table C07_Graphic); open_Graphic x; unfold Graphic_layout; norm_Graphic; loc|]. split; [apply (by_table C07_Graphic); open_Graphic x; unfold Graphic_layout; norm_Graphic; loc|]. apply (by_table C07_Graphic); open_Graphic x; unfold Graphic_layout; norm_Graphic; loc.
Qed.
Theorem C31_Graphic_parts : forall v x, 
  (forall i T (g : T -> GraphicDelta) mk, (i < length (Graphic_deltas x))%nat -> stays_local GraphicDelta_to_bytes v g mk ->
     stays_local Graphic_to_bytes v (fun t => with_Graphic_deltas (set_nth i (g t) (Graphic_deltas x)) x) mk) /\
  (forall i T (g : T -> GraphicAngleSound) mk, (i < length (Graphic_angle_sounds x))%nat -> stays_local GraphicAngleSound_to_bytes v g mk ->
     stays_local Graphic_to_bytes v (fun t => with_Graphic_angle_sounds (set_nth i (g t) (Graphic_angle_sounds x)) x) mk).
Proof.
  intros v x. split; [intros i T g mk Hi G; apply (to_table C07_GraphicDelta) in G; apply (by_table C07_Graphic); open_Graphic x; unfold Graphic_layout; norm_Graphic; loc|]. intros i T g mk Hi G; apply (to_table C07_GraphicAngleSound) in G; apply (by_table C07_Graphic); open_Graphic x; unfold Graphic_layout; norm_Graphic; loc.
Qed.
Ltac norm_FrameData := cbn [with_FrameData_frame_count with_FrameData_angle_count with_FrameData_shape_id FrameData_frame_count FrameData_angle_count FrameData_shape_id] in *.
Ltac open_FrameData x := destruct x as [a0 a1 a2].
Theorem C31_FrameData : forall v x, 
  (stays_local FrameData_to_bytes v (fun t => with_FrameData_frame_count t x) I16) /\
  (stays_local FrameData_to_bytes v (fun t => with_FrameData_angle_count t x) I16) /\
  (stays_local FrameData_to_bytes v (fun t => with_FrameData_shape_id t x) I16).
Proof.
  intros v x. split; [apply (by_table C07_FrameData); open_FrameData x; unfold FrameData_layout; norm_FrameData; loc|]. split; [apply (by_table C07_FrameData); open_FrameData x; unfold FrameData_layout; norm_FrameData; loc|]. apply (by_table C07_FrameData); open_FrameData x; unfold FrameData_layout; norm_FrameData; loc.
Qed.
Ltac norm_Terrain := cbn [with_Terrain_enabled with_Terrain_random with_Terrain_is_water with_Terrain_hide_in_editor with_Terrain_string_id with_Terrain_name with_Terrain_name_2 with_Terrain_slp with_Terrain_shape_ptr with_Terrain_sound_id with_Terrain_wwise_sound_id with_Terrain_wwise_sound_stop_id with_Terrain_blend_priority with_Terrain_blend_type with_Terrain_overlay_mask_name with_Terrain_colors with_Terrain_cliff_colors with_Terrain_passable_terrain with_Terrain_impassable_terrain with_Terrain_is_animated with_Terrain_animation_frames with_Terrain_pause_frames with_Terrain_interval with_Terrain_pause_between_loops with_Terrain_frame with_Terrain_draw_frame with_Terrain_animate_last with_Terrain_frame_changed with_Terrain_drawn with_Terrain_frame_data with_Terrain_terrain_to_draw with_Terrain_terrain_dimensions with_Terrain_terrain_unit_masked_density with_Terrain_terrain_unit_id with_Terrain_terrain_unit_density with_Terrain_terrain_unit_centering with_Terrain_number_of_terrain_units_used with_Terrain_phantom Terrain_enabled Terrain_random Terrain_is_water Terrain_hide_in_editor Terrain_string_id Terrain_name Terrain_name_2 Terrain_slp Terrain_shape_ptr Terrain_sound_id Terrain_wwise_sound_id Terrain_wwise_sound_stop_id Terrain_blend_priority Terrain_blend_type Terrain_overlay_mask_name Terrain_colors Terrain_cliff_colors Terrain_passable_terrain Terrain_impassable_terrain Terrain_is_animated Terrain_animation_frames Terrain_pause_frames Terrain_interval Terrain_pause_between_loops Terrain_frame Terrain_draw_frame Terrain_animate_last Terrain_frame_changed Terrain_drawn Terrain_frame_data Terrain_terrain_to_draw Terrain_terrain_dimensions Terrain_terrain_unit_masked_density Terrain_terrain_unit_id Terrain_terrain_unit_density Terrain_terrain_unit_centering Terrain_number_of_terrain_units_used Terrain_phantom] in *.
Ltac open_Terrain x := destruct x as [a0 a1 a2 a3 a4 a5 a6 a7 a8 a9 a10 a11 a12 a13 a14 a15 a16 a17 a18 a19 a20 a21 a22 a23 a24 a25 a26 a27 a28 a29 a30 a31 a32 a33 a34 a35 a36 a37].
Theorem C31_Terrain : forall v x, 
  (stays_local Terrain_to_bytes v (fun t => with_Terrain_enabled t x) U8) /\
  (stays_local Terrain_to_bytes v (fun t => with_Terrain_random t x) U8) /\
  (stays_local Terrain_to_bytes v (fun t => with_Terrain_is_water t x) U8) /\
  (stays_local Terrain_to_bytes v (fun t => with_Terrain_hide_in_editor t x) U8) /\
  (stays_local Terrain_to_bytes v (fun t => with_Terrain_string_id t x) I32) /\
  (stays_local Terrain_to_bytes v (fun t => with_Terrain_name t x) Text) /\
  (stays_local Terrain_to_bytes v (fun t => with_Terrain_name_2 t x) Text) /\
  (stays_local Terrain_to_bytes v (fun t => with_Terrain_slp t x) I32) /\
  (stays_local Terrain_to_bytes v (fun t => with_Terrain_shape_ptr t x) I32) /\
  (stays_local Terrain_to_bytes v (fun t => with_Terrain_sound_id t x) I32) /\
  (stays_local Terrain_to_bytes v (fun t => with_Terrain_wwise_sound_id t x) U32) /\
  (stays_local Terrain_to_bytes v (fun t => with_Terrain_wwise_sound_stop_id t x) U32) /\
  (stays_local Terrain_to_bytes v (fun t => with_Terrain_blend_priority t x) I32) /\
  (stays_local Terrain_to_bytes v (fun t => with_Terrain_blend_type t x) I32) /\
  (stays_local Terrain_to_bytes v (fun t => with_Terrain_overlay_mask_name t x) Text) /\
  (forall i, (i < length (Terrain_colors x))%nat -> stays_local Terrain_to_bytes v (fun t => with_Terrain_colors (set_nth i t (Terrain_colors x)) x) U8) /\
  (forall i, (i < length (Terrain_cliff_colors x))%nat -> stays_local Terrain_to_bytes v (fun t => with_Terrain_cliff_colors (set_nth i t (Terrain_cliff_colors x)) x) U8) /\
  (stays_local Terrain_to_bytes v (fun t => with_Terrain_passable_terrain t x) U8) /\
  (stays_local Terrain_to_bytes v (fun t => with_Terrain_impassable_terrain t x) U8) /\
  (stays_local Terrain_to_bytes v (fun t => with_Terrain_is_animated t x) U8) /\
  (stays_local Terrain_to_bytes v (fun t => with_Terrain_animation_frames t x) I16) /\
  (stays_local Terrain_to_bytes v (fun t => with_Terrain_pause_frames t x) I16) /\
  (stays_local Terrain_to_bytes v (fun t => with_Terrain_interval t x) F32) /\
  (stays_local Terrain_to_bytes v (fun t => with_Terrain_pause_between_loops t x) F32) /\
  (stays_local Terrain_to_bytes v (fun t => with_Terrain_frame t x) I16) /\
  (stays_local Terrain_to_bytes v (fun t => with_Terrain_draw_frame t x) I16) /\
  (stays_local Terrain_to_bytes v (fun t => with_Terrain_animate_last t x) F32) /\
  (stays_local Terrain_to_bytes v (fun t => with_Terrain_frame_changed t x) U8) /\
  (stays_local Terrain_to_bytes v (fun t => with_Terrain_drawn t x) U8) /\
  (stays_local Terrain_to_bytes v (fun t => with_Terrain_terrain_to_draw t x) I16) /\
  (forall i, (i < length (Terrain_terrain_dimensions x))%nat -> stays_local Terrain_to_bytes v (fun t => with_Terrain_terrain_dimensions (set_nth i t (Terrain_terrain_dimensions x)) x) I16) /\
  (forall i, (i < length (Terrain_terrain_unit_masked_density x))%nat -> stays_local Terrain_to_bytes v (fun t => with_Terrain_terrain_unit_masked_density (set_nth i t (Terrain_terrain_unit_masked_density x)) x) I16) /\
  (forall i, (i < length (Terrain_terrain_unit_id x))%nat -> stays_local Terrain_to_bytes v (fun t => with_Terrain_terrain_unit_id (set_nth i t (Terrain_terrain_unit_id x)) x) I16) /\
  (forall i, (i < length (Terrain_terrain_unit_density x))%nat -> stays_local Terrain_to_bytes v (fun t => with_Terrain_terrain_unit_density (set_nth i t (Terrain_terrain_unit_density x)) x) I16) /\
  (forall i, (i < length (Terrain_terrain_unit_centering x))%nat -> stays_local Terrain_to_bytes v (fun t => with_Terrain_terrain_unit_centering (set_nth i t (Terrain_terrain_unit_centering x)) x) U8) /\
  (stays_local Terrain_to_bytes v (fun t => with_Terrain_number_of_terrain_units_used t x) I16) /\
  (stays_local Terrain_to_bytes v (fun t => with_Terrain_phantom t x) I16).
Proof.
  intros v x. split; [apply (by_table C07_Terrain); open_Terrain x; unfold Terrain_layout; norm_Terrain; loc|]. split; [apply (by_table C07_Terrain); open_Terrain x; unfold Terrain_layout; norm_Terrain; loc|]. split; [apply (by_table C07_Terrain); open_Terrain x; unfold Terrain_layout; norm_Terrain; loc|]. split; [apply (by_table C07_Terrain); open_Terrain x; unfold Terrain_layout; norm_Terrain; loc|]. split; [apply (by_table C07_Terrain); open_Terrain x; unfold Terrain_layout; norm_Terrain; loc|]. split; [apply (by_table C07_Terrain); open_Terrain x; unfold Terrain_layout; norm_Terrain; loc|]. split; [apply (by_table C07_Terrain); open_Terrain x; unfold Terrain_layout; norm_Terrain; loc|]. split; [apply (by_table C07_Terrain); open_Terrain x; unfold Terrain_layout; norm_Terrain; loc|]. split; [apply (by_table C07_Terrain); open_Terrain x; unfold Terrain_layout; norm_Terrain; loc|]. split; [apply (by_table C07_Terrain); open_Terrain x; unfold Terrain_layout; norm_Terrain; loc|]. split; [apply (by_table C07_Terrain); open_Terrain x; unfold Terrain_layout; norm_Terrain; loc|]. split; [apply (by_table C07_Terrain); open_Terrain x; unfold Terrain_layout; norm_Terrain; loc|]. split; [apply (by_table C07_Terrain); open_Terrain x; unfold Terrain_layout; norm_Terrain; loc|]. split; [apply (by_table C07_Terrain); open_Terrain x; unfold Terrain_layout; norm_Terrain; loc|]. split; [apply (by_table C07_Terrain); open_Terrain x; unfold Terrain_layout; norm_Terrain; loc|]. split; [intros i Hi; apply (by_table C07_Terrain); open_Terrain x; unfold Terrain_layout; norm_Terrain; loc|]. split; [intros i Hi; apply (by_table C07_Terrain); open_Terrain x; unfold Terrain_layout; norm_Terrain; loc|]. split; [apply (by_table C07_Terrain); open_Terrain x; unfold Terrain_layout; norm_Terrain; loc|]. split; [apply (by_table C07_Terrain); open_Terrain x; unfold Terrain_layout; norm_Terrain; loc|]. split; [apply (by_table C07_Terrain); open_Terrain x; unfold Terrain_layout; norm_Terrain; loc|]. split; [apply (by_table C07_Terrain); open_Terrain x; unfold Terrain_layout; norm_Terrain; loc|]. split; [apply (by_table C07_Terrain); open_Terrain x; unfold Terrain_layout; norm_Terrain; loc|]. split; [apply (by_table C07_Terrain); open_Terrain x; unfold Terrain_layout; norm_Terrain; loc|]. split; [apply (by_table C07_Terrain); open_Terrain x; unfold Terrain_layout; norm_Terrain; loc|]. split; [apply (by_table C07_Terrain); open_Terrain x; unfold Terrain_layout; norm_Terrain; loc|]. split; [apply (by_table C07_Terrain); open_Terrain x; unfold Terrain_layout; norm_Terrain; loc|]. split; [apply (by_table C07_Terrain); open_Terrain x; unfold Terrain_layout; norm_Terrain; loc|]. split; [apply (by_table C07_Terrain); open_Terrain x; unfold Terrain_layout; norm_Terrain; loc|]. split; [apply (by_table C07_Terrain); open_Terrain x; unfold Terrain_layout; norm_Terrain; loc|]. split; [apply (by_table C07_Terrain); open_Terrain x; unfold Terrain_layout; norm_Terrain; loc|]. split; [intros i Hi; apply (by_table C07_Terrain); open_Terrain x; unfold Terrain_layout; norm_Terrain; loc|]. split; [intros i Hi; apply (by_table C07_Terrain); open_Terrain x; unfold Terrain_layout; norm_Terrain; loc|]. split; [intros i Hi; apply (by_table C07_Terrain); open_Terrain x; unfold Terrain_layout; norm_Terrain; loc|]. split; [intros i Hi; apply (by_table C07_Terrain); open_Terrain x; unfold Terrain_layout; norm_Terrain; loc|]. split; [intros i Hi; apply (by_table C07_Terrain); open_Terrain x; unfold Terrain_layout; norm_Terrain; loc|]. split; [apply (by_table C07_Terrain); open_Terrain x; unfold Terrain_layout; norm_Terrain; loc|]. apply (by_table C07_Terrain); open_Terrain x; unfold Terrain_layout; norm_Terrain; loc.
Qed.
Theorem C31_Terrain_parts : forall v x, 
  (forall i T (g : T -> FrameData) mk, (i < length (Terrain_frame_data x))%nat -> stays_local FrameData_to_bytes v g mk ->
     stays_local Terrain_to_bytes v (fun t => with_Terrain_frame_data (set_nth i (g t) (Terrain_frame_data x)) x) mk).
Proof.
  intros v x.  intros i T g mk Hi G; apply (to_table C07_FrameData) in G; apply (by_table C07_Terrain); open_Terrain x; unfold Terrain_layout; norm_Terrain; loc.
Qed.
Ltac norm_TileSize := cbn [with_TileSize_width with_TileSize_height with_TileSize_delta_y TileSize_width TileSize_height TileSize_delta_y] in *.
Ltac open_TileSize x := destruct x as [a0 a1 a2].
Theorem C31_TileSize : forall v x, 
  (stays_local TileSize_to_bytes v (fun t => with_TileSize_width t x) I16) /\
  (stays_local TileSize_to_bytes v (fun t => with_TileSize_height t x) I16) /\
  (stays_local TileSize_to_bytes v (fun t => with_TileSize_delta_y t x) I16).
Proof.
  intros v x. split; [apply (by_table C07_TileSize); open_TileSize x; unfold TileSize_layout; norm_TileSize; loc|]. split; [apply (by_table C07_TileSize); open_TileSize x; unfold TileSize_layout; norm_TileSize; loc|]. apply (by_table C07_TileSize); open_TileSize x; unfold TileSize_layout; norm_TileSize; loc.
Qed.
Ltac norm_TerrainBlock := cbn [with_TerrainBlock_virtual_function_ptr with_TerrainBlock_map_pointer with_TerrainBlock_map_width with_TerrainBlock_map_height with_TerrainBlock_world_width with_TerrainBlock_world_height with_TerrainBlock_tile_sizes with_TerrainBlock_padding_ts with_TerrainBlock_terrains with_TerrainBlock_map_min_x with_TerrainBlock_map_min_y with_TerrainBlock_map_max_x with_TerrainBlock_map_max_y with_TerrainBlock_map_max_x_plus_1 with_TerrainBlock_map_max_y_plus_1 with_TerrainBlock_terrains_used_2 with_TerrainBlock_borders_used with_TerrainBlock_max_terrain with_TerrainBlock_tile_width with_TerrainBlock_tile_height with_TerrainBlock_tile_half_height with_TerrainBlock_tile_half_width with_TerrainBlock_elev_height with_TerrainBlock_cur_row with_TerrainBlock_cur_col with_TerrainBlock_block_beg_row with_TerrainBlock_block_end_row with_TerrainBlock_block_beg_col with_TerrainBlock_block_end_col with_TerrainBlock_search_map_ptr with_TerrainBlock_search_map_rows_ptr with_TerrainBlock_any_frame_change with_TerrainBlock_map_visible_flag with_TerrainBlock_fog_flag TerrainBlock_virtual_function_ptr TerrainBlock_map_pointer TerrainBlock_map_width TerrainBlock_map_height TerrainBlock_world_width TerrainBlock_world_height TerrainBlock_tile_sizes TerrainBlock_padding_ts TerrainBlock_terrains TerrainBlock_map_min_x TerrainBlock_map_min_y TerrainBlock_map_max_x TerrainBlock_map_max_y TerrainBlock_map_max_x_plus_1 TerrainBlock_map_max_y_plus_1 TerrainBlock_terrains_used_2 TerrainBlock_borders_used TerrainBlock_max_terrain TerrainBlock_tile_width TerrainBlock_tile_height TerrainBlock_tile_half_height TerrainBlock_tile_half_width TerrainBlock_elev_height TerrainBlock_cur_row TerrainBlock_cur_col TerrainBlock_block_beg_row TerrainBlock_block_end_row TerrainBlock_block_beg_col TerrainBlock_block_end_col TerrainBlock_search_map_ptr TerrainBlock_search_map_rows_ptr TerrainBlock_any_frame_change TerrainBlock_map_visible_flag TerrainBlock_fog_flag] in *.
Ltac open_TerrainBlock x := destruct x as [a0 a1 a2 a3 a4 a5 a6 a7 a8 a9 a10 a11 a12 a13 a14 a15 a16 a17 a18 a19 a20 a21 a22 a23 a24 a25 a26 a27 a28 a29 a30 a31 a32 a33].
Theorem C31_TerrainBlock : forall v x, 
  (stays_local TerrainBlock_to_bytes v (fun t => with_TerrainBlock_virtual_function_ptr t x) U32) /\
  (stays_local TerrainBlock_to_bytes v (fun t => with_TerrainBlock_map_pointer t x) U32) /\
  (stays_local TerrainBlock_to_bytes v (fun t => with_TerrainBlock_map_width t x) I32) /\
  (stays_local TerrainBlock_to_bytes v (fun t => with_TerrainBlock_map_height t x) I32) /\
  (stays_local TerrainBlock_to_bytes v (fun t => with_TerrainBlock_world_width t x) I32) /\
  (stays_local TerrainBlock_to_bytes v (fun t => with_TerrainBlock_world_height t x) I32) /\
  (stays_local TerrainBlock_to_bytes v (fun t => with_TerrainBlock_padding_ts t x) I16) /\
  (stays_local TerrainBlock_to_bytes v (fun t => with_TerrainBlock_map_min_x t x) F32) /\
  (stays_local TerrainBlock_to_bytes v (fun t => with_TerrainBlock_map_min_y t x) F32) /\
  (stays_local TerrainBlock_to_bytes v (fun t => with_TerrainBlock_map_max_x t x) F32) /\
  (stays_local TerrainBlock_to_bytes v (fun t => with_TerrainBlock_map_max_y t x) F32) /\
  (stays_local TerrainBlock_to_bytes v (fun t => with_TerrainBlock_map_max_x_plus_1 t x) F32) /\
  (stays_local TerrainBlock_to_bytes v (fun t => with_TerrainBlock_map_max_y_plus_1 t x) F32) /\
  (stays_local TerrainBlock_to_bytes v (fun t => with_TerrainBlock_terrains_used_2 t x) I16) /\
  (stays_local TerrainBlock_to_bytes v (fun t => with_TerrainBlock_borders_used t x) I16) /\
  (stays_local TerrainBlock_to_bytes v (fun t => with_TerrainBlock_max_terrain t x) I16) /\
  (stays_local TerrainBlock_to_bytes v (fun t => with_TerrainBlock_tile_width t x) I16) /\
  (stays_local TerrainBlock_to_bytes v (fun t => with_TerrainBlock_tile_height t x) I16) /\
  (stays_local TerrainBlock_to_bytes v (fun t => with_TerrainBlock_tile_half_height t x) I16) /\
  (stays_local TerrainBlock_to_bytes v (fun t => with_TerrainBlock_tile_half_width t x) I16) /\
  (stays_local TerrainBlock_to_bytes v (fun t => with_TerrainBlock_elev_height t x) I16) /\
  (stays_local TerrainBlock_to_bytes v (fun t => with_TerrainBlock_cur_row t x) I16) /\
  (stays_local TerrainBlock_to_bytes v (fun t => with_TerrainBlock_cur_col t x) I16) /\
  (stays_local TerrainBlock_to_bytes v (fun t => with_TerrainBlock_block_beg_row t x) I16) /\
  (stays_local TerrainBlock_to_bytes v (fun t => with_TerrainBlock_block_end_row t x) I16) /\
  (stays_local TerrainBlock_to_bytes v (fun t => with_TerrainBlock_block_beg_col t x) I16) /\
  (stays_local TerrainBlock_to_bytes v (fun t => with_TerrainBlock_block_end_col t x) I16) /\
  (stays_local TerrainBlock_to_bytes v (fun t => with_TerrainBlock_search_map_ptr t x) U32) /\
  (stays_local TerrainBlock_to_bytes v (fun t => with_TerrainBlock_search_map_rows_ptr t x) U32) /\
  (stays_local TerrainBlock_to_bytes v (fun t => with_TerrainBlock_any_frame_change t x) U8) /\
  (stays_local TerrainBlock_to_bytes v (fun t => with_TerrainBlock_map_visible_flag t x) U8) /\
  (stays_local TerrainBlock_to_bytes v (fun t => with_TerrainBlock_fog_flag t x) U8).
Proof.
  intros v x. split; [apply (by_table C07_TerrainBlock); open_TerrainBlock x; unfold TerrainBlock_layout; norm_TerrainBlock; loc|]. split; [apply (by_table C07_TerrainBlock); open_TerrainBlock x; unfold TerrainBlock_layout; norm_TerrainBlock; loc|]. split; [apply (by_table C07_TerrainBlock); open_TerrainBlock x; unfold TerrainBlock_layout; norm_TerrainBlock; loc|]. split; [apply (by_table C07_TerrainBlock); open_TerrainBlock x; unfold TerrainBlock_layout; norm_TerrainBlock; loc|]. split; [apply (by_table C07_TerrainBlock); open_TerrainBlock x; unfold TerrainBlock_layout; norm_TerrainBlock; loc|]. split; [apply (by_table C07_TerrainBlock); open_TerrainBlock x; unfold TerrainBlock_layout; norm_TerrainBlock; loc|]. split; [apply (by_table C07_TerrainBlock); open_TerrainBlock x; unfold TerrainBlock_layout; norm_TerrainBlock; loc|]. split; [apply (by_table C07_TerrainBlock); open_TerrainBlock x; unfold TerrainBlock_layout; norm_TerrainBlock; loc|]. split; [apply (by_table C07_TerrainBlock); open_TerrainBlock x; unfold TerrainBlock_layout; norm_TerrainBlock; loc|]. split; [apply (by_table C07_TerrainBlock); open_TerrainBlock x; unfold TerrainBlock_layout; norm_TerrainBlock; loc|]. split; [apply (by_table C07_TerrainBlock); open_TerrainBlock x; unfold TerrainBlock_layout; norm_TerrainBlock; loc|]. split; [apply (by_table C07_TerrainBlock); open_TerrainBlock x; unfold TerrainBlock_layout; norm_TerrainBlock; loc|]. split; [apply (by_table C07_TerrainBlock); open_TerrainBlock x; unfold TerrainBlock_layout; norm_TerrainBlock; loc|]. split; [apply (by_table C07_TerrainBlock); open_TerrainBlock x; unfold TerrainBlock_layout; norm_TerrainBlock; loc|]. split; [apply (by_table C07_TerrainBlock); open_TerrainBlock x; unfold TerrainBlock_layout; norm_TerrainBlock; loc|]. split; [apply (by_table C07_TerrainBlock); open_TerrainBlock x; unfold TerrainBlock_layout; norm_TerrainBlock; loc|]. split; [apply (by_table C07_TerrainBlock); open_TerrainBlock x; unfold TerrainBlock_layout; norm_TerrainBlock; loc|]. split; [apply (by_table C07_TerrainBlock); open_TerrainBlock x; unfold TerrainBlock_layout; norm_TerrainBlock; loc|]. split; [apply (by_table C07_TerrainBlock); open_TerrainBlock x; unfold TerrainBlock_layout; norm_TerrainBlock; loc|]. split; [apply (by_table C07_TerrainBlock); open_TerrainBlock x; unfold TerrainBlock_layout; norm_TerrainBlock; loc|]. split; [apply (by_table C07_TerrainBlock); open_TerrainBlock x; unfold TerrainBlock_layout; norm_TerrainBlock; loc|]. split; [apply (by_table C07_TerrainBlock); open_TerrainBlock x; unfold TerrainBlock_layout; norm_TerrainBlock; loc|]. split; [apply (by_table C07_TerrainBlock); open_TerrainBlock x; unfold TerrainBlock_layout; norm_TerrainBlock; loc|]. split; [apply (by_table C07_TerrainBlock); open_TerrainBlock x; unfold TerrainBlock_layout; norm_TerrainBlock; loc|]. split; [apply (by_table C07_TerrainBlock); open_TerrainBlock x; unfold TerrainBlock_layout; norm_TerrainBlock; loc|]. split; [apply (by_table C07_TerrainBlock); open_TerrainBlock x; unfold TerrainBlock_layout; norm_TerrainBlock; loc|]. split; [apply (by_table C07_TerrainBlock); open_TerrainBlock x; unfold TerrainBlock_layout; norm_TerrainBlock; loc|]. split; [apply (by_table C07_TerrainBlock); open_TerrainBlock x; unfold TerrainBlock_layout; norm_TerrainBlock; loc|]. split; [apply (by_table C07_TerrainBlock); open_TerrainBlock x; unfold TerrainBlock_layout; norm_TerrainBlock; loc|]. split; [apply (by_table C07_TerrainBlock); open_TerrainBlock x; unfold TerrainBlock_layout; norm_TerrainBlock; loc|]. split; [apply (by_table C07_TerrainBlock); open_TerrainBlock x; unfold TerrainBlock_layout; norm_TerrainBlock; loc|]. apply (by_table C07_TerrainBlock); open_TerrainBlock x; unfold TerrainBlock_layout; norm_TerrainBlock; loc.
Qed.
Theorem C31_TerrainBlock_parts : forall v x, 
  (forall i T (g : T -> TileSize) mk, (i < length (TerrainBlock_tile_sizes x))%nat -> stays_local TileSize_to_bytes v g mk ->
     stays_local TerrainBlock_to_bytes v (fun t => with_TerrainBlock_tile_sizes (set_nth i (g t) (TerrainBlock_tile_sizes x)) x) mk) /\
  (forall i T (g : T -> Terrain) mk, (i < length (TerrainBlock_terrains x))%nat -> stays_local Terrain_to_bytes v g mk ->
     stays_local TerrainBlock_to_bytes v (fun t => with_TerrainBlock_terrains (set_nth i (g t) (TerrainBlock_terrains x)) x) mk).
Proof.
  intros v x. split; [intros i T g mk Hi G; apply (to_table C07_TileSize) in G; apply (by_table C07_TerrainBlock); open_TerrainBlock x; unfold TerrainBlock_layout; norm_TerrainBlock; loc|]. intros i T g mk Hi G; apply (to_table C07_Terrain) in G; apply (by_table C07_TerrainBlock); open_TerrainBlock x; unfold TerrainBlock_layout; norm_TerrainBlock; loc.
Qed.
Ltac norm_MapUnit := cbn [with_MapUnit_unit with_MapUnit_host_terrain with_MapUnit_group_placing with_MapUnit_scale_flag with_MapUnit_padding_1 with_MapUnit_objects_per_group with_MapUnit_fluctuation with_MapUnit_groups_per_player with_MapUnit_group_arena with_MapUnit_player_id with_MapUnit_set_place_for_all_players with_MapUnit_min_distance_to_players with_MapUnit_max_distance_to_players MapUnit_unit MapUnit_host_terrain MapUnit_group_placing MapUnit_scale_flag MapUnit_padding_1 MapUnit_objects_per_group MapUnit_fluctuation MapUnit_groups_per_player MapUnit_group_arena MapUnit_player_id MapUnit_set_place_for_all_players MapUnit_min_distance_to_players MapUnit_max_distance_to_players] in *.
Ltac open_MapUnit x := destruct x as [a0 a1 a2 a3 a4 a5 a6 a7 a8 a9 a10 a11 a12].
Theorem C31_MapUnit : forall v x, 
  (stays_local MapUnit_to_bytes v (fun t => with_MapUnit_unit t x) I32) /\
  (stays_local MapUnit_to_bytes v (fun t => with_MapUnit_host_terrain t x) I32) /\
  (stays_local MapUnit_to_bytes v (fun t => with_MapUnit_group_placing t x) U8) /\
  (stays_local MapUnit_to_bytes v (fun t => with_MapUnit_scale_flag t x) U8) /\
  (stays_local MapUnit_to_bytes v (fun t => with_MapUnit_padding_1 t x) I16) /\
  (stays_local MapUnit_to_bytes v (fun t => with_MapUnit_objects_per_group t x) I32) /\
  (stays_local MapUnit_to_bytes v (fun t => with_MapUnit_fluctuation t x) I32) /\
  (stays_local MapUnit_to_bytes v (fun t => with_MapUnit_groups_per_player t x) I32) /\
  (stays_local MapUnit_to_bytes v (fun t => with_MapUnit_group_arena t x) I32) /\
  (stays_local MapUnit_to_bytes v (fun t => with_MapUnit_player_id t x) I32) /\
  (stays_local MapUnit_to_bytes v (fun t => with_MapUnit_set_place_for_all_players t x) I32) /\
  (stays_local MapUnit_to_bytes v (fun t => with_MapUnit_min_distance_to_players t x) I32) /\
  (stays_local MapUnit_to_bytes v (fun t => with_MapUnit_max_distance_to_players t x) I32).
Proof.
  intros v x. split; [apply (by_table C07_MapUnit); open_MapUnit x; unfold MapUnit_layout; norm_MapUnit; loc|]. split; [apply (by_table C07_MapUnit); open_MapUnit x; unfold MapUnit_layout; norm_MapUnit; loc|]. split; [apply (by_table C07_MapUnit); open_MapUnit x; unfold MapUnit_layout; norm_MapUnit; loc|]. split; [apply (by_table C07_MapUnit); open_MapUnit x; unfold MapUnit_layout; norm_MapUnit; loc|]. split; [apply (by_table C07_MapUnit); open_MapUnit x; unfold MapUnit_layout; norm_MapUnit; loc|]. split; [apply (by_table C07_MapUnit); open_MapUnit x; unfold MapUnit_layout; norm_MapUnit; loc|]. split; [apply (by_table C07_MapUnit); open_MapUnit x; unfold MapUnit_layout; norm_MapUnit; loc|]. split; [apply (by_table C07_MapUnit); open_MapUnit x; unfold MapUnit_layout; norm_MapUnit; loc|]. split; [apply (by_table C07_MapUnit); open_MapUnit x; unfold MapUnit_layout; norm_MapUnit; loc|]. split; [apply (by_table C07_MapUnit); open_MapUnit x; unfold MapUnit_layout; norm_MapUnit; loc|]. split; [apply (by_table C07_MapUnit); open_MapUnit x; unfold MapUnit_layout; norm_MapUnit; loc|]. split; [apply (by_table C07_MapUnit); open_MapUnit x; unfold MapUnit_layout; norm_MapUnit; loc|]. apply (by_table C07_MapUnit); open_MapUnit x; unfold MapUnit_layout; norm_MapUnit; loc.
Qed.
Ltac norm_MapTerrain := cbn [with_MapTerrain_proportion with_MapTerrain_terrain with_MapTerrain_clump_count with_MapTerrain_edge_spacing with_MapTerrain_placement_terrain with_MapTerrain_clumpiness MapTerrain_proportion MapTerrain_terrain MapTerrain_clump_count MapTerrain_edge_spacing MapTerrain_placement_terrain MapTerrain_clumpiness] in *.
Ltac open_MapTerrain x := destruct x as [a0 a1 a2 a3 a4 a5].
Theorem C31_MapTerrain : forall v x, 
  (stays_local MapTerrain_to_bytes v (fun t => with_MapTerrain_proportion t x) I32) /\
  (stays_local MapTerrain_to_bytes v (fun t => with_MapTerrain_terrain t x) I32) /\
  (stays_local MapTerrain_to_bytes v (fun t => with_MapTerrain_clump_count t x) I32) /\
  (stays_local MapTerrain_to_bytes v (fun t => with_MapTerrain_edge_spacing t x) I32) /\
  (stays_local MapTerrain_to_bytes v (fun t => with_MapTerrain_placement_terrain t x) I32) /\
  (stays_local MapTerrain_to_bytes v (fun t => with_MapTerrain_clumpiness t x) I32).
Proof.
  intros v x. split; [apply (by_table C07_MapTerrain); open_MapTerrain x; unfold MapTerrain_layout; norm_MapTerrain; loc|]. split; [apply (by_table C07_MapTerrain); open_MapTerrain x; unfold MapTerrain_layout; norm_MapTerrain; loc|]. split; [apply (by_table C07_MapTerrain); open_MapTerrain x; unfold MapTerrain_layout; norm_MapTerrain; loc|]. split; [apply (by_table C07_MapTerrain); open_MapTerrain x; unfold MapTerrain_layout; norm_MapTerrain; loc|]. split; [apply (by_table C07_MapTerrain); open_MapTerrain x; unfold MapTerrain_layout; norm_MapTerrain; loc|]. apply (by_table C07_MapTerrain); open_MapTerrain x; unfold MapTerrain_layout; norm_MapTerrain; loc.
Qed.
Ltac norm_MapLand := cbn [with_MapLand_land_id with_MapLand_terrain with_MapLand_land_spacing with_MapLand_base_size with_MapLand_zone with_MapLand_placement_type with_MapLand_padding_1 with_MapLand_base_x with_MapLand_base_y with_MapLand_land_proportion with_MapLand_by_player_flag with_MapLand_padding_2 with_MapLand_start_area_radius with_MapLand_terrain_edge_fade with_MapLand_clumpiness MapLand_land_id MapLand_terrain MapLand_land_spacing MapLand_base_size MapLand_zone MapLand_placement_type MapLand_padding_1 MapLand_base_x MapLand_base_y MapLand_land_proportion MapLand_by_player_flag MapLand_padding_2 MapLand_start_area_radius MapLand_terrain_edge_fade MapLand_clumpiness] in *.
Ltac open_MapLand x := destruct x as [a0 a1 a2 a3 a4 a5 a6 a7 a8 a9 a10 a11 a12 a13 a14].
Theorem C31_MapLand : forall v x, 
  (stays_local MapLand_to_bytes v (fun t => with_MapLand_land_id t x) I32) /\
  (stays_local MapLand_to_bytes v (fun t => with_MapLand_terrain t x) U32) /\
  (stays_local MapLand_to_bytes v (fun t => with_MapLand_land_spacing t x) I32) /\
  (stays_local MapLand_to_bytes v (fun t => with_MapLand_base_size t x) I32) /\
  (stays_local MapLand_to_bytes v (fun t => with_MapLand_zone t x) U8) /\
  (stays_local MapLand_to_bytes v (fun t => with_MapLand_placement_type t x) U8) /\
  (stays_local MapLand_to_bytes v (fun t => with_MapLand_padding_1 t x) I16) /\
  (stays_local MapLand_to_bytes v (fun t => with_MapLand_base_x t x) I32) /\
  (stays_local MapLand_to_bytes v (fun t => with_MapLand_base_y t x) I32) /\
  (stays_local MapLand_to_bytes v (fun t => with_MapLand_land_proportion t x) U8) /\
  (stays_local MapLand_to_bytes v (fun t => with_MapLand_by_player_flag t x) U8) /\
  (stays_local MapLand_to_bytes v (fun t => with_MapLand_padding_2 t x) I16) /\
  (stays_local MapLand_to_bytes v (fun t => with_MapLand_start_area_radius t x) I32) /\
  (stays_local MapLand_to_bytes v (fun t => with_MapLand_terrain_edge_fade t x) I32) /\
  (stays_local MapLand_to_bytes v (fun t => with_MapLand_clumpiness t x) I32).
Proof.
  intros v x. split; [apply (by_table C07_MapLand); open_MapLand x; unfold MapLand_layout; norm_MapLand; loc|]. split; [apply (by_table C07_MapLand); open_MapLand x; unfold MapLand_layout; norm_MapLand; loc|]. split; [apply (by_table C07_MapLand); open_MapLand x; unfold MapLand_layout; norm_MapLand; loc|]. split; [apply (by_table C07_MapLand); open_MapLand x; unfold MapLand_layout; norm_MapLand; loc|]. split; [apply (by_table C07_MapLand); open_MapLand x; unfold MapLand_layout; norm_MapLand; loc|]. split; [apply (by_table C07_MapLand); open_MapLand x; unfold MapLand_layout; norm_MapLand; loc|]. split; [apply (by_table C07_MapLand); open_MapLand x; unfold MapLand_layout; norm_MapLand; loc|]. split; [apply (by_table C07_MapLand); open_MapLand x; unfold MapLand_layout; norm_MapLand; loc|]. split; [apply (by_table C07_MapLand); open_MapLand x; unfold MapLand_layout; norm_MapLand; loc|]. split; [apply (by_table C07_MapLand); open_MapLand x; unfold MapLand_layout; norm_MapLand; loc|]. split; [apply (by_table C07_MapLand); open_MapLand x; unfold MapLand_layout; norm_MapLand; loc|]. split; [apply (by_table C07_MapLand); open_MapLand x; unfold MapLand_layout; norm_MapLand; loc|]. split; [apply (by_table C07_MapLand); open_MapLand x; unfold MapLand_layout; norm_MapLand; loc|]. split; [apply (by_table C07_MapLand); open_MapLand x; unfold MapLand_layout; norm_MapLand; loc|]. apply (by_table C07_MapLand); open_MapLand x; unfold MapLand_layout; norm_MapLand; loc.
Qed.
Ltac norm_MapElevation := cbn [with_MapElevation_proportion with_MapElevation_terrain with_MapElevation_clump_count with_MapElevation_base_terrain with_MapElevation_base_elevation with_MapElevation_tile_spacing MapElevation_proportion MapElevation_terrain MapElevation_clump_count MapElevation_base_terrain MapElevation_base_elevation MapElevation_tile_spacing] in *.
Ltac open_MapElevation x := destruct x as [a0 a1 a2 a3 a4 a5].
Theorem C31_MapElevation : forall v x, 
  (stays_local MapElevation_to_bytes v (fun t => with_MapElevation_proportion t x) I32) /\
  (stays_local MapElevation_to_bytes v (fun t => with_MapElevation_terrain t x) I32) /\
  (stays_local MapElevation_to_bytes v (fun t => with_MapElevation_clump_count t x) I32) /\
  (stays_local MapElevation_to_bytes v (fun t => with_MapElevation_base_terrain t x) I32) /\
  (stays_local MapElevation_to_bytes v (fun t => with_MapElevation_base_elevation t x) I32) /\
  (stays_local MapElevation_to_bytes v (fun t => with_MapElevation_tile_spacing t x) I32).
Proof.
  intros v x. split; [apply (by_table C07_MapElevation); open_MapElevation x; unfold MapElevation_layout; norm_MapElevation; loc|]. split; [apply (by_table C07_MapElevation); open_MapElevation x; unfold MapElevation_layout; norm_MapElevation; loc|]. split; [apply (by_table C07_MapElevation); open_MapElevation x; unfold MapElevation_layout; norm_MapElevation; loc|]. split; [apply (by_table C07_MapElevation); open_MapElevation x; unfold MapElevation_layout; norm_MapElevation; loc|]. split; [apply (by_table C07_MapElevation); open_MapElevation x; unfold MapElevation_layout; norm_MapElevation; loc|]. apply (by_table C07_MapElevation); open_MapElevation x; unfold MapElevation_layout; norm_MapElevation; loc.
Qed.
Ltac norm_MapInfo := cbn [with_MapInfo_map_id with_MapInfo_border_south_west with_MapInfo_border_north_west with_MapInfo_border_north_east with_MapInfo_border_south_east with_MapInfo_border_usage with_MapInfo_water_shape with_MapInfo_base_terrain with_MapInfo_land_coverage with_MapInfo_unused_id with_MapInfo_map_lands_size with_MapInfo_map_lands_ptr with_MapInfo_map_lands with_MapInfo_map_terrains_size with_MapInfo_map_terrains_ptr with_MapInfo_map_terrains with_MapInfo_map_units_size with_MapInfo_map_units_ptr with_MapInfo_map_units with_MapInfo_map_elevations_size with_MapInfo_map_elevations_ptr with_MapInfo_map_elevations MapInfo_map_id MapInfo_border_south_west MapInfo_border_north_west MapInfo_border_north_east MapInfo_border_south_east MapInfo_border_usage MapInfo_water_shape MapInfo_base_terrain MapInfo_land_coverage MapInfo_unused_id MapInfo_map_lands_size MapInfo_map_lands_ptr MapInfo_map_lands MapInfo_map_terrains_size MapInfo_map_terrains_ptr MapInfo_map_terrains MapInfo_map_units_size MapInfo_map_units_ptr MapInfo_map_units MapInfo_map_elevations_size MapInfo_map_elevations_ptr MapInfo_map_elevations] in *.
Ltac open_MapInfo x := destruct x as [a0 a1 a2 a3 a4 a5 a6 a7 a8 a9 a10 a11 a12 a13 a14 a15 a16 a17 a18 a19 a20 a21].
Theorem C31_MapInfo : forall v x, 
  (stays_local MapInfo_to_bytes v (fun t => with_MapInfo_map_id t x) I32) /\
  (stays_local MapInfo_to_bytes v (fun t => with_MapInfo_border_south_west t x) I32) /\
  (stays_local MapInfo_to_bytes v (fun t => with_MapInfo_border_north_west t x) I32) /\
  (stays_local MapInfo_to_bytes v (fun t => with_MapInfo_border_north_east t x) I32) /\
  (stays_local MapInfo_to_bytes v (fun t => with_MapInfo_border_south_east t x) I32) /\
  (stays_local MapInfo_to_bytes v (fun t => with_MapInfo_border_usage t x) I32) /\
  (stays_local MapInfo_to_bytes v (fun t => with_MapInfo_water_shape t x) I32) /\
  (stays_local MapInfo_to_bytes v (fun t => with_MapInfo_base_terrain t x) I32) /\
  (stays_local MapInfo_to_bytes v (fun t => with_MapInfo_land_coverage t x) I32) /\
  (stays_local MapInfo_to_bytes v (fun t => with_MapInfo_unused_id t x) I32) /\
  (stays_local MapInfo_to_bytes v (fun t => with_MapInfo_map_lands_size t x) U32) /\
  (stays_local MapInfo_to_bytes v (fun t => with_MapInfo_map_lands_ptr t x) I32) /\
  (stays_local MapInfo_to_bytes v (fun t => with_MapInfo_map_terrains_size t x) U32) /\
  (stays_local MapInfo_to_bytes v (fun t => with_MapInfo_map_terrains_ptr t x) I32) /\
  (stays_local MapInfo_to_bytes v (fun t => with_MapInfo_map_units_size t x) U32) /\
  (stays_local MapInfo_to_bytes v (fun t => with_MapInfo_map_units_ptr t x) I32) /\
  (stays_local MapInfo_to_bytes v (fun t => with_MapInfo_map_elevations_size t x) U32) /\
  (stays_local MapInfo_to_bytes v (fun t => with_MapInfo_map_elevations_ptr t x) I32).
Proof.
  intros v x. split; [apply (by_table C07_MapInfo); open_MapInfo x; unfold MapInfo_layout; norm_MapInfo; loc|]. split; [apply (by_table C07_MapInfo); open_MapInfo x; unfold MapInfo_layout; norm_MapInfo; loc|]. split; [apply (by_table C07_MapInfo); open_MapInfo x; unfold MapInfo_layout; norm_MapInfo; loc|]. split; [apply (by_table C07_MapInfo); open_MapInfo x; unfold MapInfo_layout; norm_MapInfo; loc|]. split; [apply (by_table C07_MapInfo); open_MapInfo x; unfold MapInfo_layout; norm_MapInfo; loc|]. split; [apply (by_table C07_MapInfo); open_MapInfo x; unfold MapInfo_layout; norm_MapInfo; loc|]. split; [apply (by_table C07_MapInfo); open_MapInfo x; unfold MapInfo_layout; norm_MapInfo; loc|]. split; [apply (by_table C07_MapInfo); open_MapInfo x; unfold MapInfo_layout; norm_MapInfo; loc|]. split; [apply (by_table C07_MapInfo); open_MapInfo x; unfold MapInfo_layout; norm_MapInfo; loc|]. split; [apply (by_table C07_MapInfo); open_MapInfo x; unfold MapInfo_layout; norm_MapInfo; loc|]. split; [apply (by_table C07_MapInfo); open_MapInfo x; unfold MapInfo_layout; norm_MapInfo; loc|]. split; [apply (by_table C07_MapInfo); open_MapInfo x; unfold MapInfo_layout; norm_MapInfo; loc|]. split; [apply (by_table C07_MapInfo); open_MapInfo x; unfold MapInfo_layout; norm_MapInfo; loc|]. split; [apply (by_table C07_MapInfo); open_MapInfo x; unfold MapInfo_layout; norm_MapInfo; loc|]. split; [apply (by_table C07_MapInfo); open_MapInfo x; unfold MapInfo_layout; norm_MapInfo; loc|]. split; [apply (by_table C07_MapInfo); open_MapInfo x; unfold MapInfo_layout; norm_MapInfo; loc|]. split; [apply (by_table C07_MapInfo); open_MapInfo x; unfold MapInfo_layout; norm_MapInfo; loc|]. apply (by_table C07_MapInfo); open_MapInfo x; unfold MapInfo_layout; norm_MapInfo; loc.
Qed.
Theorem C31_MapInfo_parts : forall v x, 
  (forall i T (g : T -> MapLand) mk, (i < length (MapInfo_map_lands x))%nat -> stays_local MapLand_to_bytes v g mk ->
     stays_local MapInfo_to_bytes v (fun t => with_MapInfo_map_lands (set_nth i (g t) (MapInfo_map_lands x)) x) mk) /\
  (forall i T (g : T -> MapTerrain) mk, (i < length (MapInfo_map_terrains x))%nat -> stays_local MapTerrain_to_bytes v g mk ->
     stays_local MapInfo_to_bytes v (fun t => with_MapInfo_map_terrains (set_nth i (g t) (MapInfo_map_terrains x)) x) mk) /\
  (forall i T (g : T -> MapUnit) mk, (i < length (MapInfo_map_units x))%nat -> stays_local MapUnit_to_bytes v g mk ->
     stays_local MapInfo_to_bytes v (fun t => with_MapInfo_map_units (set_nth i (g t) (MapInfo_map_units x)) x) mk) /\
  (forall i T (g : T -> MapElevation) mk, (i < length (MapInfo_map_elevations x))%nat -> stays_local MapElevation_to_bytes v g mk ->
     stays_local MapInfo_to_bytes v (fun t => with_MapInfo_map_elevations (set_nth i (g t) (MapInfo_map_elevations x)) x) mk).
Proof.
  intros v x. split; [intros i T g mk Hi G; apply (to_table C07_MapLand) in G; apply (by_table C07_MapInfo); open_MapInfo x; unfold MapInfo_layout; norm_MapInfo; loc|]. split; [intros i T g mk Hi G; apply (to_table C07_MapTerrain) in G; apply (by_table C07_MapInfo); open_MapInfo x; unfold MapInfo_layout; norm_MapInfo; loc|]. split; [intros i T g mk Hi G; apply (to_table C07_MapUnit) in G; apply (by_table C07_MapInfo); open_MapInfo x; unfold MapInfo_layout; norm_MapInfo; loc|]. intros i T g mk Hi G; apply (to_table C07_MapElevation) in G; apply (by_table C07_MapInfo); open_MapInfo x; unfold MapInfo_layout; norm_MapInfo; loc.
Qed.
Ltac norm_RandomMaps := cbn [with_RandomMaps_random_maps_ptr with_RandomMaps_map_info_1 with_RandomMaps_map_info_2 RandomMaps_random_maps_ptr RandomMaps_map_info_1 RandomMaps_map_info_2] in *.
Ltac open_RandomMaps x := destruct x as [a0 a1 a2].
Theorem C31_RandomMaps : forall v x, 
  (stays_local RandomMaps_to_bytes v (fun t => with_RandomMaps_random_maps_ptr t x) I32).
Proof.
  intros v x.  apply (by_table C07_RandomMaps); open_RandomMaps x; unfold RandomMaps_layout; norm_RandomMaps; loc.
Qed.
Theorem C31_RandomMaps_parts : forall v x, 
  (forall i T (g : T -> MapInfo) mk, (i < length (RandomMaps_map_info_1 x))%nat -> stays_local MapInfo_to_bytes v g mk ->
     stays_local RandomMaps_to_bytes v (fun t => with_RandomMaps_map_info_1 (set_nth i (g t) (RandomMaps_map_info_1 x)) x) mk) /\
  (forall i T (g : T -> MapInfo) mk, (i < length (RandomMaps_map_info_2 x))%nat -> stays_local MapInfo_to_bytes v g mk ->
     stays_local RandomMaps_to_bytes v (fun t => with_RandomMaps_map_info_2 (set_nth i (g t) (RandomMaps_map_info_2 x)) x) mk).
Proof.
  intros v x. split; [intros i T g mk Hi G; apply (to_table C07_MapInfo) in G; apply (by_table C07_RandomMaps); open_RandomMaps x; unfold RandomMaps_layout; norm_RandomMaps; loc|]. intros i T g mk Hi G; apply (to_table C07_MapInfo) in G; apply (by_table C07_RandomMaps); open_RandomMaps x; unfold RandomMaps_layout; norm_RandomMaps; loc.
Qed.
Ltac norm_Task := cbn [with_Task_task_type with_Task_id with_Task_is_default with_Task_action_type with_Task_class_id with_Task_unit_id with_Task_terrain_id with_Task_resource_in with_Task_resource_multiplier with_Task_resource_out with_Task_unused_resource with_Task_work_value_1 with_Task_work_value_2 with_Task_work_range with_Task_auto_search_targets with_Task_search_wait_time with_Task_enable_targeting with_Task_combat_level_flag with_Task_gather_type with_Task_work_flag_2 with_Task_target_diplomacy with_Task_carry_check with_Task_pick_for_construction with_Task_moving_graphic_id with_Task_proceeding_graphic_id with_Task_working_graphic_id with_Task_carrying_graphic_id with_Task_resource_gathering_sound_id with_Task_resource_deposit_sound_id with_Task_wwise_resource_gathering_sound_id with_Task_wwise_resource_deposit_sound_id with_Task_enabled Task_task_type Task_id Task_is_default Task_action_type Task_class_id Task_unit_id Task_terrain_id Task_resource_in Task_resource_multiplier Task_resource_out Task_unused_resource Task_work_value_1 Task_work_value_2 Task_work_range Task_auto_search_targets Task_search_wait_time Task_enable_targeting Task_combat_level_flag Task_gather_type Task_work_flag_2 Task_target_diplomacy Task_carry_check Task_pick_for_construction Task_moving_graphic_id Task_proceeding_graphic_id Task_working_graphic_id Task_carrying_graphic_id Task_resource_gathering_sound_id Task_resource_deposit_sound_id Task_wwise_resource_gathering_sound_id Task_wwise_resource_deposit_sound_id Task_enabled] in *.
Ltac open_Task x := destruct x as [a0 a1 a2 a3 a4 a5 a6 a7 a8 a9 a10 a11 a12 a13 a14 a15 a16 a17 a18 a19 a20 a21 a22 a23 a24 a25 a26 a27 a28 a29 a30 a31].
Theorem C31_Task : forall v x, 
  (stays_local Task_to_bytes v (fun t => with_Task_task_type t x) I16) /\
  (stays_local Task_to_bytes v (fun t => with_Task_id t x) I16) /\
  (stays_local Task_to_bytes v (fun t => with_Task_is_default t x) I8) /\
  (stays_local Task_to_bytes v (fun t => with_Task_action_type t x) I16) /\
  (stays_local Task_to_bytes v (fun t => with_Task_class_id t x) I16) /\
  (stays_local Task_to_bytes v (fun t => with_Task_unit_id t x) I16) /\
  (stays_local Task_to_bytes v (fun t => with_Task_terrain_id t x) I16) /\
  (stays_local Task_to_bytes v (fun t => with_Task_resource_in t x) I16) /\
  (stays_local Task_to_bytes v (fun t => with_Task_resource_multiplier t x) I16) /\
  (stays_local Task_to_bytes v (fun t => with_Task_resource_out t x) I16) /\
  (stays_local Task_to_bytes v (fun t => with_Task_unused_resource t x) I16) /\
  (stays_local Task_to_bytes v (fun t => with_Task_work_value_1 t x) F32s) /\
  (stays_local Task_to_bytes v (fun t => with_Task_work_value_2 t x) F32s) /\
  (stays_local Task_to_bytes v (fun t => with_Task_work_range t x) F32s) /\
  (stays_local Task_to_bytes v (fun t => with_Task_auto_search_targets t x) I8) /\
  (stays_local Task_to_bytes v (fun t => with_Task_search_wait_time t x) F32s) /\
  (stays_local Task_to_bytes v (fun t => with_Task_enable_targeting t x) I8) /\
  (stays_local Task_to_bytes v (fun t => with_Task_combat_level_flag t x) I8) /\
  (stays_local Task_to_bytes v (fun t => with_Task_gather_type t x) I16) /\
  (stays_local Task_to_bytes v (fun t => with_Task_work_flag_2 t x) I16) /\
  (stays_local Task_to_bytes v (fun t => with_Task_target_diplomacy t x) I8) /\
  (stays_local Task_to_bytes v (fun t => with_Task_carry_check t x) I8) /\
  (stays_local Task_to_bytes v (fun t => with_Task_pick_for_construction t x) I8) /\
  (stays_local Task_to_bytes v (fun t => with_Task_moving_graphic_id t x) I16) /\
  (stays_local Task_to_bytes v (fun t => with_Task_proceeding_graphic_id t x) I16) /\
  (stays_local Task_to_bytes v (fun t => with_Task_working_graphic_id t x) I16) /\
  (stays_local Task_to_bytes v (fun t => with_Task_carrying_graphic_id t x) I16) /\
  (stays_local Task_to_bytes v (fun t => with_Task_resource_gathering_sound_id t x) I16) /\
  (stays_local Task_to_bytes v (fun t => with_Task_resource_deposit_sound_id t x) I16) /\
  (stays_local Task_to_bytes v (fun t => with_Task_wwise_resource_gathering_sound_id t x) I32) /\
  (stays_local Task_to_bytes v (fun t => with_Task_wwise_resource_deposit_sound_id t x) I32) /\
  (since 88 v = true -> stays_local Task_to_bytes v (fun t => with_Task_enabled t x) I16).
Proof.
  intros v x. split; [apply (by_table C07_Task); open_Task x; unfold Task_layout; norm_Task; loc|]. split; [apply (by_table C07_Task); open_Task x; unfold Task_layout; norm_Task; loc|]. split; [apply (by_table C07_Task); open_Task x; unfold Task_layout; norm_Task; loc|]. split; [apply (by_table C07_Task); open_Task x; unfold Task_layout; norm_Task; loc|]. split; [apply (by_table C07_Task); open_Task x; unfold Task_layout; norm_Task; loc|]. split; [apply (by_table C07_Task); open_Task x; unfold Task_layout; norm_Task; loc|]. split; [apply (by_table C07_Task); open_Task x; unfold Task_layout; norm_Task; loc|]. split; [apply (by_table C07_Task); open_Task x; unfold Task_layout; norm_Task; loc|]. split; [apply (by_table C07_Task); open_Task x; unfold Task_layout; norm_Task; loc|]. split; [apply (by_table C07_Task); open_Task x; unfold Task_layout; norm_Task; loc|]. split; [apply (by_table C07_Task); open_Task x; unfold Task_layout; norm_Task; loc|]. split; [apply (by_table C07_Task); open_Task x; unfold Task_layout; norm_Task; loc|]. split; [apply (by_table C07_Task); open_Task x; unfold Task_layout; norm_Task; loc|]. split; [apply (by_table C07_Task); open_Task x; unfold Task_layout; norm_Task; loc|]. split; [apply (by_table C07_Task); open_Task x; unfold Task_layout; norm_Task; loc|]. split; [apply (by_table C07_Task); open_Task x; unfold Task_layout; norm_Task; loc|]. split; [apply (by_table C07_Task); open_Task x; unfold Task_layout; norm_Task; loc|]. split; [apply (by_table C07_Task); open_Task x; unfold Task_layout; norm_Task; loc|]. split; [apply (by_table C07_Task); open_Task x; unfold Task_layout; norm_Task; loc|]. split; [apply (by_table C07_Task); open_Task x; unfold Task_layout; norm_Task; loc|]. split; [apply (by_table C07_Task); open_Task x; unfold Task_layout; norm_Task; loc|]. split; [apply (by_table C07_Task); open_Task x; unfold Task_layout; norm_Task; loc|]. split; [apply (by_table C07_Task); open_Task x; unfold Task_layout; norm_Task; loc|]. split; [apply (by_table C07_Task); open_Task x; unfold Task_layout; norm_Task; loc|]. split; [apply (by_table C07_Task); open_Task x; unfold Task_layout; norm_Task; loc|]. split; [apply (by_table C07_Task); open_Task x; unfold Task_layout; norm_Task; loc|]. split; [apply (by_table C07_Task); open_Task x; unfold Task_layout; norm_Task; loc|]. split; [apply (by_table C07_Task); open_Task x; unfold Task_layout; norm_Task; loc|]. split; [apply (by_table C07_Task); open_Task x; unfold Task_layout; norm_Task; loc|]. split; [apply (by_table C07_Task); open_Task x; unfold Task_layout; norm_Task; loc|]. split; [apply (by_table C07_Task); open_Task x; unfold Task_layout; norm_Task; loc|]. intros V; apply (by_table C07_Task); open_Task x; unfold Task_layout; norm_Task; rewrite V; loc.
Qed.
Ltac norm_UnitHeaders := cbn [with_UnitHeaders_exists_ with_UnitHeaders_task_list UnitHeaders_exists_ UnitHeaders_task_list] in *.
Ltac open_UnitHeaders x := destruct x as [a0 a1].
Ltac norm_ResourceStorage := cbn [with_ResourceStorage_type with_ResourceStorage_amount with_ResourceStorage_flag ResourceStorage_type ResourceStorage_amount ResourceStorage_flag] in *.
Ltac open_ResourceStorage x := destruct x as [a0 a1 a2].
Theorem C31_ResourceStorage : forall v x, 
  (stays_local ResourceStorage_to_bytes v (fun t => with_ResourceStorage_type t x) I16) /\
  (stays_local ResourceStorage_to_bytes v (fun t => with_ResourceStorage_amount t x) F32s) /\
  (stays_local ResourceStorage_to_bytes v (fun t => with_ResourceStorage_flag t x) I8).
Proof.
  intros v x. split; [apply (by_table C07_ResourceStorage); open_ResourceStorage x; unfold ResourceStorage_layout; norm_ResourceStorage; loc|]. split; [apply (by_table C07_ResourceStorage); open_ResourceStorage x; unfold ResourceStorage_layout; norm_ResourceStorage; loc|]. apply (by_table C07_ResourceStorage); open_ResourceStorage x; unfold ResourceStorage_layout; norm_ResourceStorage; loc.
Qed.
Ltac norm_DamageGraphic := cbn [with_DamageGraphic_graphic_id with_DamageGraphic_damage_percent with_DamageGraphic_apply_mode DamageGraphic_graphic_id DamageGraphic_damage_percent DamageGraphic_apply_mode] in *.
Ltac open_DamageGraphic x := destruct x as [a0 a1 a2].
Theorem C31_DamageGraphic : forall v x, 
  (stays_local DamageGraphic_to_bytes v (fun t => with_DamageGraphic_graphic_id t x) I16) /\
  (stays_local DamageGraphic_to_bytes v (fun t => with_DamageGraphic_damage_percent t x) I16) /\
  (stays_local DamageGraphic_to_bytes v (fun t => with_DamageGraphic_apply_mode t x) I8).
Proof.
  intros v x. split; [apply (by_table C07_DamageGraphic); open_DamageGraphic x; unfold DamageGraphic_layout; norm_DamageGraphic; loc|]. split; [apply (by_table C07_DamageGraphic); open_DamageGraphic x; unfold DamageGraphic_layout; norm_DamageGraphic; loc|]. apply (by_table C07_DamageGraphic); open_DamageGraphic x; unfold DamageGraphic_layout; norm_DamageGraphic; loc.
Qed.
Ltac norm_DeadFish := cbn [with_DeadFish_walking_graphic with_DeadFish_running_graphic with_DeadFish_rotation_speed with_DeadFish_old_size_class with_DeadFish_tracking_unit with_DeadFish_tracking_unit_mode with_DeadFish_tracking_unit_density with_DeadFish_old_move_algorithm with_DeadFish_turn_radius with_DeadFish_turn_radius_speed with_DeadFish_max_yaw_per_second_moving with_DeadFish_stationary_yaw_revolution_time with_DeadFish_max_yaw_per_second_stationary with_DeadFish_min_collision_size_multiplier DeadFish_walking_graphic DeadFish_running_graphic DeadFish_rotation_speed DeadFish_old_size_class DeadFish_tracking_unit DeadFish_tracking_unit_mode DeadFish_tracking_unit_density DeadFish_old_move_algorithm DeadFish_turn_radius DeadFish_turn_radius_speed DeadFish_max_yaw_per_second_moving DeadFish_stationary_yaw_revolution_time DeadFish_max_yaw_per_second_stationary DeadFish_min_collision_size_multiplier] in *.
Ltac open_DeadFish x := destruct x as [a0 a1 a2 a3 a4 a5 a6 a7 a8 a9 a10 a11 a12 a13].
Theorem C31_DeadFish : forall v x, 
  (stays_local DeadFish_to_bytes v (fun t => with_DeadFish_walking_graphic t x) I16) /\
  (stays_local DeadFish_to_bytes v (fun t => with_DeadFish_running_graphic t x) I16) /\
  (stays_local DeadFish_to_bytes v (fun t => with_DeadFish_rotation_speed t x) F32s) /\
  (stays_local DeadFish_to_bytes v (fun t => with_DeadFish_old_size_class t x) I8) /\
  (stays_local DeadFish_to_bytes v (fun t => with_DeadFish_tracking_unit t x) I16) /\
  (stays_local DeadFish_to_bytes v (fun t => with_DeadFish_tracking_unit_mode t x) I8) /\
  (stays_local DeadFish_to_bytes v (fun t => with_DeadFish_tracking_unit_density t x) F32s) /\
  (stays_local DeadFish_to_bytes v (fun t => with_DeadFish_old_move_algorithm t x) I8) /\
  (stays_local DeadFish_to_bytes v (fun t => with_DeadFish_turn_radius t x) F32s) /\
  (stays_local DeadFish_to_bytes v (fun t => with_DeadFish_turn_radius_speed t x) F32s) /\
  (stays_local DeadFish_to_bytes v (fun t => with_DeadFish_max_yaw_per_second_moving t x) F32s) /\
  (stays_local DeadFish_to_bytes v (fun t => with_DeadFish_stationary_yaw_revolution_time t x) F32s) /\
  (stays_local DeadFish_to_bytes v (fun t => with_DeadFish_max_yaw_per_second_stationary t x) F32s) /\
  (stays_local DeadFish_to_bytes v (fun t => with_DeadFish_min_collision_size_multiplier t x) F32s).
Proof.
  intros v x. split; [apply (by_table C07_DeadFish); open_DeadFish x; unfold DeadFish_layout; norm_DeadFish; loc|]. split; [apply (by_table C07_DeadFish); open_DeadFish x; unfold DeadFish_layout; norm_DeadFish; loc|]. split; [apply (by_table C07_DeadFish); open_DeadFish x; unfold DeadFish_layout; norm_DeadFish; loc|]. split; [apply (by_table C07_DeadFish); open_DeadFish x; unfold DeadFish_layout; norm_DeadFish; loc|]. split; [apply (by_table C07_DeadFish); open_DeadFish x; unfold DeadFish_layout; norm_DeadFish; loc|]. split; [apply (by_table C07_DeadFish); open_DeadFish x; unfold DeadFish_layout; norm_DeadFish; loc|]. split; [apply (by_table C07_DeadFish); open_DeadFish x; unfold DeadFish_layout; norm_DeadFish; loc|]. split; [apply (by_table C07_DeadFish); open_DeadFish x; unfold DeadFish_layout; norm_DeadFish; loc|]. split; [apply (by_table C07_DeadFish); open_DeadFish x; unfold DeadFish_layout; norm_DeadFish; loc|]. split; [apply (by_table C07_DeadFish); open_DeadFish x; unfold DeadFish_layout; norm_DeadFish; loc|]. split; [apply (by_table C07_DeadFish); open_DeadFish x; unfold DeadFish_layout; norm_DeadFish; loc|]. split; [apply (by_table C07_DeadFish); open_DeadFish x; unfold DeadFish_layout; norm_DeadFish; loc|]. split; [apply (by_table C07_DeadFish); open_DeadFish x; unfold DeadFish_layout; norm_DeadFish; loc|]. apply (by_table C07_DeadFish); open_DeadFish x; unfold DeadFish_layout; norm_DeadFish; loc.
Qed.
Ltac norm_Bird := cbn [with_Bird_default_task_id with_Bird_search_radius with_Bird_work_rate with_Bird_drop_sites with_Bird_task_swap_group with_Bird_attack_sound with_Bird_move_sound with_Bird_wwise_attack_sound_id with_Bird_wwise_move_sound_id with_Bird_run_pattern with_Bird_tasks Bird_default_task_id Bird_search_radius Bird_work_rate Bird_drop_sites Bird_task_swap_group Bird_attack_sound Bird_move_sound Bird_wwise_attack_sound_id Bird_wwise_move_sound_id Bird_run_pattern Bird_tasks] in *.
Ltac open_Bird x := destruct x as [a0 a1 a2 a3 a4 a5 a6 a7 a8 a9 a10].
Theorem C31_Bird : forall v x, 
  (stays_local Bird_to_bytes v (fun t => with_Bird_default_task_id t x) I16) /\
  (stays_local Bird_to_bytes v (fun t => with_Bird_search_radius t x) F32) /\
  (stays_local Bird_to_bytes v (fun t => with_Bird_work_rate t x) F32) /\
  (forall i, (i < length (Bird_drop_sites x))%nat -> stays_local Bird_to_bytes v (fun t => with_Bird_drop_sites (set_nth i t (Bird_drop_sites x)) x) I16) /\
  (stays_local Bird_to_bytes v (fun t => with_Bird_task_swap_group t x) U8) /\
  (stays_local Bird_to_bytes v (fun t => with_Bird_attack_sound t x) I16) /\
  (stays_local Bird_to_bytes v (fun t => with_Bird_move_sound t x) I16) /\
  (stays_local Bird_to_bytes v (fun t => with_Bird_wwise_attack_sound_id t x) I32) /\
  (stays_local Bird_to_bytes v (fun t => with_Bird_wwise_move_sound_id t x) I32) /\
  (stays_local Bird_to_bytes v (fun t => with_Bird_run_pattern t x) U8).
Proof.
  intros v x. split; [apply (by_table C07_Bird); open_Bird x; unfold Bird_layout; norm_Bird; loc|]. split; [apply (by_table C07_Bird); open_Bird x; unfold Bird_layout; norm_Bird; loc|]. split; [apply (by_table C07_Bird); open_Bird x; unfold Bird_layout; norm_Bird; loc|]. split; [intros i Hi; apply (by_table C07_Bird); open_Bird x; unfold Bird_layout; norm_Bird; loc|]. split; [apply (by_table C07_Bird); open_Bird x; unfold Bird_layout; norm_Bird; loc|]. split; [apply (by_table C07_Bird); open_Bird x; unfold Bird_layout; norm_Bird; loc|]. split; [apply (by_table C07_Bird); open_Bird x; unfold Bird_layout; norm_Bird; loc|]. split; [apply (by_table C07_Bird); open_Bird x; unfold Bird_layout; norm_Bird; loc|]. split; [apply (by_table C07_Bird); open_Bird x; unfold Bird_layout; norm_Bird; loc|]. apply (by_table C07_Bird); open_Bird x; unfold Bird_layout; norm_Bird; loc.
Qed.
Theorem C31_Bird_parts : forall v x, 
  (forall i T (g : T -> Task) mk, (i < length (Bird_tasks x))%nat -> stays_local Task_to_bytes v g mk ->
     stays_local Bird_to_bytes v (fun t => with_Bird_tasks (set_nth i (g t) (Bird_tasks x)) x) mk).
Proof.
  intros v x.  intros i T g mk Hi G; apply (to_table C07_Task) in G; apply (by_table C07_Bird); open_Bird x; unfold Bird_layout; norm_Bird; loc.
Qed.
Ltac norm_AttackOrArmor := cbn [with_AttackOrArmor_class_ with_AttackOrArmor_amount AttackOrArmor_class_ AttackOrArmor_amount] in *.
Ltac open_AttackOrArmor x := destruct x as [a0 a1].
Theorem C31_AttackOrArmor : forall v x, 
  (stays_local AttackOrArmor_to_bytes v (fun t => with_AttackOrArmor_class_ t x) I16) /\
  (stays_local AttackOrArmor_to_bytes v (fun t => with_AttackOrArmor_amount t x) I16).
Proof.
  intros v x. split; [apply (by_table C07_AttackOrArmor); open_AttackOrArmor x; unfold AttackOrArmor_layout; norm_AttackOrArmor; loc|]. apply (by_table C07_AttackOrArmor); open_AttackOrArmor x; unfold AttackOrArmor_layout; norm_AttackOrArmor; loc.
Qed.
Ltac norm_Type50 := cbn [with_Type50_base_armor with_Type50_attacks with_Type50_armours with_Type50_defense_terrain_bonus with_Type50_bonus_damage_resistance with_Type50_max_range with_Type50_blast_width with_Type50_reload_time with_Type50_projectile_unit_id with_Type50_accuracy_percent with_Type50_break_off_combat with_Type50_frame_delay with_Type50_graphic_displacement with_Type50_blast_attack_level with_Type50_min_range with_Type50_accuracy_dispersion with_Type50_attack_graphic with_Type50_displayed_melee_armour with_Type50_displayed_attack with_Type50_displayed_range with_Type50_displayed_reload_time with_Type50_blast_damage with_Type50_damage_reflection with_Type50_friendly_fire_damage with_Type50_interrupt_frame with_Type50_garrison_firepower with_Type50_attack_graphic_2 Type50_base_armor Type50_attacks Type50_armours Type50_defense_terrain_bonus Type50_bonus_damage_resistance Type50_max_range Type50_blast_width Type50_reload_time Type50_projectile_unit_id Type50_accuracy_percent Type50_break_off_combat Type50_frame_delay Type50_graphic_displacement Type50_blast_attack_level Type50_min_range Type50_accuracy_dispersion Type50_attack_graphic Type50_displayed_melee_armour Type50_displayed_attack Type50_displayed_range Type50_displayed_reload_time Type50_blast_damage Type50_damage_reflection Type50_friendly_fire_damage Type50_interrupt_frame Type50_garrison_firepower Type50_attack_graphic_2] in *.
Ltac open_Type50 x := destruct x as [a0 a1 a2 a3 a4 a5 a6 a7 a8 a9 a10 a11 a12 a13 a14 a15 a16 a17 a18 a19 a20 a21 a22 a23 a24 a25 a26].
Theorem C31_Type50 : forall v x, 
  (stays_local Type50_to_bytes v (fun t => with_Type50_base_armor t x) I16) /\
  (stays_local Type50_to_bytes v (fun t => with_Type50_defense_terrain_bonus t x) I16) /\
  (stays_local Type50_to_bytes v (fun t => with_Type50_bonus_damage_resistance t x) F32) /\
  (stays_local Type50_to_bytes v (fun t => with_Type50_max_range t x) F32) /\
  (stays_local Type50_to_bytes v (fun t => with_Type50_blast_width t x) F32) /\
  (stays_local Type50_to_bytes v (fun t => with_Type50_reload_time t x) F32) /\
  (stays_local Type50_to_bytes v (fun t => with_Type50_projectile_unit_id t x) I16) /\
  (stays_local Type50_to_bytes v (fun t => with_Type50_accuracy_percent t x) I16) /\
  (stays_local Type50_to_bytes v (fun t => with_Type50_break_off_combat t x) U8) /\
  (stays_local Type50_to_bytes v (fun t => with_Type50_frame_delay t x) I16) /\
  (forall i, (i < length (Type50_graphic_displacement x))%nat -> stays_local Type50_to_bytes v (fun t => with_Type50_graphic_displacement (set_nth i t (Type50_graphic_displacement x)) x) F32) /\
  (stays_local Type50_to_bytes v (fun t => with_Type50_blast_attack_level t x) U8) /\
  (stays_local Type50_to_bytes v (fun t => with_Type50_min_range t x) F32) /\
  (stays_local Type50_to_bytes v (fun t => with_Type50_accuracy_dispersion t x) F32) /\
  (stays_local Type50_to_bytes v (fun t => with_Type50_attack_graphic t x) I16) /\
  (stays_local Type50_to_bytes v (fun t => with_Type50_displayed_melee_armour t x) I16) /\
  (stays_local Type50_to_bytes v (fun t => with_Type50_displayed_attack t x) I16) /\
  (stays_local Type50_to_bytes v (fun t => with_Type50_displayed_range t x) F32) /\
  (stays_local Type50_to_bytes v (fun t => with_Type50_displayed_reload_time t x) F32) /\
  (stays_local Type50_to_bytes v (fun t => with_Type50_blast_damage t x) F32) /\
  (since 84 v = true -> stays_local Type50_to_bytes v (fun t => with_Type50_damage_reflection t x) F32) /\
  (since 84 v = true -> stays_local Type50_to_bytes v (fun t => with_Type50_friendly_fire_damage t x) F32) /\
  (since 84 v = true -> stays_local Type50_to_bytes v (fun t => with_Type50_interrupt_frame t x) I16) /\
  (since 84 v = true -> stays_local Type50_to_bytes v (fun t => with_Type50_garrison_firepower t x) F32) /\
  (since 84 v = true -> stays_local Type50_to_bytes v (fun t => with_Type50_attack_graphic_2 t x) I16).
Proof.
  intros v x. split; [apply (by_table C07_Type50); open_Type50 x; unfold Type50_layout; norm_Type50; loc|]. split; [apply (by_table C07_Type50); open_Type50 x; unfold Type50_layout; norm_Type50; loc|]. split; [apply (by_table C07_Type50); open_Type50 x; unfold Type50_layout; norm_Type50; loc|]. split; [apply (by_table C07_Type50); open_Type50 x; unfold Type50_layout; norm_Type50; loc|]. split; [apply (by_table C07_Type50); open_Type50 x; unfold Type50_layout; norm_Type50; loc|]. split; [apply (by_table C07_Type50); open_Type50 x; unfold Type50_layout; norm_Type50; loc|]. split; [apply (by_table C07_Type50); open_Type50 x; unfold Type50_layout; norm_Type50; loc|]. split; [apply (by_table C07_Type50); open_Type50 x; unfold Type50_layout; norm_Type50; loc|]. split; [apply (by_table C07_Type50); open_Type50 x; unfold Type50_layout; norm_Type50; loc|]. split; [apply (by_table C07_Type50); open_Type50 x; unfold Type50_layout; norm_Type50; loc|]. split; [intros i Hi; apply (by_table C07_Type50); open_Type50 x; unfold Type50_layout; norm_Type50; loc|]. split; [apply (by_table C07_Type50); open_Type50 x; unfold Type50_layout; norm_Type50; loc|]. split; [apply (by_table C07_Type50); open_Type50 x; unfold Type50_layout; norm_Type50; loc|]. split; [apply (by_table C07_Type50); open_Type50 x; unfold Type50_layout; norm_Type50; loc|]. split; [apply (by_table C07_Type50); open_Type50 x; unfold Type50_layout; norm_Type50; loc|]. split; [apply (by_table C07_Type50); open_Type50 x; unfold Type50_layout; norm_Type50; loc|]. split; [apply (by_table C07_Type50); open_Type50 x; unfold Type50_layout; norm_Type50; loc|]. split; [apply (by_table C07_Type50); open_Type50 x; unfold Type50_layout; norm_Type50; loc|]. split; [apply (by_table C07_Type50); open_Type50 x; unfold Type50_layout; norm_Type50; loc|]. split; [apply (by_table C07_Type50); open_Type50 x; unfold Type50_layout; norm_Type50; loc|]. split; [intros V; apply (by_table C07_Type50); open_Type50 x; unfold Type50_layout; norm_Type50; rewrite V; loc|]. split; [intros V; apply (by_table C07_Type50); open_Type50 x; unfold Type50_layout; norm_Type50; rewrite V; loc|]. split; [intros V; apply (by_table C07_Type50); open_Type50 x; unfold Type50_layout; norm_Type50; rewrite V; loc|]. split; [intros V; apply (by_table C07_Type50); open_Type50 x; unfold Type50_layout; norm_Type50; rewrite V; loc|]. intros V; apply (by_table C07_Type50); open_Type50 x; unfold Type50_layout; norm_Type50; rewrite V; loc.
Qed.
Theorem C31_Type50_parts : forall v x, 
  (forall i T (g : T -> AttackOrArmor) mk, (i < length (Type50_attacks x))%nat -> stays_local AttackOrArmor_to_bytes v g mk ->
     stays_local Type50_to_bytes v (fun t => with_Type50_attacks (set_nth i (g t) (Type50_attacks x)) x) mk) /\
  (forall i T (g : T -> AttackOrArmor) mk, (i < length (Type50_armours x))%nat -> stays_local AttackOrArmor_to_bytes v g mk ->
     stays_local Type50_to_bytes v (fun t => with_Type50_armours (set_nth i (g t) (Type50_armours x)) x) mk).
Proof.
  intros v x. split; [intros i T g mk Hi G; apply (to_table C07_AttackOrArmor) in G; apply (by_table C07_Type50); open_Type50 x; unfold Type50_layout; norm_Type50; loc|]. intros i T g mk Hi G; apply (to_table C07_AttackOrArmor) in G; apply (by_table C07_Type50); open_Type50 x; unfold Type50_layout; norm_Type50; loc.
Qed.
Ltac norm_Projectile := cbn [with_Projectile_projectile_type with_Projectile_smart_mode with_Projectile_hit_mode with_Projectile_vanish_mode with_Projectile_area_effect_specials with_Projectile_projectile_arc Projectile_projectile_type Projectile_smart_mode Projectile_hit_mode Projectile_vanish_mode Projectile_area_effect_specials Projectile_projectile_arc] in *.
Ltac open_Projectile x := destruct x as [a0 a1 a2 a3 a4 a5].
Theorem C31_Projectile : forall v x, 
  (stays_local Projectile_to_bytes v (fun t => with_Projectile_projectile_type t x) I8) /\
  (stays_local Projectile_to_bytes v (fun t => with_Projectile_smart_mode t x) I8) /\
  (stays_local Projectile_to_bytes v (fun t => with_Projectile_hit_mode t x) I8) /\
  (stays_local Projectile_to_bytes v (fun t => with_Projectile_vanish_mode t x) I8) /\
  (stays_local Projectile_to_bytes v (fun t => with_Projectile_area_effect_specials t x) I8) /\
  (stays_local Projectile_to_bytes v (fun t => with_Projectile_projectile_arc t x) F32s).
Proof.
  intros v x. split; [apply (by_table C07_Projectile); open_Projectile x; unfold Projectile_layout; norm_Projectile; loc|]. split; [apply (by_table C07_Projectile); open_Projectile x; unfold Projectile_layout; norm_Projectile; loc|]. split; [apply (by_table C07_Projectile); open_Projectile x; unfold Projectile_layout; norm_Projectile; loc|]. split; [apply (by_table C07_Projectile); open_Projectile x; unfold Projectile_layout; norm_Projectile; loc|]. split; [apply (by_table C07_Projectile); open_Projectile x; unfold Projectile_layout; norm_Projectile; loc|]. apply (by_table C07_Projectile); open_Projectile x; unfold Projectile_layout; norm_Projectile; loc.
Qed.
Ltac norm_ResourceCost := cbn [with_ResourceCost_type with_ResourceCost_amount with_ResourceCost_flag ResourceCost_type ResourceCost_amount ResourceCost_flag] in *.
Ltac open_ResourceCost x := destruct x as [a0 a1 a2].
Theorem C31_ResourceCost : forall v x, 
  (stays_local ResourceCost_to_bytes v (fun t => with_ResourceCost_type t x) I16) /\
  (stays_local ResourceCost_to_bytes v (fun t => with_ResourceCost_amount t x) I16) /\
  (stays_local ResourceCost_to_bytes v (fun t => with_ResourceCost_flag t x) I16).
Proof.
  intros v x. split; [apply (by_table C07_ResourceCost); open_ResourceCost x; unfold ResourceCost_layout; norm_ResourceCost; loc|]. split; [apply (by_table C07_ResourceCost); open_ResourceCost x; unfold ResourceCost_layout; norm_ResourceCost; loc|]. apply (by_table C07_ResourceCost); open_ResourceCost x; unfold ResourceCost_layout; norm_ResourceCost; loc.
Qed.
Ltac norm_TrainLocation := cbn [with_TrainLocation_train_time with_TrainLocation_unit_id with_TrainLocation_button_id with_TrainLocation_hot_key_id TrainLocation_train_time TrainLocation_unit_id TrainLocation_button_id TrainLocation_hot_key_id] in *.
Ltac open_TrainLocation x := destruct x as [a0 a1 a2 a3].
Theorem C31_TrainLocation : forall v x, 
  (stays_local TrainLocation_to_bytes v (fun t => with_TrainLocation_train_time t x) I16) /\
  (stays_local TrainLocation_to_bytes v (fun t => with_TrainLocation_unit_id t x) I16) /\
  (stays_local TrainLocation_to_bytes v (fun t => with_TrainLocation_button_id t x) I8) /\
  (since 88 v = true -> stays_local TrainLocation_to_bytes v (fun t => with_TrainLocation_hot_key_id t x) I32).
Proof.
  intros v x. split; [apply (by_table C07_TrainLocation); open_TrainLocation x; unfold TrainLocation_layout; norm_TrainLocation; loc|]. split; [apply (by_table C07_TrainLocation); open_TrainLocation x; unfold TrainLocation_layout; norm_TrainLocation; loc|]. split; [apply (by_table C07_TrainLocation); open_TrainLocation x; unfold TrainLocation_layout; norm_TrainLocation; loc|]. intros V; apply (by_table C07_TrainLocation); open_TrainLocation x; unfold TrainLocation_layout; norm_TrainLocation; rewrite V; loc.
Qed.
Ltac norm_Creatable := cbn [with_Creatable_resource_costs with_Creatable_train_locations with_Creatable_rear_attack_modifier with_Creatable_flank_attack_modifier with_Creatable_creatable_type with_Creatable_hero_mode with_Creatable_garrison_graphic with_Creatable_spawning_graphic with_Creatable_upgrade_graphic with_Creatable_hero_glow_graphic with_Creatable_idle_attack_graphic with_Creatable_max_charge with_Creatable_recharge_rate with_Creatable_charge_event with_Creatable_charge_type with_Creatable_charge_target with_Creatable_charge_projectile_unit with_Creatable_attack_priority with_Creatable_invulnerability_level with_Creatable_button_icon_id with_Creatable_button_short_tooltip_id with_Creatable_button_extended_tooltip_id with_Creatable_button_hotkey_action with_Creatable_min_conversion_time_mod with_Creatable_max_conversion_time_mod with_Creatable_conversion_chance_mod with_Creatable_total_projectiles with_Creatable_max_total_projectiles with_Creatable_projectile_spawning_area with_Creatable_secondary_projectile_unit with_Creatable_special_graphic with_Creatable_special_ability with_Creatable_displayed_pierce_armour Creatable_resource_costs Creatable_train_locations Creatable_rear_attack_modifier Creatable_flank_attack_modifier Creatable_creatable_type Creatable_hero_mode Creatable_garrison_graphic Creatable_spawning_graphic Creatable_upgrade_graphic Creatable_hero_glow_graphic Creatable_idle_attack_graphic Creatable_max_charge Creatable_recharge_rate Creatable_charge_event Creatable_charge_type Creatable_charge_target Creatable_charge_projectile_unit Creatable_attack_priority Creatable_invulnerability_level Creatable_button_icon_id Creatable_button_short_tooltip_id Creatable_button_extended_tooltip_id Creatable_button_hotkey_action Creatable_min_conversion_time_mod Creatable_max_conversion_time_mod Creatable_conversion_chance_mod Creatable_total_projectiles Creatable_max_total_projectiles Creatable_projectile_spawning_area Creatable_secondary_projectile_unit Creatable_special_graphic Creatable_special_ability Creatable_displayed_pierce_armour] in *.
Ltac open_Creatable x := destruct x as [a0 a1 a2 a3 a4 a5 a6 a7 a8 a9 a10 a11 a12 a13 a14 a15 a16 a17 a18 a19 a20 a21 a22 a23 a24 a25 a26 a27 a28 a29 a30 a31 a32].
Theorem C31_Creatable : forall v x, 
  (stays_local Creatable_to_bytes v (fun t => with_Creatable_rear_attack_modifier t x) F32s) /\
  (stays_local Creatable_to_bytes v (fun t => with_Creatable_flank_attack_modifier t x) F32s) /\
  (stays_local Creatable_to_bytes v (fun t => with_Creatable_creatable_type t x) I8) /\
  (stays_local Creatable_to_bytes v (fun t => with_Creatable_hero_mode t x) I8) /\
  (stays_local Creatable_to_bytes v (fun t => with_Creatable_garrison_graphic t x) I32) /\
  (stays_local Creatable_to_bytes v (fun t => with_Creatable_spawning_graphic t x) I16) /\
  (stays_local Creatable_to_bytes v (fun t => with_Creatable_upgrade_graphic t x) I16) /\
  (stays_local Creatable_to_bytes v (fun t => with_Creatable_hero_glow_graphic t x) I16) /\
  (since 84 v = true -> stays_local Creatable_to_bytes v (fun t => with_Creatable_idle_attack_graphic t x) I16) /\
  (stays_local Creatable_to_bytes v (fun t => with_Creatable_max_charge t x) F32s) /\
  (stays_local Creatable_to_bytes v (fun t => with_Creatable_recharge_rate t x) F32s) /\
  (stays_local Creatable_to_bytes v (fun t => with_Creatable_charge_event t x) I16) /\
  (stays_local Creatable_to_bytes v (fun t => with_Creatable_charge_type t x) I16) /\
  (since 84 v = true -> stays_local Creatable_to_bytes v (fun t => with_Creatable_charge_target t x) I16) /\
  (since 84 v = true -> stays_local Creatable_to_bytes v (fun t => with_Creatable_charge_projectile_unit t x) I32) /\
  (since 84 v = true -> stays_local Creatable_to_bytes v (fun t => with_Creatable_attack_priority t x) I8) /\
  (since 84 v = true -> stays_local Creatable_to_bytes v (fun t => with_Creatable_invulnerability_level t x) F32s) /\
  (since 84 v = true -> stays_local Creatable_to_bytes v (fun t => with_Creatable_button_icon_id t x) I16) /\
  (since 84 v = true -> stays_local Creatable_to_bytes v (fun t => with_Creatable_button_short_tooltip_id t x) I32) /\
  (since 84 v = true -> stays_local Creatable_to_bytes v (fun t => with_Creatable_button_extended_tooltip_id t x) I32) /\
  (since 84 v = true -> stays_local Creatable_to_bytes v (fun t => with_Creatable_button_hotkey_action t x) I16) /\
  (stays_local Creatable_to_bytes v (fun t => with_Creatable_min_conversion_time_mod t x) F32s) /\
  (stays_local Creatable_to_bytes v (fun t => with_Creatable_max_conversion_time_mod t x) F32s) /\
  (stays_local Creatable_to_bytes v (fun t => with_Creatable_conversion_chance_mod t x) F32s) /\
  (stays_local Creatable_to_bytes v (fun t => with_Creatable_total_projectiles t x) F32s) /\
  (stays_local Creatable_to_bytes v (fun t => with_Creatable_max_total_projectiles t x) I8) /\
  (forall i, (i < length (Creatable_projectile_spawning_area x))%nat -> stays_local Creatable_to_bytes v (fun t => with_Creatable_projectile_spawning_area (set_nth i t (Creatable_projectile_spawning_area x)) x) F32s) /\
  (stays_local Creatable_to_bytes v (fun t => with_Creatable_secondary_projectile_unit t x) I32) /\
  (stays_local Creatable_to_bytes v (fun t => with_Creatable_special_graphic t x) I32) /\
  (stays_local Creatable_to_bytes v (fun t => with_Creatable_special_ability t x) I8) /\
  (stays_local Creatable_to_bytes v (fun t => with_Creatable_displayed_pierce_armour t x) I16).
Proof.
  intros v x. split; [apply (by_table C07_Creatable); open_Creatable x; unfold Creatable_layout; norm_Creatable; loc|]. split; [apply (by_table C07_Creatable); open_Creatable x; unfold Creatable_layout; norm_Creatable; loc|]. split; [apply (by_table C07_Creatable); open_Creatable x; unfold Creatable_layout; norm_Creatable; loc|]. split; [apply (by_table C07_Creatable); open_Creatable x; unfold Creatable_layout; norm_Creatable; loc|]. split; [apply (by_table C07_Creatable); open_Creatable x; unfold Creatable_layout; norm_Creatable; loc|]. split; [apply (by_table C07_Creatable); open_Creatable x; unfold Creatable_layout; norm_Creatable; loc|]. split; [apply (by_table C07_Creatable); open_Creatable x; unfold Creatable_layout; norm_Creatable; loc|]. split; [apply (by_table C07_Creatable); open_Creatable x; unfold Creatable_layout; norm_Creatable; loc|]. split; [intros V; apply (by_table C07_Creatable); open_Creatable x; unfold Creatable_layout; norm_Creatable; rewrite V; loc|]. split; [apply (by_table C07_Creatable); open_Creatable x; unfold Creatable_layout; norm_Creatable; loc|]. split; [apply (by_table C07_Creatable); open_Creatable x; unfold Creatable_layout; norm_Creatable; loc|]. split; [apply (by_table C07_Creatable); open_Creatable x; unfold Creatable_layout; norm_Creatable; loc|]. split; [apply (by_table C07_Creatable); open_Creatable x; unfold Creatable_layout; norm_Creatable; loc|]. split; [intros V; apply (by_table C07_Creatable); open_Creatable x; unfold Creatable_layout; norm_Creatable; rewrite V; loc|]. split; [intros V; apply (by_table C07_Creatable); open_Creatable x; unfold Creatable_layout; norm_Creatable; rewrite V; loc|]. split; [intros V; apply (by_table C07_Creatable); open_Creatable x; unfold Creatable_layout; norm_Creatable; rewrite V; loc|]. split; [intros V; apply (by_table C07_Creatable); open_Creatable x; unfold Creatable_layout; norm_Creatable; rewrite V; loc|]. split; [intros V; apply (by_table C07_Creatable); open_Creatable x; unfold Creatable_layout; norm_Creatable; rewrite V; loc|]. split; [intros V; apply (by_table C07_Creatable); open_Creatable x; unfold Creatable_layout; norm_Creatable; rewrite V; loc|]. split; [intros V; apply (by_table C07_Creatable); open_Creatable x; unfold Creatable_layout; norm_Creatable; rewrite V; loc|]. split; [intros V; apply (by_table C07_Creatable); open_Creatable x; unfold Creatable_layout; norm_Creatable; rewrite V; loc|]. split; [apply (by_table C07_Creatable); open_Creatable x; unfold Creatable_layout; norm_Creatable; loc|]. split; [apply (by_table C07_Creatable); open_Creatable x; unfold Creatable_layout; norm_Creatable; loc|]. split; [apply (by_table C07_Creatable); open_Creatable x; unfold Creatable_layout; norm_Creatable; loc|]. split; [apply (by_table C07_Creatable); open_Creatable x; unfold Creatable_layout; norm_Creatable; loc|]. split; [apply (by_table C07_Creatable); open_Creatable x; unfold Creatable_layout; norm_Creatable; loc|]. split; [intros i Hi; apply (by_table C07_Creatable); open_Creatable x; unfold Creatable_layout; norm_Creatable; loc|]. split; [apply (by_table C07_Creatable); open_Creatable x; unfold Creatable_layout; norm_Creatable; loc|]. split; [apply (by_table C07_Creatable); open_Creatable x; unfold Creatable_layout; norm_Creatable; loc|]. split; [apply (by_table C07_Creatable); open_Creatable x; unfold Creatable_layout; norm_Creatable; loc|]. apply (by_table C07_Creatable); open_Creatable x; unfold Creatable_layout; norm_Creatable; loc.
Qed.
Theorem C31_Creatable_parts : forall v x, 
  (forall i T (g : T -> ResourceCost) mk, (i < length (Creatable_resource_costs x))%nat -> stays_local ResourceCost_to_bytes v g mk ->
     stays_local Creatable_to_bytes v (fun t => with_Creatable_resource_costs (set_nth i (g t) (Creatable_resource_costs x)) x) mk) /\
  (forall i T (g : T -> TrainLocation) mk, (i < length (Creatable_train_locations x))%nat -> since 88 v = true -> stays_local TrainLocation_to_bytes v g mk ->
     stays_local Creatable_to_bytes v (fun t => with_Creatable_train_locations (set_nth i (g t) (Creatable_train_locations x)) x) mk).
Proof.
  intros v x. split; [intros i T g mk Hi G; apply (to_table C07_ResourceCost) in G; apply (by_table C07_Creatable); open_Creatable x; unfold Creatable_layout; norm_Creatable; loc|]. intros i T g mk Hi V G; apply (to_table C07_TrainLocation) in G; apply (by_table C07_Creatable); open_Creatable x; unfold Creatable_layout; norm_Creatable; rewrite V; loc.
Qed.
Ltac norm_BuildingAnnex := cbn [with_BuildingAnnex_unit_id with_BuildingAnnex_misplacement_x with_BuildingAnnex_misplacement_y BuildingAnnex_unit_id BuildingAnnex_misplacement_x BuildingAnnex_misplacement_y] in *.
Ltac open_BuildingAnnex x := destruct x as [a0 a1 a2].
Theorem C31_BuildingAnnex : forall v x, 
  (stays_local BuildingAnnex_to_bytes v (fun t => with_BuildingAnnex_unit_id t x) I16) /\
  (stays_local BuildingAnnex_to_bytes v (fun t => with_BuildingAnnex_misplacement_x t x) F32s) /\
  (stays_local BuildingAnnex_to_bytes v (fun t => with_BuildingAnnex_misplacement_y t x) F32s).
Proof.
  intros v x. split; [apply (by_table C07_BuildingAnnex); open_BuildingAnnex x; unfold BuildingAnnex_layout; norm_BuildingAnnex; loc|]. split; [apply (by_table C07_BuildingAnnex); open_BuildingAnnex x; unfold BuildingAnnex_layout; norm_BuildingAnnex; loc|]. apply (by_table C07_BuildingAnnex); open_BuildingAnnex x; unfold BuildingAnnex_layout; norm_BuildingAnnex; loc.
Qed.
Ltac norm_Building := cbn [with_Building_construction_graphic_id with_Building_snow_graphic_id with_Building_destruction_graphic_id with_Building_destruction_rubble_graphic_id with_Building_researching_graphic with_Building_research_completed_graphic with_Building_adjacent_mode with_Building_graphics_angle with_Building_disappears_when_built with_Building_stack_unit_id with_Building_foundation_terrain_id with_Building_old_overlap_id with_Building_tech_id with_Building_can_burn with_Building_annexes with_Building_head_unit with_Building_transform_unit with_Building_transform_sound with_Building_construction_sound with_Building_wwise_transform_sound_id with_Building_wwise_construction_sound_id with_Building_garrison_type with_Building_garrison_heal_rate with_Building_garrison_repair_rate with_Building_pile_unit with_Building_looting_table Building_construction_graphic_id Building_snow_graphic_id Building_destruction_graphic_id Building_destruction_rubble_graphic_id Building_researching_graphic Building_research_completed_graphic Building_adjacent_mode Building_graphics_angle Building_disappears_when_built Building_stack_unit_id Building_foundation_terrain_id Building_old_overlap_id Building_tech_id Building_can_burn Building_annexes Building_head_unit Building_transform_unit Building_transform_sound Building_construction_sound Building_wwise_transform_sound_id Building_wwise_construction_sound_id Building_garrison_type Building_garrison_heal_rate Building_garrison_repair_rate Building_pile_unit Building_looting_table] in *.
Ltac open_Building x := destruct x as [a0 a1 a2 a3 a4 a5 a6 a7 a8 a9 a10 a11 a12 a13 a14 a15 a16 a17 a18 a19 a20 a21 a22 a23 a24 a25].
Theorem C31_Building : forall v x, 
  (stays_local Building_to_bytes v (fun t => with_Building_construction_graphic_id t x) I16) /\
  (stays_local Building_to_bytes v (fun t => with_Building_snow_graphic_id t x) I16) /\
  (stays_local Building_to_bytes v (fun t => with_Building_destruction_graphic_id t x) I16) /\
  (stays_local Building_to_bytes v (fun t => with_Building_destruction_rubble_graphic_id t x) I16) /\
  (stays_local Building_to_bytes v (fun t => with_Building_researching_graphic t x) I16) /\
  (stays_local Building_to_bytes v (fun t => with_Building_research_completed_graphic t x) I16) /\
  (stays_local Building_to_bytes v (fun t => with_Building_adjacent_mode t x) I8) /\
  (stays_local Building_to_bytes v (fun t => with_Building_graphics_angle t x) I16) /\
  (stays_local Building_to_bytes v (fun t => with_Building_disappears_when_built t x) I8) /\
  (stays_local Building_to_bytes v (fun t => with_Building_stack_unit_id t x) I16) /\
  (stays_local Building_to_bytes v (fun t => with_Building_foundation_terrain_id t x) I16) /\
  (stays_local Building_to_bytes v (fun t => with_Building_old_overlap_id t x) I16) /\
  (stays_local Building_to_bytes v (fun t => with_Building_tech_id t x) I16) /\
  (stays_local Building_to_bytes v (fun t => with_Building_can_burn t x) I8) /\
  (stays_local Building_to_bytes v (fun t => with_Building_head_unit t x) I16) /\
  (stays_local Building_to_bytes v (fun t => with_Building_transform_unit t x) I16) /\
  (stays_local Building_to_bytes v (fun t => with_Building_transform_sound t x) I16) /\
  (stays_local Building_to_bytes v (fun t => with_Building_construction_sound t x) I16) /\
  (stays_local Building_to_bytes v (fun t => with_Building_wwise_transform_sound_id t x) I32) /\
  (stays_local Building_to_bytes v (fun t => with_Building_wwise_construction_sound_id t x) I32) /\
  (stays_local Building_to_bytes v (fun t => with_Building_garrison_type t x) I8) /\
  (stays_local Building_to_bytes v (fun t => with_Building_garrison_heal_rate t x) F32s) /\
  (stays_local Building_to_bytes v (fun t => with_Building_garrison_repair_rate t x) F32s) /\
  (stays_local Building_to_bytes v (fun t => with_Building_pile_unit t x) I16) /\
  (forall i, (i < length (Building_looting_table x))%nat -> stays_local Building_to_bytes v (fun t => with_Building_looting_table (set_nth i t (Building_looting_table x)) x) I8).
Proof.
  intros v x. split; [apply (by_table C07_Building); open_Building x; unfold Building_layout; norm_Building; loc|]. split; [apply (by_table C07_Building); open_Building x; unfold Building_layout; norm_Building; loc|]. split; [apply (by_table C07_Building); open_Building x; unfold Building_layout; norm_Building; loc|]. split; [apply (by_table C07_Building); open_Building x; unfold Building_layout; norm_Building; loc|]. split; [apply (by_table C07_Building); open_Building x; unfold Building_layout; norm_Building; loc|]. split; [apply (by_table C07_Building); open_Building x; unfold Building_layout; norm_Building; loc|]. split; [apply (by_table C07_Building); open_Building x; unfold Building_layout; norm_Building; loc|]. split; [apply (by_table C07_Building); open_Building x; unfold Building_layout; norm_Building; loc|]. split; [apply (by_table C07_Building); open_Building x; unfold Building_layout; norm_Building; loc|]. split; [apply (by_table C07_Building); open_Building x; unfold Building_layout; norm_Building; loc|]. split; [apply (by_table C07_Building); open_Building x; unfold Building_layout; norm_Building; loc|]. split; [apply (by_table C07_Building); open_Building x; unfold Building_layout; norm_Building; loc|]. split; [apply (by_table C07_Building); open_Building x; unfold Building_layout; norm_Building; loc|]. split; [apply (by_table C07_Building); open_Building x; unfold Building_layout; norm_Building; loc|]. split; [apply (by_table C07_Building); open_Building x; unfold Building_layout; norm_Building; loc|]. split; [apply (by_table C07_Building); open_Building x; unfold Building_layout; norm_Building; loc|]. split; [apply (by_table C07_Building); open_Building x; unfold Building_layout; norm_Building; loc|]. split; [apply (by_table C07_Building); open_Building x; unfold Building_layout; norm_Building; loc|]. split; [apply (by_table C07_Building); open_Building x; unfold Building_layout; norm_Building; loc|]. split; [apply (by_table C07_Building); open_Building x; unfold Building_layout; norm_Building; loc|]. split; [apply (by_table C07_Building); open_Building x; unfold Building_layout; norm_Building; loc|]. split; [apply (by_table C07_Building); open_Building x; unfold Building_layout; norm_Building; loc|]. split; [apply (by_table C07_Building); open_Building x; unfold Building_layout; norm_Building; loc|]. split; [apply (by_table C07_Building); open_Building x; unfold Building_layout; norm_Building; loc|]. intros i Hi; apply (by_table C07_Building); open_Building x; unfold Building_layout; norm_Building; loc.
Qed.
Theorem C31_Building_parts : forall v x, 
  (forall i T (g : T -> BuildingAnnex) mk, (i < length (Building_annexes x))%nat -> stays_local BuildingAnnex_to_bytes v g mk ->
     stays_local Building_to_bytes v (fun t => with_Building_annexes (set_nth i (g t) (Building_annexes x)) x) mk).
Proof.
  intros v x.  intros i T g mk Hi G; apply (to_table C07_BuildingAnnex) in G; apply (by_table C07_Building); open_Building x; unfold Building_layout; norm_Building; loc.
Qed.
Ltac norm_Unit := cbn [with_Unit_type with_Unit_id with_Unit_language_dll_name with_Unit_language_dll_creation with_Unit_class_ with_Unit_standing_graphic with_Unit_dying_graphic with_Unit_undead_graphic with_Unit_undead_mode with_Unit_hit_points with_Unit_line_of_sight with_Unit_garrison_capacity with_Unit_collision_size_x with_Unit_collision_size_y with_Unit_collision_size_z with_Unit_train_sound with_Unit_damage_sound with_Unit_dead_unit_id with_Unit_blood_unit_id with_Unit_sort_number with_Unit_can_be_built_on with_Unit_icon_id with_Unit_hide_in_editor with_Unit_old_portrait_pict with_Unit_enabled with_Unit_disabled with_Unit_placement_side_terrain with_Unit_placement_terrain with_Unit_clearance_size with_Unit_hill_mode with_Unit_fog_visibility with_Unit_terrain_restriction with_Unit_fly_mode with_Unit_resource_capacity with_Unit_resource_decay with_Unit_blast_defense_level with_Unit_combat_level with_Unit_interaction_mode with_Unit_minimap_mode with_Unit_interface_kind with_Unit_multiple_attribute_mode with_Unit_minimap_color with_Unit_language_dll_help with_Unit_language_dll_hotkey_text with_Unit_hot_key with_Unit_recyclable with_Unit_enable_auto_gather with_Unit_create_doppelganger_on_death with_Unit_resource_gather_group with_Unit_occlusion_mode with_Unit_obstruction_type with_Unit_obstruction_class with_Unit_trait with_Unit_civilization with_Unit_nothing with_Unit_selection_effect with_Unit_editor_selection_colour with_Unit_outline_size_x with_Unit_outline_size_y with_Unit_outline_size_z with_Unit_scenario_triggers_1 with_Unit_scenario_triggers_2 with_Unit_resource_storages with_Unit_damage_graphics with_Unit_selection_sound with_Unit_dying_sound with_Unit_wwise_train_sound_id with_Unit_wwise_damage_sound_id with_Unit_wwise_selection_sound_id with_Unit_wwise_dying_sound_id with_Unit_old_attack_reaction with_Unit_convert_terrain with_Unit_name with_Unit_copy_id with_Unit_base_id with_Unit_speed with_Unit_dead_fish with_Unit_bird with_Unit_type_50 with_Unit_projectile with_Unit_creatable with_Unit_building Unit_type Unit_id Unit_language_dll_name Unit_language_dll_creation Unit_class_ Unit_standing_graphic Unit_dying_graphic Unit_undead_graphic Unit_undead_mode Unit_hit_points Unit_line_of_sight Unit_garrison_capacity Unit_collision_size_x Unit_collision_size_y Unit_collision_size_z Unit_train_sound Unit_damage_sound Unit_dead_unit_id Unit_blood_unit_id Unit_sort_number Unit_can_be_built_on Unit_icon_id Unit_hide_in_editor Unit_old_portrait_pict Unit_enabled Unit_disabled Unit_placement_side_terrain Unit_placement_terrain Unit_clearance_size Unit_hill_mode Unit_fog_visibility Unit_terrain_restriction Unit_fly_mode Unit_resource_capacity Unit_resource_decay Unit_blast_defense_level Unit_combat_level Unit_interaction_mode Unit_minimap_mode Unit_interface_kind Unit_multiple_attribute_mode Unit_minimap_color Unit_language_dll_help Unit_language_dll_hotkey_text Unit_hot_key Unit_recyclable Unit_enable_auto_gather Unit_create_doppelganger_on_death Unit_resource_gather_group Unit_occlusion_mode Unit_obstruction_type Unit_obstruction_class Unit_trait Unit_civilization Unit_nothing Unit_selection_effect Unit_editor_selection_colour Unit_outline_size_x Unit_outline_size_y Unit_outline_size_z Unit_scenario_triggers_1 Unit_scenario_triggers_2 Unit_resource_storages Unit_damage_graphics Unit_selection_sound Unit_dying_sound Unit_wwise_train_sound_id Unit_wwise_damage_sound_id Unit_wwise_selection_sound_id Unit_wwise_dying_sound_id Unit_old_attack_reaction Unit_convert_terrain Unit_name Unit_copy_id Unit_base_id Unit_speed Unit_dead_fish Unit_bird Unit_type_50 Unit_projectile Unit_creatable Unit_building] in *.
Ltac open_Unit x := destruct x as [a0 a1 a2 a3 a4 a5 a6 a7 a8 a9 a10 a11 a12 a13 a14 a15 a16 a17 a18 a19 a20 a21 a22 a23 a24 a25 a26 a27 a28 a29 a30 a31 a32 a33 a34 a35 a36 a37 a38 a39 a40 a41 a42 a43 a44 a45 a46 a47 a48 a49 a50 a51 a52 a53 a54 a55 a56 a57 a58 a59 a60 a61 a62 a63 a64 a65 a66 a67 a68 a69 a70 a71 a72 a73 a74 a75 a76 a77 a78 a79 a80 a81].
Theorem C31_Unit : forall v x, Unit_arity x -> 
  (stays_local Unit_to_bytes v (fun t => with_Unit_id t x) I16) /\
  (stays_local Unit_to_bytes v (fun t => with_Unit_language_dll_name t x) I32) /\
  (stays_local Unit_to_bytes v (fun t => with_Unit_language_dll_creation t x) I32) /\
  (stays_local Unit_to_bytes v (fun t => with_Unit_class_ t x) I16) /\
  (forall i, (i < length (Unit_standing_graphic x))%nat -> stays_local Unit_to_bytes v (fun t => with_Unit_standing_graphic (set_nth i t (Unit_standing_graphic x)) x) I16) /\
  (stays_local Unit_to_bytes v (fun t => with_Unit_dying_graphic t x) I16) /\
  (stays_local Unit_to_bytes v (fun t => with_Unit_undead_graphic t x) I16) /\
  (stays_local Unit_to_bytes v (fun t => with_Unit_undead_mode t x) I8) /\
  (stays_local Unit_to_bytes v (fun t => with_Unit_hit_points t x) I16) /\
  (stays_local Unit_to_bytes v (fun t => with_Unit_line_of_sight t x) F32s) /\
  (stays_local Unit_to_bytes v (fun t => with_Unit_garrison_capacity t x) I8) /\
  (stays_local Unit_to_bytes v (fun t => with_Unit_collision_size_x t x) F32s) /\
  (stays_local Unit_to_bytes v (fun t => with_Unit_collision_size_y t x) F32s) /\
  (stays_local Unit_to_bytes v (fun t => with_Unit_collision_size_z t x) F32s) /\
  (stays_local Unit_to_bytes v (fun t => with_Unit_train_sound t x) I16) /\
  (stays_local Unit_to_bytes v (fun t => with_Unit_damage_sound t x) I16) /\
  (stays_local Unit_to_bytes v (fun t => with_Unit_dead_unit_id t x) I16) /\
  (stays_local Unit_to_bytes v (fun t => with_Unit_blood_unit_id t x) I16) /\
  (stays_local Unit_to_bytes v (fun t => with_Unit_sort_number t x) I8) /\
  (stays_local Unit_to_bytes v (fun t => with_Unit_can_be_built_on t x) I8) /\
  (stays_local Unit_to_bytes v (fun t => with_Unit_icon_id t x) I16) /\
  (stays_local Unit_to_bytes v (fun t => with_Unit_hide_in_editor t x) I8) /\
  (stays_local Unit_to_bytes v (fun t => with_Unit_old_portrait_pict t x) I16) /\
  (stays_local Unit_to_bytes v (fun t => with_Unit_enabled t x) I8) /\
  (stays_local Unit_to_bytes v (fun t => with_Unit_disabled t x) I8) /\
  (forall i, (i < length (Unit_placement_side_terrain x))%nat -> stays_local Unit_to_bytes v (fun t => with_Unit_placement_side_terrain (set_nth i t (Unit_placement_side_terrain x)) x) I16) /\
  (forall i, (i < length (Unit_placement_terrain x))%nat -> stays_local Unit_to_bytes v (fun t => with_Unit_placement_terrain (set_nth i t (Unit_placement_terrain x)) x) I16) /\
  (forall i, (i < length (Unit_clearance_size x))%nat -> stays_local Unit_to_bytes v (fun t => with_Unit_clearance_size (set_nth i t (Unit_clearance_size x)) x) F32s) /\
  (stays_local Unit_to_bytes v (fun t => with_Unit_hill_mode t x) I8) /\
  (stays_local Unit_to_bytes v (fun t => with_Unit_fog_visibility t x) I8) /\
  (stays_local Unit_to_bytes v (fun t => with_Unit_terrain_restriction t x) I16) /\
  (stays_local Unit_to_bytes v (fun t => with_Unit_fly_mode t x) I8) /\
  (stays_local Unit_to_bytes v (fun t => with_Unit_resource_capacity t x) I16) /\
  (stays_local Unit_to_bytes v (fun t => with_Unit_resource_decay t x) F32s) /\
  (stays_local Unit_to_bytes v (fun t => with_Unit_blast_defense_level t x) I8) /\
  (stays_local Unit_to_bytes v (fun t => with_Unit_combat_level t x) I8) /\
  (stays_local Unit_to_bytes v (fun t => with_Unit_interaction_mode t x) I8) /\
  (stays_local Unit_to_bytes v (fun t => with_Unit_minimap_mode t x) I8) /\
  (stays_local Unit_to_bytes v (fun t => with_Unit_interface_kind t x) I8) /\
  (stays_local Unit_to_bytes v (fun t => with_Unit_multiple_attribute_mode t x) F32s) /\
  (stays_local Unit_to_bytes v (fun t => with_Unit_minimap_color t x) I8) /\
  (stays_local Unit_to_bytes v (fun t => with_Unit_language_dll_help t x) I32) /\
  (stays_local Unit_to_bytes v (fun t => with_Unit_language_dll_hotkey_text t x) I32) /\
  (since 88 v = false -> stays_local Unit_to_bytes v (fun t => with_Unit_hot_key t x) I32) /\
  (stays_local Unit_to_bytes v (fun t => with_Unit_recyclable t x) I8) /\
  (stays_local Unit_to_bytes v (fun t => with_Unit_enable_auto_gather t x) I8) /\
  (stays_local Unit_to_bytes v (fun t => with_Unit_create_doppelganger_on_death t x) I8) /\
  (stays_local Unit_to_bytes v (fun t => with_Unit_resource_gather_group t x) I8) /\
  (stays_local Unit_to_bytes v (fun t => with_Unit_occlusion_mode t x) I8) /\
  (stays_local Unit_to_bytes v (fun t => with_Unit_obstruction_type t x) I8) /\
  (stays_local Unit_to_bytes v (fun t => with_Unit_obstruction_class t x) I8) /\
  (stays_local Unit_to_bytes v (fun t => with_Unit_trait t x) I8) /\
  (stays_local Unit_to_bytes v (fun t => with_Unit_civilization t x) I8) /\
  (stays_local Unit_to_bytes v (fun t => with_Unit_nothing t x) I16) /\
  (stays_local Unit_to_bytes v (fun t => with_Unit_selection_effect t x) I8) /\
  (stays_local Unit_to_bytes v (fun t => with_Unit_editor_selection_colour t x) I8) /\
  (stays_local Unit_to_bytes v (fun t => with_Unit_outline_size_x t x) F32s) /\
  (stays_local Unit_to_bytes v (fun t => with_Unit_outline_size_y t x) F32s) /\
  (stays_local Unit_to_bytes v (fun t => with_Unit_outline_size_z t x) F32s) /\
  (stays_local Unit_to_bytes v (fun t => with_Unit_scenario_triggers_1 t x) I32) /\
  (stays_local Unit_to_bytes v (fun t => with_Unit_scenario_triggers_2 t x) I32) /\
  (stays_local Unit_to_bytes v (fun t => with_Unit_selection_sound t x) I16) /\
  (stays_local Unit_to_bytes v (fun t => with_Unit_dying_sound t x) I16) /\
  (stays_local Unit_to_bytes v (fun t => with_Unit_wwise_train_sound_id t x) I32) /\
  (stays_local Unit_to_bytes v (fun t => with_Unit_wwise_damage_sound_id t x) I32) /\
  (stays_local Unit_to_bytes v (fun t => with_Unit_wwise_selection_sound_id t x) I32) /\
  (stays_local Unit_to_bytes v (fun t => with_Unit_wwise_dying_sound_id t x) I32) /\
  (stays_local Unit_to_bytes v (fun t => with_Unit_old_attack_reaction t x) U8) /\
  (stays_local Unit_to_bytes v (fun t => with_Unit_convert_terrain t x) U8) /\
  (stays_local Unit_to_bytes v (fun t => with_Unit_name t x) Text) /\
  (stays_local Unit_to_bytes v (fun t => with_Unit_copy_id t x) I16) /\
  (stays_local Unit_to_bytes v (fun t => with_Unit_base_id t x) I16).
Proof.
  intros v x HA. split; [open_Unit x; norm_Unit; apply (by_table_if C07_Unit); [intros t; unfold Unit_arity in *; norm_Unit; rewrite ?count_set_nth by exact Hi; exact HA|]; unfold Unit_layout, Unit_sections_layout; norm_Unit; loc|]. split; [open_Unit x; norm_Unit; apply (by_table_if C07_Unit); [intros t; unfold Unit_arity in *; norm_Unit; rewrite ?count_set_nth by exact Hi; exact HA|]; unfold Unit_layout, Unit_sections_layout; norm_Unit; loc|]. split; [open_Unit x; norm_Unit; apply (by_table_if C07_Unit); [intros t; unfold Unit_arity in *; norm_Unit; rewrite ?count_set_nth by exact Hi; exact HA|]; unfold Unit_layout, Unit_sections_layout; norm_Unit; loc|]. split; [open_Unit x; norm_Unit; apply (by_table_if C07_Unit); [intros t; unfold Unit_arity in *; norm_Unit; rewrite ?count_set_nth by exact Hi; exact HA|]; unfold Unit_layout, Unit_sections_layout; norm_Unit; loc|]. split; [intros i Hi; open_Unit x; norm_Unit; apply (by_table_if C07_Unit); [intros t; unfold Unit_arity in *; norm_Unit; rewrite ?count_set_nth by exact Hi; exact HA|]; unfold Unit_layout, Unit_sections_layout; norm_Unit; loc|]. split; [open_Unit x; norm_Unit; apply (by_table_if C07_Unit); [intros t; unfold Unit_arity in *; norm_Unit; rewrite ?count_set_nth by exact Hi; exact HA|]; unfold Unit_layout, Unit_sections_layout; norm_Unit; loc|]. split; [open_Unit x; norm_Unit; apply (by_table_if C07_Unit); [intros t; unfold Unit_arity in *; norm_Unit; rewrite ?count_set_nth by exact Hi; exact HA|]; unfold Unit_layout, Unit_sections_layout; norm_Unit; loc|]. split; [open_Unit x; norm_Unit; apply (by_table_if C07_Unit); [intros t; unfold Unit_arity in *; norm_Unit; rewrite ?count_set_nth by exact Hi; exact HA|]; unfold Unit_layout, Unit_sections_layout; norm_Unit; loc|]. split; [open_Unit x; norm_Unit; apply (by_table_if C07_Unit); [intros t; unfold Unit_arity in *; norm_Unit; rewrite ?count_set_nth by exact Hi; exact HA|]; unfold Unit_layout, Unit_sections_layout; norm_Unit; loc|]. split; [open_Unit x; norm_Unit; apply (by_table_if C07_Unit); [intros t; unfold Unit_arity in *; norm_Unit; rewrite ?count_set_nth by exact Hi; exact HA|]; unfold Unit_layout, Unit_sections_layout; norm_Unit; loc|]. split; [open_Unit x; norm_Unit; apply (by_table_if C07_Unit); [intros t; unfold Unit_arity in *; norm_Unit; rewrite ?count_set_nth by exact Hi; exact HA|]; unfold Unit_layout, Unit_sections_layout; norm_Unit; loc|]. split; [open_Unit x; norm_Unit; apply (by_table_if C07_Unit); [intros t; unfold Unit_arity in *; norm_Unit; rewrite ?count_set_nth by exact Hi; exact HA|]; unfold Unit_layout, Unit_sections_layout; norm_Unit; loc|]. split; [open_Unit x; norm_Unit; apply (by_table_if C07_Unit); [intros t; unfold Unit_arity in *; norm_Unit; rewrite ?count_set_nth by exact Hi; exact HA|]; unfold Unit_layout, Unit_sections_layout; norm_Unit; loc|]. split; [open_Unit x; norm_Unit; apply (by_table_if C07_Unit); [intros t; unfold Unit_arity in *; norm_Unit; rewrite ?count_set_nth by exact Hi; exact HA|]; unfold Unit_layout, Unit_sections_layout; norm_Unit; loc|]. split; [open_Unit x; norm_Unit; apply (by_table_if C07_Unit); [intros t; unfold Unit_arity in *; norm_Unit; rewrite ?count_set_nth by exact Hi; exact HA|]; unfold Unit_layout, Unit_sections_layout; norm_Unit; loc|]. split; [open_Unit x; norm_Unit; apply (by_table_if C07_Unit); [intros t; unfold Unit_arity in *; norm_Unit; rewrite ?count_set_nth by exact Hi; exact HA|]; unfold Unit_layout, Unit_sections_layout; norm_Unit; loc|]. split; [open_Unit x; norm_Unit; apply (by_table_if C07_Unit); [intros t; unfold Unit_arity in *; norm_Unit; rewrite ?count_set_nth by exact Hi; exact HA|]; unfold Unit_layout, Unit_sections_layout; norm_Unit; loc|]. split; [open_Unit x; norm_Unit; apply (by_table_if C07_Unit); [intros t; unfold Unit_arity in *; norm_Unit; rewrite ?count_set_nth by exact Hi; exact HA|]; unfold Unit_layout, Unit_sections_layout; norm_Unit; loc|]. split; [open_Unit x; norm_Unit; apply (by_table_if C07_Unit); [intros t; unfold Unit_arity in *; norm_Unit; rewrite ?count_set_nth by exact Hi; exact HA|]; unfold Unit_layout, Unit_sections_layout; norm_Unit; loc|]. split; [open_Unit x; norm_Unit; apply (by_table_if C07_Unit); [intros t; unfold Unit_arity in *; norm_Unit; rewrite ?count_set_nth by exact Hi; exact HA|]; unfold Unit_layout, Unit_sections_layout; norm_Unit; loc|]. split; [open_Unit x; norm_Unit; apply (by_table_if C07_Unit); [intros t; unfold Unit_arity in *; norm_Unit; rewrite ?count_set_nth by exact Hi; exact HA|]; unfold Unit_layout, Unit_sections_layout; norm_Unit; loc|]. split; [open_Unit x; norm_Unit; apply (by_table_if C07_Unit); [intros t; unfold Unit_arity in *; norm_Unit; rewrite ?count_set_nth by exact Hi; exact HA|]; unfold Unit_layout, Unit_sections_layout; norm_Unit; loc|]. split; [open_Unit x; norm_Unit; apply (by_table_if C07_Unit); [intros t; unfold Unit_arity in *; norm_Unit; rewrite ?count_set_nth by exact Hi; exact HA|]; unfold Unit_layout, Unit_sections_layout; norm_Unit; loc|]. split; [open_Unit x; norm_Unit; apply (by_table_if C07_Unit); [intros t; unfold Unit_arity in *; norm_Unit; rewrite ?count_set_nth by exact Hi; exact HA|]; unfold Unit_layout, Unit_sections_layout; norm_Unit; loc|]. split; [open_Unit x; norm_Unit; apply (by_table_if C07_Unit); [intros t; unfold Unit_arity in *; norm_Unit; rewrite ?count_set_nth by exact Hi; exact HA|]; unfold Unit_layout, Unit_sections_layout; norm_Unit; loc|]. split; [intros i Hi; open_Unit x; norm_Unit; apply (by_table_if C07_Unit); [intros t; unfold Unit_arity in *; norm_Unit; rewrite ?count_set_nth by exact Hi; exact HA|]; unfold Unit_layout, Unit_sections_layout; norm_Unit; loc|]. split; [intros i Hi; open_Unit x; norm_Unit; apply (by_table_if C07_Unit); [intros t; unfold Unit_arity in *; norm_Unit; rewrite ?count_set_nth by exact Hi; exact HA|]; unfold Unit_layout, Unit_sections_layout; norm_Unit; loc|]. split; [intros i Hi; open_Unit x; norm_Unit; apply (by_table_if C07_Unit); [intros t; unfold Unit_arity in *; norm_Unit; rewrite ?count_set_nth by exact Hi; exact HA|]; unfold Unit_layout, Unit_sections_layout; norm_Unit; loc|]. split; [open_Unit x; norm_Unit; apply (by_table_if C07_Unit); [intros t; unfold Unit_arity in *; norm_Unit; rewrite ?count_set_nth by exact Hi; exact HA|]; unfold Unit_layout, Unit_sections_layout; norm_Unit; loc|]. split; [open_Unit x; norm_Unit; apply (by_table_if C07_Unit); [intros t; unfold Unit_arity in *; norm_Unit; rewrite ?count_set_nth by exact Hi; exact HA|]; unfold Unit_layout, Unit_sections_layout; norm_Unit; loc|]. split; [open_Unit x; norm_Unit; apply (by_table_if C07_Unit); [intros t; unfold Unit_arity in *; norm_Unit; rewrite ?count_set_nth by exact Hi; exact HA|]; unfold Unit_layout, Unit_sections_layout; norm_Unit; loc|]. split; [open_Unit x; norm_Unit; apply (by_table_if C07_Unit); [intros t; unfold Unit_arity in *; norm_Unit; rewrite ?count_set_nth by exact Hi; exact HA|]; unfold Unit_layout, Unit_sections_layout; norm_Unit; loc|]. split; [open_Unit x; norm_Unit; apply (by_table_if C07_Unit); [intros t; unfold Unit_arity in *; norm_Unit; rewrite ?count_set_nth by exact Hi; exact HA|]; unfold Unit_layout, Unit_sections_layout; norm_Unit; loc|]. split; [open_Unit x; norm_Unit; apply (by_table_if C07_Unit); [intros t; unfold Unit_arity in *; norm_Unit; rewrite ?count_set_nth by exact Hi; exact HA|]; unfold Unit_layout, Unit_sections_layout; norm_Unit; loc|]. split; [open_Unit x; norm_Unit; apply (by_table_if C07_Unit); [intros t; unfold Unit_arity in *; norm_Unit; rewrite ?count_set_nth by exact Hi; exact HA|]; unfold Unit_layout, Unit_sections_layout; norm_Unit; loc|]. split; [open_Unit x; norm_Unit; apply (by_table_if C07_Unit); [intros t; unfold Unit_arity in *; norm_Unit; rewrite ?count_set_nth by exact Hi; exact HA|]; unfold Unit_layout, Unit_sections_layout; norm_Unit; loc|]. split; [open_Unit x; norm_Unit; apply (by_table_if C07_Unit); [intros t; unfold Unit_arity in *; norm_Unit; rewrite ?count_set_nth by exact Hi; exact HA|]; unfold Unit_layout, Unit_sections_layout; norm_Unit; loc|]. split; [open_Unit x; norm_Unit; apply (by_table_if C07_Unit); [intros t; unfold Unit_arity in *; norm_Unit; rewrite ?count_set_nth by exact Hi; exact HA|]; unfold Unit_layout, Unit_sections_layout; norm_Unit; loc|]. split; [open_Unit x; norm_Unit; apply (by_table_if C07_Unit); [intros t; unfold Unit_arity in *; norm_Unit; rewrite ?count_set_nth by exact Hi; exact HA|]; unfold Unit_layout, Unit_sections_layout; norm_Unit; loc|]. split; [open_Unit x; norm_Unit; apply (by_table_if C07_Unit); [intros t; unfold Unit_arity in *; norm_Unit; rewrite ?count_set_nth by exact Hi; exact HA|]; unfold Unit_layout, Unit_sections_layout; norm_Unit; loc|]. split; [open_Unit x; norm_Unit; apply (by_table_if C07_Unit); [intros t; unfold Unit_arity in *; norm_Unit; rewrite ?count_set_nth by exact Hi; exact HA|]; unfold Unit_layout, Unit_sections_layout; norm_Unit; loc|]. split; [open_Unit x; norm_Unit; apply (by_table_if C07_Unit); [intros t; unfold Unit_arity in *; norm_Unit; rewrite ?count_set_nth by exact Hi; exact HA|]; unfold Unit_layout, Unit_sections_layout; norm_Unit; loc|]. split; [open_Unit x; norm_Unit; apply (by_table_if C07_Unit); [intros t; unfold Unit_arity in *; norm_Unit; rewrite ?count_set_nth by exact Hi; exact HA|]; unfold Unit_layout, Unit_sections_layout; norm_Unit; loc|]. split; [intros V; open_Unit x; norm_Unit; apply (by_table_if C07_Unit); [intros t; unfold Unit_arity in *; norm_Unit; rewrite ?count_set_nth by exact Hi; exact HA|]; unfold Unit_layout, Unit_sections_layout; norm_Unit; rewrite V; loc|]. split; [open_Unit x; norm_Unit; apply (by_table_if C07_Unit); [intros t; unfold Unit_arity in *; norm_Unit; rewrite ?count_set_nth by exact Hi; exact HA|]; unfold Unit_layout, Unit_sections_layout; norm_Unit; loc|]. split; [open_Unit x; norm_Unit; apply (by_table_if C07_Unit); [intros t; unfold Unit_arity in *; norm_Unit; rewrite ?count_set_nth by exact Hi; exact HA|]; unfold Unit_layout, Unit_sections_layout; norm_Unit; loc|]. split; [open_Unit x; norm_Unit; apply (by_table_if C07_Unit); [intros t; unfold Unit_arity in *; norm_Unit; rewrite ?count_set_nth by exact Hi; exact HA|]; unfold Unit_layout, Unit_sections_layout; norm_Unit; loc|]. split; [open_Unit x; norm_Unit; apply (by_table_if C07_Unit); [intros t; unfold Unit_arity in *; norm_Unit; rewrite ?count_set_nth by exact Hi; exact HA|]; unfold Unit_layout, Unit_sections_layout; norm_Unit; loc|]. split; [open_Unit x; norm_Unit; apply (by_table_if C07_Unit); [intros t; unfold Unit_arity in *; norm_Unit; rewrite ?count_set_nth by exact Hi; exact HA|]; unfold Unit_layout, Unit_sections_layout; norm_Unit; loc|]. split; [open_Unit x; norm_Unit; apply (by_table_if C07_Unit); [intros t; unfold Unit_arity in *; norm_Unit; rewrite ?count_set_nth by exact Hi; exact HA|]; unfold Unit_layout, Unit_sections_layout; norm_Unit; loc|]. split; [open_Unit x; norm_Unit; apply (by_table_if C07_Unit); [intros t; unfold Unit_arity in *; norm_Unit; rewrite ?count_set_nth by exact Hi; exact HA|]; unfold Unit_layout, Unit_sections_layout; norm_Unit; loc|]. split; [open_Unit x; norm_Unit; apply (by_table_if C07_Unit); [intros t; unfold Unit_arity in *; norm_Unit; rewrite ?count_set_nth by exact Hi; exact HA|]; unfold Unit_layout, Unit_sections_layout; norm_Unit; loc|]. split; [open_Unit x; norm_Unit; apply (by_table_if C07_Unit); [intros t; unfold Unit_arity in *; norm_Unit; rewrite ?count_set_nth by exact Hi; exact HA|]; unfold Unit_layout, Unit_sections_layout; norm_Unit; loc|]. split; [open_Unit x; norm_Unit; apply (by_table_if C07_Unit); [intros t; unfold Unit_arity in *; norm_Unit; rewrite ?count_set_nth by exact Hi; exact HA|]; unfold Unit_layout, Unit_sections_layout; norm_Unit; loc|]. split; [open_Unit x; norm_Unit; apply (by_table_if C07_Unit); [intros t; unfold Unit_arity in *; norm_Unit; rewrite ?count_set_nth by exact Hi; exact HA|]; unfold Unit_layout, Unit_sections_layout; norm_Unit; loc|]. split; [open_Unit x; norm_Unit; apply (by_table_if C07_Unit); [intros t; unfold Unit_arity in *; norm_Unit; rewrite ?count_set_nth by exact Hi; exact HA|]; unfold Unit_layout, Unit_sections_layout; norm_Unit; loc|]. split; [open_Unit x; norm_Unit; apply (by_table_if C07_Unit); [intros t; unfold Unit_arity in *; norm_Unit; rewrite ?count_set_nth by exact Hi; exact HA|]; unfold Unit_layout, Unit_sections_layout; norm_Unit; loc|]. split; [open_Unit x; norm_Unit; apply (by_table_if C07_Unit); [intros t; unfold Unit_arity in *; norm_Unit; rewrite ?count_set_nth by exact Hi; exact HA|]; unfold Unit_layout, Unit_sections_layout; norm_Unit; loc|]. split; [open_Unit x; norm_Unit; apply (by_table_if C07_Unit); [intros t; unfold Unit_arity in *; norm_Unit; rewrite ?count_set_nth by exact Hi; exact HA|]; unfold Unit_layout, Unit_sections_layout; norm_Unit; loc|]. split; [open_Unit x; norm_Unit; apply (by_table_if C07_Unit); [intros t; unfold Unit_arity in *; norm_Unit; rewrite ?count_set_nth by exact Hi; exact HA|]; unfold Unit_layout, Unit_sections_layout; norm_Unit; loc|]. split; [open_Unit x; norm_Unit; apply (by_table_if C07_Unit); [intros t; unfold Unit_arity in *; norm_Unit; rewrite ?count_set_nth by exact Hi; exact HA|]; unfold Unit_layout, Unit_sections_layout; norm_Unit; loc|]. split; [open_Unit x; norm_Unit; apply (by_table_if C07_Unit); [intros t; unfold Unit_arity in *; norm_Unit; rewrite ?count_set_nth by exact Hi; exact HA|]; unfold Unit_layout, Unit_sections_layout; norm_Unit; loc|]. split; [open_Unit x; norm_Unit; apply (by_table_if C07_Unit); [intros t; unfold Unit_arity in *; norm_Unit; rewrite ?count_set_nth by exact Hi; exact HA|]; unfold Unit_layout, Unit_sections_layout; norm_Unit; loc|]. split; [open_Unit x; norm_Unit; apply (by_table_if C07_Unit); [intros t; unfold Unit_arity in *; norm_Unit; rewrite ?count_set_nth by exact Hi; exact HA|]; unfold Unit_layout, Unit_sections_layout; norm_Unit; loc|]. split; [open_Unit x; norm_Unit; apply (by_table_if C07_Unit); [intros t; unfold Unit_arity in *; norm_Unit; rewrite ?count_set_nth by exact Hi; exact HA|]; unfold Unit_layout, Unit_sections_layout; norm_Unit; loc|]. split; [open_Unit x; norm_Unit; apply (by_table_if C07_Unit); [intros t; unfold Unit_arity in *; norm_Unit; rewrite ?count_set_nth by exact Hi; exact HA|]; unfold Unit_layout, Unit_sections_layout; norm_Unit; loc|]. split; [open_Unit x; norm_Unit; apply (by_table_if C07_Unit); [intros t; unfold Unit_arity in *; norm_Unit; rewrite ?count_set_nth by exact Hi; exact HA|]; unfold Unit_layout, Unit_sections_layout; norm_Unit; loc|]. split; [open_Unit x; norm_Unit; apply (by_table_if C07_Unit); [intros t; unfold Unit_arity in *; norm_Unit; rewrite ?count_set_nth by exact Hi; exact HA|]; unfold Unit_layout, Unit_sections_layout; norm_Unit; loc|]. split; [open_Unit x; norm_Unit; apply (by_table_if C07_Unit); [intros t; unfold Unit_arity in *; norm_Unit; rewrite ?count_set_nth by exact Hi; exact HA|]; unfold Unit_layout, Unit_sections_layout; norm_Unit; loc|]. split; [open_Unit x; norm_Unit; apply (by_table_if C07_Unit); [intros t; unfold Unit_arity in *; norm_Unit; rewrite ?count_set_nth by exact Hi; exact HA|]; unfold Unit_layout, Unit_sections_layout; norm_Unit; loc|]. split; [open_Unit x; norm_Unit; apply (by_table_if C07_Unit); [intros t; unfold Unit_arity in *; norm_Unit; rewrite ?count_set_nth by exact Hi; exact HA|]; unfold Unit_layout, Unit_sections_layout; norm_Unit; loc|]. open_Unit x; norm_Unit; apply (by_table_if C07_Unit); [intros t; unfold Unit_arity in *; norm_Unit; rewrite ?count_set_nth by exact Hi; exact HA|]; unfold Unit_layout, Unit_sections_layout; norm_Unit; loc.
Qed.
Theorem C31_Unit_parts : forall v x, 
  (forall i T (g : T -> ResourceStorage) mk, (i < length (Unit_resource_storages x))%nat -> stays_local ResourceStorage_to_bytes v g mk ->
     stays_local Unit_to_bytes v (fun t => with_Unit_resource_storages (set_nth i (g t) (Unit_resource_storages x)) x) mk) /\
  (forall i T (g : T -> DamageGraphic) mk, (i < length (Unit_damage_graphics x))%nat -> stays_local DamageGraphic_to_bytes v g mk ->
     stays_local Unit_to_bytes v (fun t => with_Unit_damage_graphics (set_nth i (g t) (Unit_damage_graphics x)) x) mk) /\
  (forall T (g : T -> DeadFish) mk, has_dead_fish (Unit_type x) = true -> stays_local DeadFish_to_bytes v g mk ->
     stays_local Unit_to_bytes v (fun t => with_Unit_dead_fish (Some (g t)) x) mk) /\
  (forall T (g : T -> Bird) mk, has_bird (Unit_type x) = true -> stays_local Bird_to_bytes v g mk ->
     stays_local Unit_to_bytes v (fun t => with_Unit_bird (Some (g t)) x) mk) /\
  (forall T (g : T -> Type50) mk, has_type_50 (Unit_type x) = true -> stays_local Type50_to_bytes v g mk ->
     stays_local Unit_to_bytes v (fun t => with_Unit_type_50 (Some (g t)) x) mk) /\
  (forall T (g : T -> Projectile) mk, has_projectile (Unit_type x) = true -> stays_local Projectile_to_bytes v g mk ->
     stays_local Unit_to_bytes v (fun t => with_Unit_projectile (Some (g t)) x) mk) /\
  (forall T (g : T -> Creatable) mk, has_creatable (Unit_type x) = true -> stays_local Creatable_to_bytes v g mk ->
     stays_local Unit_to_bytes v (fun t => with_Unit_creatable (Some (g t)) x) mk) /\
  (forall T (g : T -> Building) mk, has_building (Unit_type x) = true -> stays_local Building_to_bytes v g mk ->
     stays_local Unit_to_bytes v (fun t => with_Unit_building (Some (g t)) x) mk).
Proof.
  intros v x. split; [intros i T g mk Hi G; apply (to_table C07_ResourceStorage) in G; apply (by_table C07_Unit_flat); unfold Unit_flat_layout, Unit_sections_layout, Unit_values; open_Unit x; norm_Unit; loc|]. split; [intros i T g mk Hi G; apply (to_table C07_DamageGraphic) in G; apply (by_table C07_Unit_flat); unfold Unit_flat_layout, Unit_sections_layout, Unit_values; open_Unit x; norm_Unit; loc|]. split; [intros T g mk V G; apply (to_table C07_DeadFish) in G; apply (by_table C07_Unit_flat); unfold Unit_flat_layout, Unit_sections_layout, Unit_values; open_Unit x; norm_Unit; rewrite V; loc|]. split; [intros T g mk V G; apply (to_table C07_Bird) in G; apply (by_table C07_Unit_flat); unfold Unit_flat_layout, Unit_sections_layout, Unit_values; open_Unit x; norm_Unit; rewrite V; loc|]. split; [intros T g mk V G; apply (to_table C07_Type50) in G; apply (by_table C07_Unit_flat); unfold Unit_flat_layout, Unit_sections_layout, Unit_values; open_Unit x; norm_Unit; rewrite V; loc|]. split; [intros T g mk V G; apply (to_table C07_Projectile) in G; apply (by_table C07_Unit_flat); unfold Unit_flat_layout, Unit_sections_layout, Unit_values; open_Unit x; norm_Unit; rewrite V; loc|]. split; [intros T g mk V G; apply (to_table C07_Creatable) in G; apply (by_table C07_Unit_flat); unfold Unit_flat_layout, Unit_sections_layout, Unit_values; open_Unit x; norm_Unit; rewrite V; loc|]. intros T g mk V G; apply (to_table C07_Building) in G; apply (by_table C07_Unit_flat); unfold Unit_flat_layout, Unit_sections_layout, Unit_values; open_Unit x; norm_Unit; rewrite V; loc.
Qed.
Ltac norm_Civ := cbn [with_Civ_player_type with_Civ_name with_Civ_tech_tree_id with_Civ_team_bonus_id with_Civ_resources with_Civ_icon_set with_Civ_units Civ_player_type Civ_name Civ_tech_tree_id Civ_team_bonus_id Civ_resources Civ_icon_set Civ_units] in *.
Ltac open_Civ x := destruct x as [a0 a1 a2 a3 a4 a5 a6].
Theorem C31_Civ : forall v x, 
  (stays_local Civ_to_bytes v (fun t => with_Civ_player_type t x) U8) /\
  (stays_local Civ_to_bytes v (fun t => with_Civ_name t x) Text) /\
  (stays_local Civ_to_bytes v (fun t => with_Civ_tech_tree_id t x) I16) /\
  (stays_local Civ_to_bytes v (fun t => with_Civ_team_bonus_id t x) I16) /\
  (forall i, (i < length (Civ_resources x))%nat -> stays_local Civ_to_bytes v (fun t => with_Civ_resources (set_nth i t (Civ_resources x)) x) F32) /\
  (stays_local Civ_to_bytes v (fun t => with_Civ_icon_set t x) U8).
Proof.
  intros v x. split; [apply (by_table C07_Civ_flat); open_Civ x; unfold Civ_flat_layout; norm_Civ; loc|]. split; [apply (by_table C07_Civ_flat); open_Civ x; unfold Civ_flat_layout; norm_Civ; loc|]. split; [apply (by_table C07_Civ_flat); open_Civ x; unfold Civ_flat_layout; norm_Civ; loc|]. split; [apply (by_table C07_Civ_flat); open_Civ x; unfold Civ_flat_layout; norm_Civ; loc|]. split; [intros i Hi; apply (by_table C07_Civ_flat); open_Civ x; unfold Civ_flat_layout; norm_Civ; loc|]. apply (by_table C07_Civ_flat); open_Civ x; unfold Civ_flat_layout; norm_Civ; loc.
Qed.
Theorem C31_Civ_parts : forall v x, 
  (forall i T (g : T -> Unit) mk, (i < length (Civ_units x))%nat -> stays_local Unit_to_bytes v g mk ->
     stays_local Civ_to_bytes v (fun t => with_Civ_units (set_nth i (Some (g t)) (Civ_units x)) x) mk).
Proof.
  intros v x.  intros i T g mk Hi G; apply (to_table C07_Unit_flat) in G; apply (by_table C07_Civ_flat); open_Civ x; unfold Civ_flat_layout; norm_Civ; loc.
Qed.
Ltac norm_ResearchResourceCost := cbn [with_ResearchResourceCost_type with_ResearchResourceCost_amount with_ResearchResourceCost_flag ResearchResourceCost_type ResearchResourceCost_amount ResearchResourceCost_flag] in *.
Ltac open_ResearchResourceCost x := destruct x as [a0 a1 a2].
Theorem C31_ResearchResourceCost : forall v x, 
  (stays_local ResearchResourceCost_to_bytes v (fun t => with_ResearchResourceCost_type t x) I16) /\
  (stays_local ResearchResourceCost_to_bytes v (fun t => with_ResearchResourceCost_amount t x) I16) /\
  (stays_local ResearchResourceCost_to_bytes v (fun t => with_ResearchResourceCost_flag t x) U8).
Proof.
  intros v x. split; [apply (by_table C07_ResearchResourceCost); open_ResearchResourceCost x; unfold ResearchResourceCost_layout; norm_ResearchResourceCost; loc|]. split; [apply (by_table C07_ResearchResourceCost); open_ResearchResourceCost x; unfold ResearchResourceCost_layout; norm_ResearchResourceCost; loc|]. apply (by_table C07_ResearchResourceCost); open_ResearchResourceCost x; unfold ResearchResourceCost_layout; norm_ResearchResourceCost; loc.
Qed.
Ltac norm_ResearchLocation := cbn [with_ResearchLocation_location_id with_ResearchLocation_research_time with_ResearchLocation_button_id with_ResearchLocation_hot_key_id ResearchLocation_location_id ResearchLocation_research_time ResearchLocation_button_id ResearchLocation_hot_key_id] in *.
Ltac open_ResearchLocation x := destruct x as [a0 a1 a2 a3].
Theorem C31_ResearchLocation : forall v x, 
  (stays_local ResearchLocation_to_bytes v (fun t => with_ResearchLocation_location_id t x) I16) /\
  (stays_local ResearchLocation_to_bytes v (fun t => with_ResearchLocation_research_time t x) I16) /\
  (stays_local ResearchLocation_to_bytes v (fun t => with_ResearchLocation_button_id t x) U8) /\
  (stays_local ResearchLocation_to_bytes v (fun t => with_ResearchLocation_hot_key_id t x) I32).
Proof.
  intros v x. split; [apply (by_table C07_ResearchLocation); open_ResearchLocation x; unfold ResearchLocation_layout; norm_ResearchLocation; loc|]. split; [apply (by_table C07_ResearchLocation); open_ResearchLocation x; unfold ResearchLocation_layout; norm_ResearchLocation; loc|]. split; [apply (by_table C07_ResearchLocation); open_ResearchLocation x; unfold ResearchLocation_layout; norm_ResearchLocation; loc|]. apply (by_table C07_ResearchLocation); open_ResearchLocation x; unfold ResearchLocation_layout; norm_ResearchLocation; loc.
Qed.
Ltac norm_Tech := cbn [with_Tech_required_techs with_Tech_resource_costs with_Tech_required_tech_count with_Tech_civ with_Tech_full_tech_mode with_Tech_language_dll_name with_Tech_language_dll_description with_Tech_effect_id with_Tech_type with_Tech_icon_id with_Tech_language_dll_help with_Tech_language_dll_tech_tree with_Tech_name with_Tech_repeatable with_Tech_research_locations Tech_required_techs Tech_resource_costs Tech_required_tech_count Tech_civ Tech_full_tech_mode Tech_language_dll_name Tech_language_dll_description Tech_effect_id Tech_type Tech_icon_id Tech_language_dll_help Tech_language_dll_tech_tree Tech_name Tech_repeatable Tech_research_locations] in *.
Ltac open_Tech x := destruct x as [a0 a1 a2 a3 a4 a5 a6 a7 a8 a9 a10 a11 a12 a13 a14].
Theorem C31_Tech : forall v x, 
  (forall i, (i < length (Tech_required_techs x))%nat -> stays_local Tech_to_bytes v (fun t => with_Tech_required_techs (set_nth i t (Tech_required_techs x)) x) I16) /\
  (stays_local Tech_to_bytes v (fun t => with_Tech_required_tech_count t x) I16) /\
  (stays_local Tech_to_bytes v (fun t => with_Tech_civ t x) I16) /\
  (stays_local Tech_to_bytes v (fun t => with_Tech_full_tech_mode t x) I16) /\
  (stays_local Tech_to_bytes v (fun t => with_Tech_language_dll_name t x) I32) /\
  (stays_local Tech_to_bytes v (fun t => with_Tech_language_dll_description t x) I32) /\
  (stays_local Tech_to_bytes v (fun t => with_Tech_effect_id t x) I16) /\
  (stays_local Tech_to_bytes v (fun t => with_Tech_type t x) I16) /\
  (stays_local Tech_to_bytes v (fun t => with_Tech_icon_id t x) I16) /\
  (stays_local Tech_to_bytes v (fun t => with_Tech_language_dll_help t x) I32) /\
  (stays_local Tech_to_bytes v (fun t => with_Tech_language_dll_tech_tree t x) I32) /\
  (stays_local Tech_to_bytes v (fun t => with_Tech_name t x) Text) /\
  (stays_local Tech_to_bytes v (fun t => with_Tech_repeatable t x) U8).
Proof.
  intros v x. split; [intros i Hi; apply (by_table C07_Tech); open_Tech x; unfold Tech_layout; norm_Tech; loc|]. split; [apply (by_table C07_Tech); open_Tech x; unfold Tech_layout; norm_Tech; loc|]. split; [apply (by_table C07_Tech); open_Tech x; unfold Tech_layout; norm_Tech; loc|]. split; [apply (by_table C07_Tech); open_Tech x; unfold Tech_layout; norm_Tech; loc|]. split; [apply (by_table C07_Tech); open_Tech x; unfold Tech_layout; norm_Tech; loc|]. split; [apply (by_table C07_Tech); open_Tech x; unfold Tech_layout; norm_Tech; loc|]. split; [apply (by_table C07_Tech); open_Tech x; unfold Tech_layout; norm_Tech; loc|]. split; [apply (by_table C07_Tech); open_Tech x; unfold Tech_layout; norm_Tech; loc|]. split; [apply (by_table C07_Tech); open_Tech x; unfold Tech_layout; norm_Tech; loc|]. split; [apply (by_table C07_Tech); open_Tech x; unfold Tech_layout; norm_Tech; loc|]. split; [apply (by_table C07_Tech); open_Tech x; unfold Tech_layout; norm_Tech; loc|]. split; [apply (by_table C07_Tech); open_Tech x; unfold Tech_layout; norm_Tech; loc|]. apply (by_table C07_Tech); open_Tech x; unfold Tech_layout; norm_Tech; loc.
Qed.
Theorem C31_Tech_parts : forall v x, 
  (forall i T (g : T -> ResearchResourceCost) mk, (i < length (Tech_resource_costs x))%nat -> stays_local ResearchResourceCost_to_bytes v g mk ->
     stays_local Tech_to_bytes v (fun t => with_Tech_resource_costs (set_nth i (g t) (Tech_resource_costs x)) x) mk) /\
  (forall i T (g : T -> ResearchLocation) mk, (i < length (Tech_research_locations x))%nat -> since 88 v = true -> stays_local ResearchLocation_to_bytes v g mk ->
     stays_local Tech_to_bytes v (fun t => with_Tech_research_locations (set_nth i (g t) (Tech_research_locations x)) x) mk).
Proof.
  intros v x. split; [intros i T g mk Hi G; apply (to_table C07_ResearchResourceCost) in G; apply (by_table C07_Tech); open_Tech x; unfold Tech_layout; norm_Tech; loc|]. intros i T g mk Hi V G; apply (to_table C07_ResearchLocation) in G; apply (by_table C07_Tech); open_Tech x; unfold Tech_layout; norm_Tech; rewrite V; loc.
Qed.
Ltac norm_Common := cbn [with_Common_slots_used with_Common_unit_research with_Common_mode Common_slots_used Common_unit_research Common_mode] in *.
Ltac open_Common x := destruct x as [a0 a1 a2].
Theorem C31_Common : forall v x, 
  (stays_local Common_to_bytes v (fun t => with_Common_slots_used t x) I32) /\
  (forall i, (i < length (Common_unit_research x))%nat -> stays_local Common_to_bytes v (fun t => with_Common_unit_research (set_nth i t (Common_unit_research x)) x) I32) /\
  (forall i, (i < length (Common_mode x))%nat -> stays_local Common_to_bytes v (fun t => with_Common_mode (set_nth i t (Common_mode x)) x) I32).
Proof.
  intros v x. split; [apply (by_table C07_Common); open_Common x; unfold Common_layout; norm_Common; loc|]. split; [intros i Hi; apply (by_table C07_Common); open_Common x; unfold Common_layout; norm_Common; loc|]. intros i Hi; apply (by_table C07_Common); open_Common x; unfold Common_layout; norm_Common; loc.
Qed.
Ltac norm_TechTreeAge := cbn [with_TechTreeAge_id with_TechTreeAge_status with_TechTreeAge_buildings with_TechTreeAge_units with_TechTreeAge_techs with_TechTreeAge_common with_TechTreeAge_num_building_levels with_TechTreeAge_buildings_per_zone with_TechTreeAge_group_length_per_zone with_TechTreeAge_max_age_length with_TechTreeAge_line_mode TechTreeAge_id TechTreeAge_status TechTreeAge_buildings TechTreeAge_units TechTreeAge_techs TechTreeAge_common TechTreeAge_num_building_levels TechTreeAge_buildings_per_zone TechTreeAge_group_length_per_zone TechTreeAge_max_age_length TechTreeAge_line_mode] in *.
Ltac open_TechTreeAge x := destruct x as [a0 a1 a2 a3 a4 a5 a6 a7 a8 a9 a10].
Theorem C31_TechTreeAge : forall v x, 
  (stays_local TechTreeAge_to_bytes v (fun t => with_TechTreeAge_id t x) I32) /\
  (stays_local TechTreeAge_to_bytes v (fun t => with_TechTreeAge_status t x) U8) /\
  (forall i, (i < length (TechTreeAge_buildings x))%nat -> stays_local TechTreeAge_to_bytes v (fun t => with_TechTreeAge_buildings (set_nth i t (TechTreeAge_buildings x)) x) I32) /\
  (forall i, (i < length (TechTreeAge_units x))%nat -> stays_local TechTreeAge_to_bytes v (fun t => with_TechTreeAge_units (set_nth i t (TechTreeAge_units x)) x) I32) /\
  (forall i, (i < length (TechTreeAge_techs x))%nat -> stays_local TechTreeAge_to_bytes v (fun t => with_TechTreeAge_techs (set_nth i t (TechTreeAge_techs x)) x) I32) /\
  (stays_local TechTreeAge_to_bytes v (fun t => with_TechTreeAge_num_building_levels t x) U8) /\
  (forall i, (i < length (TechTreeAge_buildings_per_zone x))%nat -> stays_local TechTreeAge_to_bytes v (fun t => with_TechTreeAge_buildings_per_zone (set_nth i t (TechTreeAge_buildings_per_zone x)) x) U8) /\
  (forall i, (i < length (TechTreeAge_group_length_per_zone x))%nat -> stays_local TechTreeAge_to_bytes v (fun t => with_TechTreeAge_group_length_per_zone (set_nth i t (TechTreeAge_group_length_per_zone x)) x) U8) /\
  (stays_local TechTreeAge_to_bytes v (fun t => with_TechTreeAge_max_age_length t x) U8) /\
  (stays_local TechTreeAge_to_bytes v (fun t => with_TechTreeAge_line_mode t x) I32).
Proof.
  intros v x. split; [apply (by_table C07_TechTreeAge); open_TechTreeAge x; unfold TechTreeAge_layout; norm_TechTreeAge; loc|]. split; [apply (by_table C07_TechTreeAge); open_TechTreeAge x; unfold TechTreeAge_layout; norm_TechTreeAge; loc|]. split; [intros i Hi; apply (by_table C07_TechTreeAge); open_TechTreeAge x; unfold TechTreeAge_layout; norm_TechTreeAge; loc|]. split; [intros i Hi; apply (by_table C07_TechTreeAge); open_TechTreeAge x; unfold TechTreeAge_layout; norm_TechTreeAge; loc|]. split; [intros i Hi; apply (by_table C07_TechTreeAge); open_TechTreeAge x; unfold TechTreeAge_layout; norm_TechTreeAge; loc|]. split; [apply (by_table C07_TechTreeAge); open_TechTreeAge x; unfold TechTreeAge_layout; norm_TechTreeAge; loc|]. split; [intros i Hi; apply (by_table C07_TechTreeAge); open_TechTreeAge x; unfold TechTreeAge_layout; norm_TechTreeAge; loc|]. split; [intros i Hi; apply (by_table C07_TechTreeAge); open_TechTreeAge x; unfold TechTreeAge_layout; norm_TechTreeAge; loc|]. split; [apply (by_table C07_TechTreeAge); open_TechTreeAge x; unfold TechTreeAge_layout; norm_TechTreeAge; loc|]. apply (by_table C07_TechTreeAge); open_TechTreeAge x; unfold TechTreeAge_layout; norm_TechTreeAge; loc.
Qed.
Theorem C31_TechTreeAge_parts : forall v x, 
  (forall T (g : T -> Common) mk, stays_local Common_to_bytes v g mk ->
     stays_local TechTreeAge_to_bytes v (fun t => with_TechTreeAge_common (g t) x) mk).
Proof.
  intros v x.  intros T g mk G; apply (to_table C07_Common) in G; apply (by_table C07_TechTreeAge); open_TechTreeAge x; unfold TechTreeAge_layout; norm_TechTreeAge; loc.
Qed.
Ltac norm_BuildingConnection := cbn [with_BuildingConnection_id with_BuildingConnection_status with_BuildingConnection_buildings with_BuildingConnection_units with_BuildingConnection_techs with_BuildingConnection_common with_BuildingConnection_location_in_age with_BuildingConnection_units_techs_total with_BuildingConnection_units_techs_first with_BuildingConnection_line_mode with_BuildingConnection_enabling_research BuildingConnection_id BuildingConnection_status BuildingConnection_buildings BuildingConnection_units BuildingConnection_techs BuildingConnection_common BuildingConnection_location_in_age BuildingConnection_units_techs_total BuildingConnection_units_techs_first BuildingConnection_line_mode BuildingConnection_enabling_research] in *.
Ltac open_BuildingConnection x := destruct x as [a0 a1 a2 a3 a4 a5 a6 a7 a8 a9 a10].
Theorem C31_BuildingConnection : forall v x, 
  (stays_local BuildingConnection_to_bytes v (fun t => with_BuildingConnection_id t x) I32) /\
  (stays_local BuildingConnection_to_bytes v (fun t => with_BuildingConnection_status t x) U8) /\
  (forall i, (i < length (BuildingConnection_buildings x))%nat -> stays_local BuildingConnection_to_bytes v (fun t => with_BuildingConnection_buildings (set_nth i t (BuildingConnection_buildings x)) x) I32) /\
  (forall i, (i < length (BuildingConnection_units x))%nat -> stays_local BuildingConnection_to_bytes v (fun t => with_BuildingConnection_units (set_nth i t (BuildingConnection_units x)) x) I32) /\
  (forall i, (i < length (BuildingConnection_techs x))%nat -> stays_local BuildingConnection_to_bytes v (fun t => with_BuildingConnection_techs (set_nth i t (BuildingConnection_techs x)) x) I32) /\
  (stays_local BuildingConnection_to_bytes v (fun t => with_BuildingConnection_location_in_age t x) U8) /\
  (forall i, (i < length (BuildingConnection_units_techs_total x))%nat -> stays_local BuildingConnection_to_bytes v (fun t => with_BuildingConnection_units_techs_total (set_nth i t (BuildingConnection_units_techs_total x)) x) U8) /\
  (forall i, (i < length (BuildingConnection_units_techs_first x))%nat -> stays_local BuildingConnection_to_bytes v (fun t => with_BuildingConnection_units_techs_first (set_nth i t (BuildingConnection_units_techs_first x)) x) U8) /\
  (stays_local BuildingConnection_to_bytes v (fun t => with_BuildingConnection_line_mode t x) I32) /\
  (stays_local BuildingConnection_to_bytes v (fun t => with_BuildingConnection_enabling_research t x) I32).
Proof.
  intros v x. split; [apply (by_table C07_BuildingConnection); open_BuildingConnection x; unfold BuildingConnection_layout; norm_BuildingConnection; loc|]. split; [apply (by_table C07_BuildingConnection); open_BuildingConnection x; unfold BuildingConnection_layout; norm_BuildingConnection; loc|]. split; [intros i Hi; apply (by_table C07_BuildingConnection); open_BuildingConnection x; unfold BuildingConnection_layout; norm_BuildingConnection; loc|]. split; [intros i Hi; apply (by_table C07_BuildingConnection); open_BuildingConnection x; unfold BuildingConnection_layout; norm_BuildingConnection; loc|]. split; [intros i Hi; apply (by_table C07_BuildingConnection); open_BuildingConnection x; unfold BuildingConnection_layout; norm_BuildingConnection; loc|]. split; [apply (by_table C07_BuildingConnection); open_BuildingConnection x; unfold BuildingConnection_layout; norm_BuildingConnection; loc|]. split; [intros i Hi; apply (by_table C07_BuildingConnection); open_BuildingConnection x; unfold BuildingConnection_layout; norm_BuildingConnection; loc|]. split; [intros i Hi; apply (by_table C07_BuildingConnection); open_BuildingConnection x; unfold BuildingConnection_layout; norm_BuildingConnection; loc|]. split; [apply (by_table C07_BuildingConnection); open_BuildingConnection x; unfold BuildingConnection_layout; norm_BuildingConnection; loc|]. apply (by_table C07_BuildingConnection); open_BuildingConnection x; unfold BuildingConnection_layout; norm_BuildingConnection; loc.
Qed.
Theorem C31_BuildingConnection_parts : forall v x, 
  (forall T (g : T -> Common) mk, stays_local Common_to_bytes v g mk ->
     stays_local BuildingConnection_to_bytes v (fun t => with_BuildingConnection_common (g t) x) mk).
Proof.
  intros v x.  intros T g mk G; apply (to_table C07_Common) in G; apply (by_table C07_BuildingConnection); open_BuildingConnection x; unfold BuildingConnection_layout; norm_BuildingConnection; loc.
Qed.
Ltac norm_UnitConnection := cbn [with_UnitConnection_id with_UnitConnection_status with_UnitConnection_upper_building with_UnitConnection_common with_UnitConnection_vertical_line with_UnitConnection_units with_UnitConnection_location_in_age with_UnitConnection_required_research with_UnitConnection_line_mode with_UnitConnection_enabling_research UnitConnection_id UnitConnection_status UnitConnection_upper_building UnitConnection_common UnitConnection_vertical_line UnitConnection_units UnitConnection_location_in_age UnitConnection_required_research UnitConnection_line_mode UnitConnection_enabling_research] in *.
Ltac open_UnitConnection x := destruct x as [a0 a1 a2 a3 a4 a5 a6 a7 a8 a9].
Theorem C31_UnitConnection : forall v x, 
  (stays_local UnitConnection_to_bytes v (fun t => with_UnitConnection_id t x) I32) /\
  (stays_local UnitConnection_to_bytes v (fun t => with_UnitConnection_status t x) U8) /\
  (stays_local UnitConnection_to_bytes v (fun t => with_UnitConnection_upper_building t x) I32) /\
  (stays_local UnitConnection_to_bytes v (fun t => with_UnitConnection_vertical_line t x) I32) /\
  (forall i, (i < length (UnitConnection_units x))%nat -> stays_local UnitConnection_to_bytes v (fun t => with_UnitConnection_units (set_nth i t (UnitConnection_units x)) x) I32) /\
  (stays_local UnitConnection_to_bytes v (fun t => with_UnitConnection_location_in_age t x) I32) /\
  (stays_local UnitConnection_to_bytes v (fun t => with_UnitConnection_required_research t x) I32) /\
  (stays_local UnitConnection_to_bytes v (fun t => with_UnitConnection_line_mode t x) I32) /\
  (stays_local UnitConnection_to_bytes v (fun t => with_UnitConnection_enabling_research t x) I32).
Proof.
  intros v x. split; [apply (by_table C07_UnitConnection); open_UnitConnection x; unfold UnitConnection_layout; norm_UnitConnection; loc|]. split; [apply (by_table C07_UnitConnection); open_UnitConnection x; unfold UnitConnection_layout; norm_UnitConnection; loc|]. split; [apply (by_table C07_UnitConnection); open_UnitConnection x; unfold UnitConnection_layout; norm_UnitConnection; loc|]. split; [apply (by_table C07_UnitConnection); open_UnitConnection x; unfold UnitConnection_layout; norm_UnitConnection; loc|]. split; [intros i Hi; apply (by_table C07_UnitConnection); open_UnitConnection x; unfold UnitConnection_layout; norm_UnitConnection; loc|]. split; [apply (by_table C07_UnitConnection); open_UnitConnection x; unfold UnitConnection_layout; norm_UnitConnection; loc|]. split; [apply (by_table C07_UnitConnection); open_UnitConnection x; unfold UnitConnection_layout; norm_UnitConnection; loc|]. split; [apply (by_table C07_UnitConnection); open_UnitConnection x; unfold UnitConnection_layout; norm_UnitConnection; loc|]. apply (by_table C07_UnitConnection); open_UnitConnection x; unfold UnitConnection_layout; norm_UnitConnection; loc.
Qed.
Theorem C31_UnitConnection_parts : forall v x, 
  (forall T (g : T -> Common) mk, stays_local Common_to_bytes v g mk ->
     stays_local UnitConnection_to_bytes v (fun t => with_UnitConnection_common (g t) x) mk).
Proof.
  intros v x.  intros T g mk G; apply (to_table C07_Common) in G; apply (by_table C07_UnitConnection); open_UnitConnection x; unfold UnitConnection_layout; norm_UnitConnection; loc.
Qed.
Ltac norm_ResearchConnection := cbn [with_ResearchConnection_id with_ResearchConnection_status with_ResearchConnection_upper_building with_ResearchConnection_buildings with_ResearchConnection_units with_ResearchConnection_techs with_ResearchConnection_common with_ResearchConnection_vertical_line with_ResearchConnection_location_in_age with_ResearchConnection_line_mode ResearchConnection_id ResearchConnection_status ResearchConnection_upper_building ResearchConnection_buildings ResearchConnection_units ResearchConnection_techs ResearchConnection_common ResearchConnection_vertical_line ResearchConnection_location_in_age ResearchConnection_line_mode] in *.
Ltac open_ResearchConnection x := destruct x as [a0 a1 a2 a3 a4 a5 a6 a7 a8 a9].
Theorem C31_ResearchConnection : forall v x, 
  (stays_local ResearchConnection_to_bytes v (fun t => with_ResearchConnection_id t x) I32) /\
  (stays_local ResearchConnection_to_bytes v (fun t => with_ResearchConnection_status t x) U8) /\
  (stays_local ResearchConnection_to_bytes v (fun t => with_ResearchConnection_upper_building t x) I32) /\
  (forall i, (i < length (ResearchConnection_buildings x))%nat -> stays_local ResearchConnection_to_bytes v (fun t => with_ResearchConnection_buildings (set_nth i t (ResearchConnection_buildings x)) x) I32) /\
  (forall i, (i < length (ResearchConnection_units x))%nat -> stays_local ResearchConnection_to_bytes v (fun t => with_ResearchConnection_units (set_nth i t (ResearchConnection_units x)) x) I32) /\
  (forall i, (i < length (ResearchConnection_techs x))%nat -> stays_local ResearchConnection_to_bytes v (fun t => with_ResearchConnection_techs (set_nth i t (ResearchConnection_techs x)) x) I32) /\
  (stays_local ResearchConnection_to_bytes v (fun t => with_ResearchConnection_vertical_line t x) I32) /\
  (stays_local ResearchConnection_to_bytes v (fun t => with_ResearchConnection_location_in_age t x) I32) /\
  (stays_local ResearchConnection_to_bytes v (fun t => with_ResearchConnection_line_mode t x) I32).
Proof.
  intros v x. split; [apply (by_table C07_ResearchConnection); open_ResearchConnection x; unfold ResearchConnection_layout; norm_ResearchConnection; loc|]. split; [apply (by_table C07_ResearchConnection); open_ResearchConnection x; unfold ResearchConnection_layout; norm_ResearchConnection; loc|]. split; [apply (by_table C07_ResearchConnection); open_ResearchConnection x; unfold ResearchConnection_layout; norm_ResearchConnection; loc|]. split; [intros i Hi; apply (by_table C07_ResearchConnection); open_ResearchConnection x; unfold ResearchConnection_layout; norm_ResearchConnection; loc|]. split; [intros i Hi; apply (by_table C07_ResearchConnection); open_ResearchConnection x; unfold ResearchConnection_layout; norm_ResearchConnection; loc|]. split; [intros i Hi; apply (by_table C07_ResearchConnection); open_ResearchConnection x; unfold ResearchConnection_layout; norm_ResearchConnection; loc|]. split; [apply (by_table C07_ResearchConnection); open_ResearchConnection x; unfold ResearchConnection_layout; norm_ResearchConnection; loc|]. split; [apply (by_table C07_ResearchConnection); open_ResearchConnection x; unfold ResearchConnection_layout; norm_ResearchConnection; loc|]. apply (by_table C07_ResearchConnection); open_ResearchConnection x; unfold ResearchConnection_layout; norm_ResearchConnection; loc.
Qed.
Theorem C31_ResearchConnection_parts : forall v x, 
  (forall T (g : T -> Common) mk, stays_local Common_to_bytes v g mk ->
     stays_local ResearchConnection_to_bytes v (fun t => with_ResearchConnection_common (g t) x) mk).
Proof.
  intros v x.  intros T g mk G; apply (to_table C07_Common) in G; apply (by_table C07_ResearchConnection); open_ResearchConnection x; unfold ResearchConnection_layout; norm_ResearchConnection; loc.
Qed.
Ltac norm_TechTree := cbn [with_TechTree_total_unit_tech_groups with_TechTree_tech_tree_ages with_TechTree_building_connections with_TechTree_unit_connections with_TechTree_research_connections TechTree_total_unit_tech_groups TechTree_tech_tree_ages TechTree_building_connections TechTree_unit_connections TechTree_research_connections] in *.
Ltac open_TechTree x := destruct x as [a0 a1 a2 a3 a4].
Theorem C31_TechTree : forall v x, 
  (stays_local TechTree_to_bytes v (fun t => with_TechTree_total_unit_tech_groups t x) I32).
Proof.
  intros v x.  apply (by_table C07_TechTree); open_TechTree x; unfold TechTree_layout; norm_TechTree; loc.
Qed.
Theorem C31_TechTree_parts : forall v x, 
  (forall i T (g : T -> TechTreeAge) mk, (i < length (TechTree_tech_tree_ages x))%nat -> stays_local TechTreeAge_to_bytes v g mk ->
     stays_local TechTree_to_bytes v (fun t => with_TechTree_tech_tree_ages (set_nth i (g t) (TechTree_tech_tree_ages x)) x) mk) /\
  (forall i T (g : T -> BuildingConnection) mk, (i < length (TechTree_building_connections x))%nat -> stays_local BuildingConnection_to_bytes v g mk ->
     stays_local TechTree_to_bytes v (fun t => with_TechTree_building_connections (set_nth i (g t) (TechTree_building_connections x)) x) mk) /\
  (forall i T (g : T -> UnitConnection) mk, (i < length (TechTree_unit_connections x))%nat -> stays_local UnitConnection_to_bytes v g mk ->
     stays_local TechTree_to_bytes v (fun t => with_TechTree_unit_connections (set_nth i (g t) (TechTree_unit_connections x)) x) mk) /\
  (forall i T (g : T -> ResearchConnection) mk, (i < length (TechTree_research_connections x))%nat -> stays_local ResearchConnection_to_bytes v g mk ->
     stays_local TechTree_to_bytes v (fun t => with_TechTree_research_connections (set_nth i (g t) (TechTree_research_connections x)) x) mk).
Proof.
  intros v x. split; [intros i T g mk Hi G; apply (to_table C07_TechTreeAge) in G; apply (by_table C07_TechTree); open_TechTree x; unfold TechTree_layout; norm_TechTree; loc|]. split; [intros i T g mk Hi G; apply (to_table C07_BuildingConnection) in G; apply (by_table C07_TechTree); open_TechTree x; unfold TechTree_layout; norm_TechTree; loc|]. split; [intros i T g mk Hi G; apply (to_table C07_UnitConnection) in G; apply (by_table C07_TechTree); open_TechTree x; unfold TechTree_layout; norm_TechTree; loc|]. intros i T g mk Hi G; apply (to_table C07_ResearchConnection) in G; apply (by_table C07_TechTree); open_TechTree x; unfold TechTree_layout; norm_TechTree; loc.
Qed.
Ltac norm_DatFile := cbn [with_DatFile_version with_DatFile_float_ptr_terrain_tables with_DatFile_terrain_pass_graphic_pointers with_DatFile_terrain_restrictions with_DatFile_player_colours with_DatFile_sounds with_DatFile_graphics with_DatFile_terrain_block with_DatFile_random_maps with_DatFile_effects with_DatFile_unit_headers with_DatFile_civs with_DatFile_techs with_DatFile_time_slice with_DatFile_unit_kill_rate with_DatFile_unit_kill_total with_DatFile_unit_hit_point_rate with_DatFile_unit_hit_point_total with_DatFile_razing_kill_rate with_DatFile_razing_kill_total with_DatFile_tech_tree DatFile_version DatFile_float_ptr_terrain_tables DatFile_terrain_pass_graphic_pointers DatFile_terrain_restrictions DatFile_player_colours DatFile_sounds DatFile_graphics DatFile_terrain_block DatFile_random_maps DatFile_effects DatFile_unit_headers DatFile_civs DatFile_techs DatFile_time_slice DatFile_unit_kill_rate DatFile_unit_kill_total DatFile_unit_hit_point_rate DatFile_unit_hit_point_total DatFile_razing_kill_rate DatFile_razing_kill_total DatFile_tech_tree] in *.
Ltac open_DatFile x := destruct x as [a0 a1 a2 a3 a4 a5 a6 a7 a8 a9 a10 a11 a12 a13 a14 a15 a16 a17 a18 a19 a20].
Theorem C31_DatFile : forall v x, 
  (forall i, (i < length (DatFile_float_ptr_terrain_tables x))%nat -> stays_local DatFile_to_bytes v (fun t => with_DatFile_float_ptr_terrain_tables (set_nth i t (DatFile_float_ptr_terrain_tables x)) x) I32) /\
  (forall i, (i < length (DatFile_terrain_pass_graphic_pointers x))%nat -> stays_local DatFile_to_bytes v (fun t => with_DatFile_terrain_pass_graphic_pointers (set_nth i t (DatFile_terrain_pass_graphic_pointers x)) x) I32) /\
  (stays_local DatFile_to_bytes v (fun t => with_DatFile_time_slice t x) I32) /\
  (stays_local DatFile_to_bytes v (fun t => with_DatFile_unit_kill_rate t x) I32) /\
  (stays_local DatFile_to_bytes v (fun t => with_DatFile_unit_kill_total t x) I32) /\
  (stays_local DatFile_to_bytes v (fun t => with_DatFile_unit_hit_point_rate t x) I32) /\
  (stays_local DatFile_to_bytes v (fun t => with_DatFile_unit_hit_point_total t x) I32) /\
  (stays_local DatFile_to_bytes v (fun t => with_DatFile_razing_kill_rate t x) I32) /\
  (stays_local DatFile_to_bytes v (fun t => with_DatFile_razing_kill_total t x) I32).
Proof.
  intros v x. split; [intros i Hi; apply (by_table C07_DatFile_table); open_DatFile x; unfold DatFile_flat_layout, DatFile_flat_body, terrains_used; norm_DatFile; destruct (file_version a0) as [ver|]; [|apply local_none]; loc|]. split; [intros i Hi; apply (by_table C07_DatFile_table); open_DatFile x; unfold DatFile_flat_layout, DatFile_flat_body, terrains_used; norm_DatFile; destruct (file_version a0) as [ver|]; [|apply local_none]; loc|]. split; [apply (by_table C07_DatFile_table); open_DatFile x; unfold DatFile_flat_layout, DatFile_flat_body, terrains_used; norm_DatFile; destruct (file_version a0) as [ver|]; [|apply local_none]; loc|]. split; [apply (by_table C07_DatFile_table); open_DatFile x; unfold DatFile_flat_layout, DatFile_flat_body, terrains_used; norm_DatFile; destruct (file_version a0) as [ver|]; [|apply local_none]; loc|]. split; [apply (by_table C07_DatFile_table); open_DatFile x; unfold DatFile_flat_layout, DatFile_flat_body, terrains_used; norm_DatFile; destruct (file_version a0) as [ver|]; [|apply local_none]; loc|]. split; [apply (by_table C07_DatFile_table); open_DatFile x; unfold DatFile_flat_layout, DatFile_flat_body, terrains_used; norm_DatFile; destruct (file_version a0) as [ver|]; [|apply local_none]; loc|]. split; [apply (by_table C07_DatFile_table); open_DatFile x; unfold DatFile_flat_layout, DatFile_flat_body, terrains_used; norm_DatFile; destruct (file_version a0) as [ver|]; [|apply local_none]; loc|]. split; [apply (by_table C07_DatFile_table); open_DatFile x; unfold DatFile_flat_layout, DatFile_flat_body, terrains_used; norm_DatFile; destruct (file_version a0) as [ver|]; [|apply local_none]; loc|]. apply (by_table C07_DatFile_table); open_DatFile x; unfold DatFile_flat_layout, DatFile_flat_body, terrains_used; norm_DatFile; destruct (file_version a0) as [ver|]; [|apply local_none]; loc.
Qed.
Theorem C31_DatFile_parts : forall v x ver, file_version (DatFile_version x) = Some ver -> 
  (forall i T (g : T -> TerrainRestriction) mk, (i < length (DatFile_terrain_restrictions x))%nat -> forall n, (forall t, length (TerrainRestriction_passable_buildable_dmg_multiplier (g t)) = n) ->
     stays_local TerrainRestriction_to_bytes ver g mk ->
     stays_local DatFile_to_bytes v (fun t => with_DatFile_terrain_restrictions (set_nth i (g t) (DatFile_terrain_restrictions x)) x) mk) /\
  (forall i T (g : T -> PlayerColour) mk, (i < length (DatFile_player_colours x))%nat -> stays_local PlayerColour_to_bytes ver g mk ->
     stays_local DatFile_to_bytes v (fun t => with_DatFile_player_colours (set_nth i (g t) (DatFile_player_colours x)) x) mk) /\
  (forall i T (g : T -> Sound) mk, (i < length (DatFile_sounds x))%nat -> stays_local Sound_to_bytes ver g mk ->
     stays_local DatFile_to_bytes v (fun t => with_DatFile_sounds (set_nth i (g t) (DatFile_sounds x)) x) mk) /\
  (forall i T (g : T -> Graphic) mk, (i < length (DatFile_graphics x))%nat -> stays_local Graphic_to_bytes ver g mk ->
     stays_local DatFile_to_bytes v (fun t => with_DatFile_graphics (set_nth i (Some (g t)) (DatFile_graphics x)) x) mk) /\
  (forall T (g : T -> TerrainBlock) mk, stays_local TerrainBlock_to_bytes ver g mk ->
     stays_local DatFile_to_bytes v (fun t => with_DatFile_terrain_block (g t) x) mk) /\
  (forall T (g : T -> RandomMaps) mk, stays_local RandomMaps_to_bytes ver g mk ->
     stays_local DatFile_to_bytes v (fun t => with_DatFile_random_maps (g t) x) mk) /\
  (forall i T (g : T -> Effect) mk, (i < length (DatFile_effects x))%nat -> stays_local Effect_to_bytes ver g mk ->
     stays_local DatFile_to_bytes v (fun t => with_DatFile_effects (set_nth i (g t) (DatFile_effects x)) x) mk) /\
  (forall i T (g : T -> UnitHeaders) mk, (i < length (DatFile_unit_headers x))%nat -> stays_local UnitHeaders_to_bytes ver g mk ->
     stays_local DatFile_to_bytes v (fun t => with_DatFile_unit_headers (set_nth i (g t) (DatFile_unit_headers x)) x) mk) /\
  (forall i T (g : T -> Civ) mk, (i < length (DatFile_civs x))%nat -> stays_local Civ_to_bytes ver g mk ->
     stays_local DatFile_to_bytes v (fun t => with_DatFile_civs (set_nth i (g t) (DatFile_civs x)) x) mk) /\
  (forall i T (g : T -> Tech) mk, (i < length (DatFile_techs x))%nat -> stays_local Tech_to_bytes ver g mk ->
     stays_local DatFile_to_bytes v (fun t => with_DatFile_techs (set_nth i (g t) (DatFile_techs x)) x) mk) /\
  (forall T (g : T -> TechTree) mk, stays_local TechTree_to_bytes ver g mk ->
     stays_local DatFile_to_bytes v (fun t => with_DatFile_tech_tree (g t) x) mk).
Proof.
  intros v x ver HV. split; [intros i T g mk Hi n Q G; apply (to_table C07_TerrainRestriction) in G; apply (by_table C07_DatFile_table); open_DatFile x; unfold DatFile_flat_layout, DatFile_flat_body, terrains_used; norm_DatFile; rewrite HV; eapply local_ext; [intros t; rewrite (first_count i g n a3 Q); reflexivity|]; loc|]. split; [intros i T g mk Hi G; apply (to_table C07_PlayerColour) in G; apply (by_table C07_DatFile_table); open_DatFile x; unfold DatFile_flat_layout, DatFile_flat_body, terrains_used; norm_DatFile; rewrite HV; loc|]. split; [intros i T g mk Hi G; apply (to_table C07_Sound) in G; apply (by_table C07_DatFile_table); open_DatFile x; unfold DatFile_flat_layout, DatFile_flat_body, terrains_used; norm_DatFile; rewrite HV; loc|]. split; [intros i T g mk Hi G; apply (to_table C07_Graphic) in G; apply (by_table C07_DatFile_table); open_DatFile x; unfold DatFile_flat_layout, DatFile_flat_body, terrains_used; norm_DatFile; rewrite HV; loc|]. split; [intros T g mk G; apply (to_table C07_TerrainBlock) in G; apply (by_table C07_DatFile_table); open_DatFile x; unfold DatFile_flat_layout, DatFile_flat_body, terrains_used; norm_DatFile; rewrite HV; loc|]. split; [intros T g mk G; apply (to_table C07_RandomMaps) in G; apply (by_table C07_DatFile_table); open_DatFile x; unfold DatFile_flat_layout, DatFile_flat_body, terrains_used; norm_DatFile; rewrite HV; loc|]. split; [intros i T g mk Hi G; apply (to_table C07_Effect) in G; apply (by_table C07_DatFile_table); open_DatFile x; unfold DatFile_flat_layout, DatFile_flat_body, terrains_used; norm_DatFile; rewrite HV; loc|]. split; [intros i T g mk Hi G; apply (to_table C07_UnitHeaders) in G; apply (by_table C07_DatFile_table); open_DatFile x; unfold DatFile_flat_layout, DatFile_flat_body, terrains_used; norm_DatFile; rewrite HV; loc|]. split; [intros i T g mk Hi G; apply (to_table C07_Civ_flat) in G; apply (by_table C07_DatFile_table); open_DatFile x; unfold DatFile_flat_layout, DatFile_flat_body, terrains_used; norm_DatFile; rewrite HV; loc|]. split; [intros i T g mk Hi G; apply (to_table C07_Tech) in G; apply (by_table C07_DatFile_table); open_DatFile x; unfold DatFile_flat_layout, DatFile_flat_body, terrains_used; norm_DatFile; rewrite HV; loc|]. intros T g mk G; apply (to_table C07_TechTree) in G; apply (by_table C07_DatFile_table); open_DatFile x; unfold DatFile_flat_layout, DatFile_flat_body, terrains_used; norm_DatFile; rewrite HV; loc.
Qed.

Theorem C31_UnitHeaders_parts : forall v x tasks i T (g : T -> Task) mk, UnitHeaders_exists_ x <> 0 -> (i < length tasks)%nat ->
  stays_local Task_to_bytes v g mk ->
  stays_local UnitHeaders_to_bytes v (fun t => with_UnitHeaders_task_list (Some (set_nth i (g t) tasks)) x) mk.
Proof.
  intros v x tasks i T g mk N Hi G. apply (to_table C07_Task) in G. apply (by_table C07_UnitHeaders). destruct x as [a0 a1].
  unfold UnitHeaders_layout. cbn [with_UnitHeaders_task_list UnitHeaders_exists_ UnitHeaders_task_list] in *.
  replace (a0 =? 0) with false by (symmetry; apply Z.eqb_neq, N). loc.
Qed.
Theorem C31_Unit_speed : forall v x, has_speed (Unit_type x) = true ->
  stays_local Unit_to_bytes v (fun t => with_Unit_speed (Some t) x) F32.
Proof.
  intros v x V. apply (by_table C07_Unit_flat). unfold Unit_flat_layout, Unit_sections_layout, Unit_values. destruct x.
  cbn [with_Unit_speed M_Unit.Unit_type] in *. cbn -[item_cells since app has_speed has_dead_fish has_bird has_type_50 has_projectile has_creatable has_building stored count flat_map] .
  rewrite V. loc.
Qed.

(** What it means for a field of fixed width [n]: two encodings of objects that differ in that
    field only have the same length and differ in those [n] bytes only. *)
Theorem C31_fixed_width : forall A T (tb : A -> Version -> res bytes) v (g : T -> A) mk n, stays_local tb v g mk ->
  (forall t b, cell_bytes (mk t) = Some b -> length b = n) ->
  forall t u bt bu, tb (g t) v = Ok bt -> tb (g u) v = Ok bu ->
  length bt = length bu /\
  exists pre b c post, bt = pre ++ b ++ post /\ bu = pre ++ c ++ post /\ length b = n /\ length c = n
    /\ cell_bytes (mk t) = Some b /\ cell_bytes (mk u) = Some c.
Proof.
  intros A T tb v g mk n (pre & post & L) W t u bt bu Et Eu. destruct (L t bt Et) as (b & Hb & ->). destruct (L u bu Eu) as (c & Hc & ->).
  pose proof (W t b Hb) as Lb. pose proof (W u c Hc) as Lc. split; [rewrite !app_length; lia|]. exists pre, b, c, post. auto 7.
Qed.
Lemma int_width mk n s : int_cell mk n s -> forall z b, cell_bytes (mk z) = Some b -> length b = n.
Proof. intros H z b E. rewrite (int_cell_bytes mk n s z H) in E. destruct (int_fits n s z); [|discriminate]. injection E as <-. apply le_bytes_length. Qed.
Lemma some_eq {A} (a b : A) : Some a = Some b -> a = b.
Proof. congruence. Qed.
Theorem C31_widths :
  (forall z b, cell_bytes (U8 z) = Some b -> length b = 1%nat) /\ (forall z b, cell_bytes (I8 z) = Some b -> length b = 1%nat) /\
  (forall z b, cell_bytes (I16 z) = Some b -> length b = 2%nat) /\
  (forall z b, cell_bytes (I32 z) = Some b -> length b = 4%nat) /\ (forall z b, cell_bytes (U32 z) = Some b -> length b = 4%nat) /\
  (forall z b, cell_bytes (F32 z) = Some b -> length b = 4%nat) /\ (forall z b, cell_bytes (F32s z) = Some b -> length b = 4%nat).
Proof.
  split; [exact (int_width _ _ _ ic_u8)|]. split; [exact (int_width _ _ _ ic_i8)|]. split; [exact (int_width _ _ _ ic_i16)|].
  split; [exact (int_width _ _ _ ic_i32)|]. split; [exact (int_width _ _ _ ic_u32)|].
  split; intros z b E; unfold cell_bytes in E.
  - apply some_eq in E. rewrite <- E. apply little_endian_length.
  - destruct (f64_too_large z); [discriminate|]. apply some_eq in E. rewrite <- E. apply little_endian_length.
Qed.

Lemma file_techs w x ver : file_version (DatFile_version x) = Some ver ->
  forall i T (g : T -> Tech) mk, (i < length (DatFile_techs x))%nat -> stays_local Tech_to_bytes ver g mk ->
  stays_local DatFile_to_bytes w (fun t => with_DatFile_techs (set_nth i (g t) (DatFile_techs x)) x) mk.
Proof. intros V. destruct (C31_DatFile_parts w x ver V) as (_ & _ & _ & _ & _ & _ & _ & _ & _ & H & _). exact H. Qed.
Lemma file_civs w x ver : file_version (DatFile_version x) = Some ver ->
  forall i T (g : T -> Civ) mk, (i < length (DatFile_civs x))%nat -> stays_local Civ_to_bytes ver g mk ->
  stays_local DatFile_to_bytes w (fun t => with_DatFile_civs (set_nth i (g t) (DatFile_civs x)) x) mk.
Proof. intros V. destruct (C31_DatFile_parts w x ver V) as (_ & _ & _ & _ & _ & _ & _ & _ & H & _). exact H. Qed.
Lemma unit_creatable_part v x : forall T (g : T -> Creatable) mk, has_creatable (Unit_type x) = true -> stays_local Creatable_to_bytes v g mk ->
  stays_local Unit_to_bytes v (fun t => with_Unit_creatable (Some (g t)) x) mk.
Proof. destruct (C31_Unit_parts v x) as (_ & _ & _ & _ & _ & _ & H & _). exact H. Qed.

(** A path through the file: one amount of a research cost, as in the README. *)
Definition amount_at (i j : nat) (t : Tech) (c : ResearchResourceCost) (x : DatFile) (a : Z) : DatFile :=
  with_DatFile_techs (set_nth i (with_Tech_resource_costs (set_nth j (with_ResearchResourceCost_amount a c) (Tech_resource_costs t)) t)
    (DatFile_techs x)) x.
Theorem C31_cost : forall w x i j t c, nth_error (DatFile_techs x) i = Some t -> nth_error (Tech_resource_costs t) j = Some c ->
  stays_local DatFile_to_bytes w (amount_at i j t c x) I16.
Proof.
  intros w x i j t c Ht Hc. destruct (file_version (DatFile_version x)) as [ver|] eqn:V.
  - assert (Li : (i < length (DatFile_techs x))%nat) by (apply nth_error_Some; congruence).
    assert (Lj : (j < length (Tech_resource_costs t))%nat) by (apply nth_error_Some; congruence).
    assert (S1 : stays_local Tech_to_bytes ver (fun a => with_Tech_resource_costs (set_nth j (with_ResearchResourceCost_amount a c) (Tech_resource_costs t)) t) I16).
    { apply (proj1 (C31_Tech_parts ver t)); [exact Lj|]. apply (C31_ResearchResourceCost ver c). }
    exact (file_techs w x ver V i Z _ I16 Li S1).
  - exists [], []. intros a bs E. exfalso. pose proof (C07_DatFile_flat (amount_at i j t c x a) w) as H. rewrite E in H. cbn [returned] in H.
    unfold DatFile_flat_layout in H. replace (DatFile_version (amount_at i j t c x a)) with (DatFile_version x) in H by (unfold amount_at; destruct x; reflexivity).
    rewrite V in H. discriminate.
Qed.
(** A deeper one: the amount of a resource a unit costs. *)
Theorem C31_unit_cost : forall w x ver i k j c u cr r, file_version (DatFile_version x) = Some ver ->
  nth_error (DatFile_civs x) i = Some c -> nth_error (Civ_units c) k = Some (Some u) -> Unit_creatable u = Some cr ->
  has_creatable (Unit_type u) = true -> nth_error (Creatable_resource_costs cr) j = Some r ->
  stays_local DatFile_to_bytes w
    (fun a => with_DatFile_civs (set_nth i (with_Civ_units (set_nth k (Some (with_Unit_creatable (Some
      (with_Creatable_resource_costs (set_nth j (with_ResourceCost_amount a r) (Creatable_resource_costs cr)) cr)) u)) (Civ_units c)) c)
      (DatFile_civs x)) x) I16.
Proof.
  intros w x ver i k j c u cr r V Hc Hu Hcr Ht Hr.
  assert (Li : (i < length (DatFile_civs x))%nat) by (apply nth_error_Some; congruence).
  assert (Lk : (k < length (Civ_units c))%nat) by (apply nth_error_Some; congruence).
  assert (Lj : (j < length (Creatable_resource_costs cr))%nat) by (apply nth_error_Some; congruence).
  assert (S1 : stays_local ResourceCost_to_bytes ver (fun a => with_ResourceCost_amount a r) I16) by apply (C31_ResourceCost ver r).
  assert (S2 : stays_local Creatable_to_bytes ver (fun a => with_Creatable_resource_costs (set_nth j (with_ResourceCost_amount a r) (Creatable_resource_costs cr)) cr) I16).
  { apply (proj1 (C31_Creatable_parts ver cr)); [exact Lj|exact S1]. }
  assert (S3 := unit_creatable_part ver u _ _ I16 Ht S2). cbv beta in S3.
  assert (S4 := C31_Civ_parts ver c k _ _ I16 Lk S3). cbv beta in S4.
  exact (file_civs w x ver V i Z _ I16 Li S4).
Qed.
Lemma sample_techs_0 v : exists t c, nth_error (DatFile_techs (sample v)) 0 = Some t /\ nth_error (Tech_resource_costs t) 0 = Some c.
Proof. eexists. eexists. split; reflexivity. Qed.
(** The first cost of the sample file; with other amounts see [C32_cost_case] in Props_Readme. *)
Lemma amount_case x t c : DatFile_wf x -> nth_error (DatFile_techs x) 0 = Some t -> nth_error (Tech_resource_costs t) 0 = Some c ->
  exists bs, to_bytes (amount_at 0 0 t c x (ResearchResourceCost_amount c)) = Ok bs.
Proof.
  intros W Ht Hc. replace (amount_at 0 0 t c x (ResearchResourceCost_amount c)) with x.
  - destruct (dat_round_trip_bytes x W) as (bs & E & _). exists bs. exact E.
  - unfold amount_at. destruct x, t, c. cbn in Ht, Hc. destruct DatFile_techs as [|t0 ts]; [discriminate|]. injection Ht as ->.
    destruct Tech_resource_costs as [|c0 cs]; [discriminate|]. injection Hc as ->. reflexivity.
Qed.
Example C31_case : forall v, v <> UNDEFINED -> exists t c bs,
  nth_error (DatFile_techs (sample v)) 0 = Some t /\ nth_error (Tech_resource_costs t) 0 = Some c /\
  to_bytes (amount_at 0 0 t c (sample v) (ResearchResourceCost_amount c)) = Ok bs.
Proof.
  intros v H. destruct (sample_techs_0 v) as (t & c & Ht & Hc). destruct (amount_case (sample v) t c (sample_wf v H) Ht Hc) as (bs & E).
  exists t, c, bs. split; [exact Ht|]. split; [exact Hc|exact E].
Qed.
Definition all_of_this_file := (C31_SoundItem, C31_Sound, C31_Sound_parts, C31_PlayerColour, C31_EffectCommand, C31_Effect, C31_Effect_parts, C31_TerrainPassGraphic, C31_TerrainRestriction, C31_TerrainRestriction_parts, C31_GraphicDelta, C31_GraphicAngleSound, C31_Graphic, C31_Graphic_parts, C31_FrameData, C31_Terrain, C31_Terrain_parts, C31_TileSize, C31_TerrainBlock, C31_TerrainBlock_parts, C31_MapUnit, C31_MapTerrain, C31_MapLand, C31_MapElevation, C31_MapInfo, C31_MapInfo_parts, C31_RandomMaps, C31_RandomMaps_parts, C31_Task, C31_ResourceStorage, C31_DamageGraphic, C31_DeadFish, C31_Bird, C31_Bird_parts, C31_AttackOrArmor, C31_Type50, C31_Type50_parts, C31_Projectile, C31_ResourceCost, C31_TrainLocation, C31_Creatable, C31_Creatable_parts, C31_BuildingAnnex, C31_Building, C31_Building_parts, C31_Unit, C31_Unit_parts, C31_Civ, C31_Civ_parts, C31_ResearchResourceCost, C31_ResearchLocation, C31_Tech, C31_Tech_parts, C31_Common, C31_TechTreeAge, C31_TechTreeAge_parts, C31_BuildingConnection, C31_BuildingConnection_parts, C31_UnitConnection, C31_UnitConnection_parts, C31_ResearchConnection, C31_ResearchConnection_parts, C31_TechTree, C31_TechTree_parts, C31_DatFile, C31_DatFile_parts, C31_UnitHeaders_parts, C31_Unit_speed, C31_fixed_width, C31_widths, C31_cost, C31_unit_cost).
Print Assumptions all_of_this_file.
