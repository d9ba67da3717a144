(** * C34: the JSON dump is complete.  Generated by tools/gen_dump.py. *)
From Verif Require Import Base PyInt PyFloat PyStr Versions Wire Layout Shape Spec FS Dump.
From Verif Require Import M_Sound M_PlayerColour M_Effect M_TerrainRestriction M_Graphic
  M_TerrainBlock M_RandomMaps M_Task M_UnitHeaders M_Unit M_Civ M_Tech M_TechTree M_DatFile.
From Verif Require Import Common Theory Sample DumpL Props_Dat Props_FS.
From Coq Require Import String.
Open Scope Z_scope.
Local Open Scope list_scope.
Local Open Scope string_scope.

Definition keys (t : tree) : list string := match t with TDict l => map fst l | _ => [] end.
Definition get (k : string) (t : tree) : option tree :=
  match t with TDict l => option_map snd (find (fun e => String.eqb (fst e) k) l) | _ => None end.
Definition injective {A} (f : A -> tree) : Prop := forall x y, f x = f y -> x = y.
(** A dump of a non-optional value is never null. *)
Definition solid {A} (f : A -> tree) : Prop := forall x, f x <> TNull.
Lemma inj_int : injective TInt. Proof. intros x y [= ->]. reflexivity. Qed.
Lemma inj_float : injective TFloat. Proof. intros x y E. congruence. Qed.
Lemma inj_text : injective TText. Proof. intros x y E. congruence. Qed.
Lemma inj_map {A} {f : A -> tree} : injective f -> forall l m, map f l = map f m -> l = m.
Proof.
  intros H l. induction l as [|a l IH]; intros [|b m] E; try discriminate; [reflexivity|]. cbn [map] in E.
  assert (E1 : f a = f b) by congruence. assert (E2 : map f l = map f m) by congruence. apply H in E1. apply IH in E2. congruence.
Qed.
Lemma inj_list {A} {f : A -> tree} : injective f -> injective (fun l => TList (map f l)).
Proof. intros H l m E. apply (inj_map H). congruence. Qed.
Lemma inj_option {A} {f : A -> tree} : solid f -> injective f -> injective (of_option f).
Proof.
  intros S H [a|] [b|] E; cbn [of_option] in E; [apply H in E; congruence| | |reflexivity].
  - destruct (S a E).
  - destruct (S b (eq_sym E)).
Qed.
Lemma solid_int : solid TInt. Proof. discriminate. Qed.
Lemma solid_float : solid TFloat. Proof. discriminate. Qed.
Lemma solid_text : solid TText. Proof. discriminate. Qed.
Lemma solid_list {A} {f : A -> tree} : solid (fun l => TList (map f l)). Proof. discriminate. Qed.
Create HintDb dump.
#[local] Hint Resolve inj_int inj_float inj_text inj_list inj_option solid_int solid_float solid_text solid_list : dump.

Theorem C34_SoundItem_fields : forall x,
  keys (SoundItem_asdict x) = ["filename"; "resource_id"; "probability"; "civilization"; "icon_set"] /\
  get "filename" (SoundItem_asdict x) = Some (TText (SoundItem_filename x)) /\
  get "resource_id" (SoundItem_asdict x) = Some (TInt (SoundItem_resource_id x)) /\
  get "probability" (SoundItem_asdict x) = Some (TInt (SoundItem_probability x)) /\
  get "civilization" (SoundItem_asdict x) = Some (TInt (SoundItem_civilization x)) /\
  get "icon_set" (SoundItem_asdict x) = Some (TInt (SoundItem_icon_set x)).
Proof. intros x. repeat match goal with |- _ /\ _ => split end; reflexivity. Qed.
Theorem C34_SoundItem : injective SoundItem_asdict.
Proof.
  intros x y E.
  assert (F0 : SoundItem_filename x = SoundItem_filename y) by (apply (f_equal (get "filename")) in E; apply (f_equal (fun o => match o with Some t => t | None => TNull end)) in E; refine ((_ : injective TText) _ _ E); eauto with dump).
  assert (F1 : SoundItem_resource_id x = SoundItem_resource_id y) by (apply (f_equal (get "resource_id")) in E; apply (f_equal (fun o => match o with Some t => t | None => TNull end)) in E; refine ((_ : injective TInt) _ _ E); eauto with dump).
  assert (F2 : SoundItem_probability x = SoundItem_probability y) by (apply (f_equal (get "probability")) in E; apply (f_equal (fun o => match o with Some t => t | None => TNull end)) in E; refine ((_ : injective TInt) _ _ E); eauto with dump).
  assert (F3 : SoundItem_civilization x = SoundItem_civilization y) by (apply (f_equal (get "civilization")) in E; apply (f_equal (fun o => match o with Some t => t | None => TNull end)) in E; refine ((_ : injective TInt) _ _ E); eauto with dump).
  assert (F4 : SoundItem_icon_set x = SoundItem_icon_set y) by (apply (f_equal (get "icon_set")) in E; apply (f_equal (fun o => match o with Some t => t | None => TNull end)) in E; refine ((_ : injective TInt) _ _ E); eauto with dump).
  clear E. destruct x, y. cbn in F0, F1, F2, F3, F4. subst. reflexivity.
Qed.
Lemma solid_SoundItem : solid SoundItem_asdict. Proof. discriminate. Qed.
#[local] Hint Resolve C34_SoundItem solid_SoundItem : dump.

Theorem C34_Sound_fields : forall x,
  keys (Sound_asdict x) = ["id"; "play_delay"; "cache_time"; "total_probability"; "items"] /\
  get "id" (Sound_asdict x) = Some (TInt (Sound_id x)) /\
  get "play_delay" (Sound_asdict x) = Some (TInt (Sound_play_delay x)) /\
  get "cache_time" (Sound_asdict x) = Some (TInt (Sound_cache_time x)) /\
  get "total_probability" (Sound_asdict x) = Some (TInt (Sound_total_probability x)) /\
  get "items" (Sound_asdict x) = Some (TList (map SoundItem_asdict (Sound_items x))).
Proof. intros x. repeat match goal with |- _ /\ _ => split end; reflexivity. Qed.
Theorem C34_Sound : injective Sound_asdict.
Proof.
  intros x y E.
  assert (F0 : Sound_id x = Sound_id y) by (apply (f_equal (get "id")) in E; apply (f_equal (fun o => match o with Some t => t | None => TNull end)) in E; refine ((_ : injective TInt) _ _ E); eauto with dump).
  assert (F1 : Sound_play_delay x = Sound_play_delay y) by (apply (f_equal (get "play_delay")) in E; apply (f_equal (fun o => match o with Some t => t | None => TNull end)) in E; refine ((_ : injective TInt) _ _ E); eauto with dump).
  assert (F2 : Sound_cache_time x = Sound_cache_time y) by (apply (f_equal (get "cache_time")) in E; apply (f_equal (fun o => match o with Some t => t | None => TNull end)) in E; refine ((_ : injective TInt) _ _ E); eauto with dump).
  assert (F3 : Sound_total_probability x = Sound_total_probability y) by (apply (f_equal (get "total_probability")) in E; apply (f_equal (fun o => match o with Some t => t | None => TNull end)) in E; refine ((_ : injective TInt) _ _ E); eauto with dump).
  assert (F4 : Sound_items x = Sound_items y) by (apply (f_equal (get "items")) in E; apply (f_equal (fun o => match o with Some t => t | None => TNull end)) in E; refine ((_ : injective (fun l => TList (map SoundItem_asdict l))) _ _ E); eauto with dump).
  clear E. destruct x, y. cbn in F0, F1, F2, F3, F4. subst. reflexivity.
Qed.
Lemma solid_Sound : solid Sound_asdict. Proof. discriminate. Qed.
#[local] Hint Resolve C34_Sound solid_Sound : dump.

Theorem C34_PlayerColour_fields : forall x,
  keys (PlayerColour_asdict x) = ["id"; "player_color_base"; "unit_outline_color"; "unit_selection_color_1"; "unit_selection_color_2"; "minimap_color"; "minimap_color_2"; "minimap_color_3"; "statistics_text"] /\
  get "id" (PlayerColour_asdict x) = Some (TInt (PlayerColour_id x)) /\
  get "player_color_base" (PlayerColour_asdict x) = Some (TInt (PlayerColour_player_color_base x)) /\
  get "unit_outline_color" (PlayerColour_asdict x) = Some (TInt (PlayerColour_unit_outline_color x)) /\
  get "unit_selection_color_1" (PlayerColour_asdict x) = Some (TInt (PlayerColour_unit_selection_color_1 x)) /\
  get "unit_selection_color_2" (PlayerColour_asdict x) = Some (TInt (PlayerColour_unit_selection_color_2 x)) /\
  get "minimap_color" (PlayerColour_asdict x) = Some (TInt (PlayerColour_minimap_color x)) /\
  get "minimap_color_2" (PlayerColour_asdict x) = Some (TInt (PlayerColour_minimap_color_2 x)) /\
  get "minimap_color_3" (PlayerColour_asdict x) = Some (TInt (PlayerColour_minimap_color_3 x)) /\
  get "statistics_text" (PlayerColour_asdict x) = Some (TInt (PlayerColour_statistics_text x)).
Proof. intros x. repeat match goal with |- _ /\ _ => split end; reflexivity. Qed.
Theorem C34_PlayerColour : injective PlayerColour_asdict.
Proof.
  intros x y E.
  assert (F0 : PlayerColour_id x = PlayerColour_id y) by (apply (f_equal (get "id")) in E; apply (f_equal (fun o => match o with Some t => t | None => TNull end)) in E; refine ((_ : injective TInt) _ _ E); eauto with dump).
  assert (F1 : PlayerColour_player_color_base x = PlayerColour_player_color_base y) by (apply (f_equal (get "player_color_base")) in E; apply (f_equal (fun o => match o with Some t => t | None => TNull end)) in E; refine ((_ : injective TInt) _ _ E); eauto with dump).
  assert (F2 : PlayerColour_unit_outline_color x = PlayerColour_unit_outline_color y) by (apply (f_equal (get "unit_outline_color")) in E; apply (f_equal (fun o => match o with Some t => t | None => TNull end)) in E; refine ((_ : injective TInt) _ _ E); eauto with dump).
  assert (F3 : PlayerColour_unit_selection_color_1 x = PlayerColour_unit_selection_color_1 y) by (apply (f_equal (get "unit_selection_color_1")) in E; apply (f_equal (fun o => match o with Some t => t | None => TNull end)) in E; refine ((_ : injective TInt) _ _ E); eauto with dump).
  assert (F4 : PlayerColour_unit_selection_color_2 x = PlayerColour_unit_selection_color_2 y) by (apply (f_equal (get "unit_selection_color_2")) in E; apply (f_equal (fun o => match o with Some t => t | None => TNull end)) in E; refine ((_ : injective TInt) _ _ E); eauto with dump).
  assert (F5 : PlayerColour_minimap_color x = PlayerColour_minimap_color y) by (apply (f_equal (get "minimap_color")) in E; apply (f_equal (fun o => match o with Some t => t | None => TNull end)) in E; refine ((_ : injective TInt) _ _ E); eauto with dump).
  assert (F6 : PlayerColour_minimap_color_2 x = PlayerColour_minimap_color_2 y) by (apply (f_equal (get "minimap_color_2")) in E; apply (f_equal (fun o => match o with Some t => t | None => TNull end)) in E; refine ((_ : injective TInt) _ _ E); eauto with dump).
  assert (F7 : PlayerColour_minimap_color_3 x = PlayerColour_minimap_color_3 y) by (apply (f_equal (get "minimap_color_3")) in E; apply (f_equal (fun o => match o with Some t => t | None => TNull end)) in E; refine ((_ : injective TInt) _ _ E); eauto with dump).
  assert (F8 : PlayerColour_statistics_text x = PlayerColour_statistics_text y) by (apply (f_equal (get "statistics_text")) in E; apply (f_equal (fun o => match o with Some t => t | None => TNull end)) in E; refine ((_ : injective TInt) _ _ E); eauto with dump).
  clear E. destruct x, y. cbn in F0, F1, F2, F3, F4, F5, F6, F7, F8. subst. reflexivity.
Qed.
Lemma solid_PlayerColour : solid PlayerColour_asdict. Proof. discriminate. Qed.
#[local] Hint Resolve C34_PlayerColour solid_PlayerColour : dump.

Theorem C34_EffectCommand_fields : forall x,
  keys (EffectCommand_asdict x) = ["type"; "a"; "b"; "c"; "d"] /\
  get "type" (EffectCommand_asdict x) = Some (TInt (EffectCommand_type x)) /\
  get "a" (EffectCommand_asdict x) = Some (TInt (EffectCommand_a x)) /\
  get "b" (EffectCommand_asdict x) = Some (TInt (EffectCommand_b x)) /\
  get "c" (EffectCommand_asdict x) = Some (TInt (EffectCommand_c x)) /\
  get "d" (EffectCommand_asdict x) = Some (TFloat (EffectCommand_d x)).
Proof. intros x. repeat match goal with |- _ /\ _ => split end; reflexivity. Qed.
Theorem C34_EffectCommand : injective EffectCommand_asdict.
Proof.
  intros x y E.
  assert (F0 : EffectCommand_type x = EffectCommand_type y) by (apply (f_equal (get "type")) in E; apply (f_equal (fun o => match o with Some t => t | None => TNull end)) in E; refine ((_ : injective TInt) _ _ E); eauto with dump).
  assert (F1 : EffectCommand_a x = EffectCommand_a y) by (apply (f_equal (get "a")) in E; apply (f_equal (fun o => match o with Some t => t | None => TNull end)) in E; refine ((_ : injective TInt) _ _ E); eauto with dump).
  assert (F2 : EffectCommand_b x = EffectCommand_b y) by (apply (f_equal (get "b")) in E; apply (f_equal (fun o => match o with Some t => t | None => TNull end)) in E; refine ((_ : injective TInt) _ _ E); eauto with dump).
  assert (F3 : EffectCommand_c x = EffectCommand_c y) by (apply (f_equal (get "c")) in E; apply (f_equal (fun o => match o with Some t => t | None => TNull end)) in E; refine ((_ : injective TInt) _ _ E); eauto with dump).
  assert (F4 : EffectCommand_d x = EffectCommand_d y) by (apply (f_equal (get "d")) in E; apply (f_equal (fun o => match o with Some t => t | None => TNull end)) in E; refine ((_ : injective TFloat) _ _ E); eauto with dump).
  clear E. destruct x, y. cbn in F0, F1, F2, F3, F4. subst. reflexivity.
Qed.
Lemma solid_EffectCommand : solid EffectCommand_asdict. Proof. discriminate. Qed.
#[local] Hint Resolve C34_EffectCommand solid_EffectCommand : dump.

Theorem C34_Effect_fields : forall x,
  keys (Effect_asdict x) = ["name"; "effect_commands"] /\
  get "name" (Effect_asdict x) = Some (TText (Effect_name x)) /\
  get "effect_commands" (Effect_asdict x) = Some (TList (map EffectCommand_asdict (Effect_effect_commands x))).
Proof. intros x. repeat match goal with |- _ /\ _ => split end; reflexivity. Qed.
Theorem C34_Effect : injective Effect_asdict.
Proof.
  intros x y E.
  assert (F0 : Effect_name x = Effect_name y) by (apply (f_equal (get "name")) in E; apply (f_equal (fun o => match o with Some t => t | None => TNull end)) in E; refine ((_ : injective TText) _ _ E); eauto with dump).
  assert (F1 : Effect_effect_commands x = Effect_effect_commands y) by (apply (f_equal (get "effect_commands")) in E; apply (f_equal (fun o => match o with Some t => t | None => TNull end)) in E; refine ((_ : injective (fun l => TList (map EffectCommand_asdict l))) _ _ E); eauto with dump).
  clear E. destruct x, y. cbn in F0, F1. subst. reflexivity.
Qed.
Lemma solid_Effect : solid Effect_asdict. Proof. discriminate. Qed.
#[local] Hint Resolve C34_Effect solid_Effect : dump.

Theorem C34_TerrainPassGraphic_fields : forall x,
  keys (TerrainPassGraphic_asdict x) = ["exit_tile_sprite_id"; "enter_tile_sprite_id"; "walk_tile_sprite_id"; "walk_sprite_rate"] /\
  get "exit_tile_sprite_id" (TerrainPassGraphic_asdict x) = Some (TInt (TerrainPassGraphic_exit_tile_sprite_id x)) /\
  get "enter_tile_sprite_id" (TerrainPassGraphic_asdict x) = Some (TInt (TerrainPassGraphic_enter_tile_sprite_id x)) /\
  get "walk_tile_sprite_id" (TerrainPassGraphic_asdict x) = Some (TInt (TerrainPassGraphic_walk_tile_sprite_id x)) /\
  get "walk_sprite_rate" (TerrainPassGraphic_asdict x) = Some (TInt (TerrainPassGraphic_walk_sprite_rate x)).
Proof. intros x. repeat match goal with |- _ /\ _ => split end; reflexivity. Qed.
Theorem C34_TerrainPassGraphic : injective TerrainPassGraphic_asdict.
Proof.
  intros x y E.
  assert (F0 : TerrainPassGraphic_exit_tile_sprite_id x = TerrainPassGraphic_exit_tile_sprite_id y) by (apply (f_equal (get "exit_tile_sprite_id")) in E; apply (f_equal (fun o => match o with Some t => t | None => TNull end)) in E; refine ((_ : injective TInt) _ _ E); eauto with dump).
  assert (F1 : TerrainPassGraphic_enter_tile_sprite_id x = TerrainPassGraphic_enter_tile_sprite_id y) by (apply (f_equal (get "enter_tile_sprite_id")) in E; apply (f_equal (fun o => match o with Some t => t | None => TNull end)) in E; refine ((_ : injective TInt) _ _ E); eauto with dump).
  assert (F2 : TerrainPassGraphic_walk_tile_sprite_id x = TerrainPassGraphic_walk_tile_sprite_id y) by (apply (f_equal (get "walk_tile_sprite_id")) in E; apply (f_equal (fun o => match o with Some t => t | None => TNull end)) in E; refine ((_ : injective TInt) _ _ E); eauto with dump).
  assert (F3 : TerrainPassGraphic_walk_sprite_rate x = TerrainPassGraphic_walk_sprite_rate y) by (apply (f_equal (get "walk_sprite_rate")) in E; apply (f_equal (fun o => match o with Some t => t | None => TNull end)) in E; refine ((_ : injective TInt) _ _ E); eauto with dump).
  clear E. destruct x, y. cbn in F0, F1, F2, F3. subst. reflexivity.
Qed.
Lemma solid_TerrainPassGraphic : solid TerrainPassGraphic_asdict. Proof. discriminate. Qed.
#[local] Hint Resolve C34_TerrainPassGraphic solid_TerrainPassGraphic : dump.

Theorem C34_TerrainRestriction_fields : forall x,
  keys (TerrainRestriction_asdict x) = ["passable_buildable_dmg_multiplier"; "terrain_pass_graphics"] /\
  get "passable_buildable_dmg_multiplier" (TerrainRestriction_asdict x) = Some (TList (map TFloat (TerrainRestriction_passable_buildable_dmg_multiplier x))) /\
  get "terrain_pass_graphics" (TerrainRestriction_asdict x) = Some (TList (map TerrainPassGraphic_asdict (TerrainRestriction_terrain_pass_graphics x))).
Proof. intros x. repeat match goal with |- _ /\ _ => split end; reflexivity. Qed.
Theorem C34_TerrainRestriction : injective TerrainRestriction_asdict.
Proof.
  intros x y E.
  assert (F0 : TerrainRestriction_passable_buildable_dmg_multiplier x = TerrainRestriction_passable_buildable_dmg_multiplier y) by (apply (f_equal (get "passable_buildable_dmg_multiplier")) in E; apply (f_equal (fun o => match o with Some t => t | None => TNull end)) in E; refine ((_ : injective (fun l => TList (map TFloat l))) _ _ E); eauto with dump).
  assert (F1 : TerrainRestriction_terrain_pass_graphics x = TerrainRestriction_terrain_pass_graphics y) by (apply (f_equal (get "terrain_pass_graphics")) in E; apply (f_equal (fun o => match o with Some t => t | None => TNull end)) in E; refine ((_ : injective (fun l => TList (map TerrainPassGraphic_asdict l))) _ _ E); eauto with dump).
  clear E. destruct x, y. cbn in F0, F1. subst. reflexivity.
Qed.
Lemma solid_TerrainRestriction : solid TerrainRestriction_asdict. Proof. discriminate. Qed.
#[local] Hint Resolve C34_TerrainRestriction solid_TerrainRestriction : dump.

Theorem C34_GraphicDelta_fields : forall x,
  keys (GraphicDelta_asdict x) = ["graphic_id"; "padding_1"; "sprite_ptr"; "offset_x"; "offset_y"; "display_angle"; "padding_2"] /\
  get "graphic_id" (GraphicDelta_asdict x) = Some (TInt (GraphicDelta_graphic_id x)) /\
  get "padding_1" (GraphicDelta_asdict x) = Some (TInt (GraphicDelta_padding_1 x)) /\
  get "sprite_ptr" (GraphicDelta_asdict x) = Some (TInt (GraphicDelta_sprite_ptr x)) /\
  get "offset_x" (GraphicDelta_asdict x) = Some (TInt (GraphicDelta_offset_x x)) /\
  get "offset_y" (GraphicDelta_asdict x) = Some (TInt (GraphicDelta_offset_y x)) /\
  get "display_angle" (GraphicDelta_asdict x) = Some (TInt (GraphicDelta_display_angle x)) /\
  get "padding_2" (GraphicDelta_asdict x) = Some (TInt (GraphicDelta_padding_2 x)).
Proof. intros x. repeat match goal with |- _ /\ _ => split end; reflexivity. Qed.
Theorem C34_GraphicDelta : injective GraphicDelta_asdict.
Proof.
  intros x y E.
  assert (F0 : GraphicDelta_graphic_id x = GraphicDelta_graphic_id y) by (apply (f_equal (get "graphic_id")) in E; apply (f_equal (fun o => match o with Some t => t | None => TNull end)) in E; refine ((_ : injective TInt) _ _ E); eauto with dump).
  assert (F1 : GraphicDelta_padding_1 x = GraphicDelta_padding_1 y) by (apply (f_equal (get "padding_1")) in E; apply (f_equal (fun o => match o with Some t => t | None => TNull end)) in E; refine ((_ : injective TInt) _ _ E); eauto with dump).
  assert (F2 : GraphicDelta_sprite_ptr x = GraphicDelta_sprite_ptr y) by (apply (f_equal (get "sprite_ptr")) in E; apply (f_equal (fun o => match o with Some t => t | None => TNull end)) in E; refine ((_ : injective TInt) _ _ E); eauto with dump).
  assert (F3 : GraphicDelta_offset_x x = GraphicDelta_offset_x y) by (apply (f_equal (get "offset_x")) in E; apply (f_equal (fun o => match o with Some t => t | None => TNull end)) in E; refine ((_ : injective TInt) _ _ E); eauto with dump).
  assert (F4 : GraphicDelta_offset_y x = GraphicDelta_offset_y y) by (apply (f_equal (get "offset_y")) in E; apply (f_equal (fun o => match o with Some t => t | None => TNull end)) in E; refine ((_ : injective TInt) _ _ E); eauto with dump).
  assert (F5 : GraphicDelta_display_angle x = GraphicDelta_display_angle y) by (apply (f_equal (get "display_angle")) in E; apply (f_equal (fun o => match o with Some t => t | None => TNull end)) in E; refine ((_ : injective TInt) _ _ E); eauto with dump).
  assert (F6 : GraphicDelta_padding_2 x = GraphicDelta_padding_2 y) by (apply (f_equal (get "padding_2")) in E; apply (f_equal (fun o => match o with Some t => t | None => TNull end)) in E; refine ((_ : injective TInt) _ _ E); eauto with dump).
  clear E. destruct x, y. cbn in F0, F1, F2, F3, F4, F5, F6. subst. reflexivity.
Qed.
Lemma solid_GraphicDelta : solid GraphicDelta_asdict. Proof. discriminate. Qed.
#[local] Hint Resolve C34_GraphicDelta solid_GraphicDelta : dump.

Theorem C34_GraphicAngleSound_fields : forall x,
  keys (GraphicAngleSound_asdict x) = ["frame_num"; "sound_id"; "wwise_sound_id"; "frame_num_2"; "sound_id_2"; "wwise_sound_id_2"; "frame_num_3"; "sound_id_3"; "wwise_sound_id_3"] /\
  get "frame_num" (GraphicAngleSound_asdict x) = Some (TInt (GraphicAngleSound_frame_num x)) /\
  get "sound_id" (GraphicAngleSound_asdict x) = Some (TInt (GraphicAngleSound_sound_id x)) /\
  get "wwise_sound_id" (GraphicAngleSound_asdict x) = Some (TInt (GraphicAngleSound_wwise_sound_id x)) /\
  get "frame_num_2" (GraphicAngleSound_asdict x) = Some (TInt (GraphicAngleSound_frame_num_2 x)) /\
  get "sound_id_2" (GraphicAngleSound_asdict x) = Some (TInt (GraphicAngleSound_sound_id_2 x)) /\
  get "wwise_sound_id_2" (GraphicAngleSound_asdict x) = Some (TInt (GraphicAngleSound_wwise_sound_id_2 x)) /\
  get "frame_num_3" (GraphicAngleSound_asdict x) = Some (TInt (GraphicAngleSound_frame_num_3 x)) /\
  get "sound_id_3" (GraphicAngleSound_asdict x) = Some (TInt (GraphicAngleSound_sound_id_3 x)) /\
  get "wwise_sound_id_3" (GraphicAngleSound_asdict x) = Some (TInt (GraphicAngleSound_wwise_sound_id_3 x)).
Proof. intros x. repeat match goal with |- _ /\ _ => split end; reflexivity. Qed.
Theorem C34_GraphicAngleSound : injective GraphicAngleSound_asdict.
Proof.
  intros x y E.
  assert (F0 : GraphicAngleSound_frame_num x = GraphicAngleSound_frame_num y) by (apply (f_equal (get "frame_num")) in E; apply (f_equal (fun o => match o with Some t => t | None => TNull end)) in E; refine ((_ : injective TInt) _ _ E); eauto with dump).
  assert (F1 : GraphicAngleSound_sound_id x = GraphicAngleSound_sound_id y) by (apply (f_equal (get "sound_id")) in E; apply (f_equal (fun o => match o with Some t => t | None => TNull end)) in E; refine ((_ : injective TInt) _ _ E); eauto with dump).
  assert (F2 : GraphicAngleSound_wwise_sound_id x = GraphicAngleSound_wwise_sound_id y) by (apply (f_equal (get "wwise_sound_id")) in E; apply (f_equal (fun o => match o with Some t => t | None => TNull end)) in E; refine ((_ : injective TInt) _ _ E); eauto with dump).
  assert (F3 : GraphicAngleSound_frame_num_2 x = GraphicAngleSound_frame_num_2 y) by (apply (f_equal (get "frame_num_2")) in E; apply (f_equal (fun o => match o with Some t => t | None => TNull end)) in E; refine ((_ : injective TInt) _ _ E); eauto with dump).
  assert (F4 : GraphicAngleSound_sound_id_2 x = GraphicAngleSound_sound_id_2 y) by (apply (f_equal (get "sound_id_2")) in E; apply (f_equal (fun o => match o with Some t => t | None => TNull end)) in E; refine ((_ : injective TInt) _ _ E); eauto with dump).
  assert (F5 : GraphicAngleSound_wwise_sound_id_2 x = GraphicAngleSound_wwise_sound_id_2 y) by (apply (f_equal (get "wwise_sound_id_2")) in E; apply (f_equal (fun o => match o with Some t => t | None => TNull end)) in E; refine ((_ : injective TInt) _ _ E); eauto with dump).
  assert (F6 : GraphicAngleSound_frame_num_3 x = GraphicAngleSound_frame_num_3 y) by (apply (f_equal (get "frame_num_3")) in E; apply (f_equal (fun o => match o with Some t => t | None => TNull end)) in E; refine ((_ : injective TInt) _ _ E); eauto with dump).
  assert (F7 : GraphicAngleSound_sound_id_3 x = GraphicAngleSound_sound_id_3 y) by (apply (f_equal (get "sound_id_3")) in E; apply (f_equal (fun o => match o with Some t => t | None => TNull end)) in E; refine ((_ : injective TInt) _ _ E); eauto with dump).
  assert (F8 : GraphicAngleSound_wwise_sound_id_3 x = GraphicAngleSound_wwise_sound_id_3 y) by (apply (f_equal (get "wwise_sound_id_3")) in E; apply (f_equal (fun o => match o with Some t => t | None => TNull end)) in E; refine ((_ : injective TInt) _ _ E); eauto with dump).
  clear E. destruct x, y. cbn in F0, F1, F2, F3, F4, F5, F6, F7, F8. subst. reflexivity.
Qed.
Lemma solid_GraphicAngleSound : solid GraphicAngleSound_asdict. Proof. discriminate. Qed.
#[local] Hint Resolve C34_GraphicAngleSound solid_GraphicAngleSound : dump.

Theorem C34_Graphic_fields : forall x,
  keys (Graphic_asdict x) = ["name"; "file_name"; "particle_effect_name"; "slp"; "is_loaded"; "old_color_flag"; "layer"; "player_color"; "transparent_selection"; "coordinates"; "sound_id"; "wwise_sound_id"; "angle_sounds_used"; "frame_count"; "angle_count"; "speed_multiplier"; "frame_duration"; "replay_delay"; "sequence_type"; "id"; "mirroring_mode"; "editor_flag"; "deltas"; "angle_sounds"] /\
  get "name" (Graphic_asdict x) = Some (TText (Graphic_name x)) /\
  get "file_name" (Graphic_asdict x) = Some (TText (Graphic_file_name x)) /\
  get "particle_effect_name" (Graphic_asdict x) = Some (TText (Graphic_particle_effect_name x)) /\
  get "slp" (Graphic_asdict x) = Some (TInt (Graphic_slp x)) /\
  get "is_loaded" (Graphic_asdict x) = Some (TInt (Graphic_is_loaded x)) /\
  get "old_color_flag" (Graphic_asdict x) = Some (TInt (Graphic_old_color_flag x)) /\
  get "layer" (Graphic_asdict x) = Some (TInt (Graphic_layer x)) /\
  get "player_color" (Graphic_asdict x) = Some (TInt (Graphic_player_color x)) /\
  get "transparent_selection" (Graphic_asdict x) = Some (TInt (Graphic_transparent_selection x)) /\
  get "coordinates" (Graphic_asdict x) = Some (TList (map TInt (Graphic_coordinates x))) /\
  get "sound_id" (Graphic_asdict x) = Some (TInt (Graphic_sound_id x)) /\
  get "wwise_sound_id" (Graphic_asdict x) = Some (TInt (Graphic_wwise_sound_id x)) /\
  get "angle_sounds_used" (Graphic_asdict x) = Some (TInt (Graphic_angle_sounds_used x)) /\
  get "frame_count" (Graphic_asdict x) = Some (TInt (Graphic_frame_count x)) /\
  get "angle_count" (Graphic_asdict x) = Some (TInt (Graphic_angle_count x)) /\
  get "speed_multiplier" (Graphic_asdict x) = Some (TFloat (Graphic_speed_multiplier x)) /\
  get "frame_duration" (Graphic_asdict x) = Some (TFloat (Graphic_frame_duration x)) /\
  get "replay_delay" (Graphic_asdict x) = Some (TFloat (Graphic_replay_delay x)) /\
  get "sequence_type" (Graphic_asdict x) = Some (TInt (Graphic_sequence_type x)) /\
  get "id" (Graphic_asdict x) = Some (TInt (Graphic_id x)) /\
  get "mirroring_mode" (Graphic_asdict x) = Some (TInt (Graphic_mirroring_mode x)) /\
  get "editor_flag" (Graphic_asdict x) = Some (TInt (Graphic_editor_flag x)) /\
  get "deltas" (Graphic_asdict x) = Some (TList (map GraphicDelta_asdict (Graphic_deltas x))) /\
  get "angle_sounds" (Graphic_asdict x) = Some (TList (map GraphicAngleSound_asdict (Graphic_angle_sounds x))).
Proof. intros x. repeat match goal with |- _ /\ _ => split end; reflexivity. Qed.
Theorem C34_Graphic : injective Graphic_asdict.
Proof.
  intros x y E.
  assert (F0 : Graphic_name x = Graphic_name y) by (apply (f_equal (get "name")) in E; apply (f_equal (fun o => match o with Some t => t | None => TNull end)) in E; refine ((_ : injective TText) _ _ E); eauto with dump).
  assert (F1 : Graphic_file_name x = Graphic_file_name y) by (apply (f_equal (get "file_name")) in E; apply (f_equal (fun o => match o with Some t => t | None => TNull end)) in E; refine ((_ : injective TText) _ _ E); eauto with dump).
  assert (F2 : Graphic_particle_effect_name x = Graphic_particle_effect_name y) by (apply (f_equal (get "particle_effect_name")) in E; apply (f_equal (fun o => match o with Some t => t | None => TNull end)) in E; refine ((_ : injective TText) _ _ E); eauto with dump).
  assert (F3 : Graphic_slp x = Graphic_slp y) by (apply (f_equal (get "slp")) in E; apply (f_equal (fun o => match o with Some t => t | None => TNull end)) in E; refine ((_ : injective TInt) _ _ E); eauto with dump).
  assert (F4 : Graphic_is_loaded x = Graphic_is_loaded y) by (apply (f_equal (get "is_loaded")) in E; apply (f_equal (fun o => match o with Some t => t | None => TNull end)) in E; refine ((_ : injective TInt) _ _ E); eauto with dump).
  assert (F5 : Graphic_old_color_flag x = Graphic_old_color_flag y) by (apply (f_equal (get "old_color_flag")) in E; apply (f_equal (fun o => match o with Some t => t | None => TNull end)) in E; refine ((_ : injective TInt) _ _ E); eauto with dump).
  assert (F6 : Graphic_layer x = Graphic_layer y) by (apply (f_equal (get "layer")) in E; apply (f_equal (fun o => match o with Some t => t | None => TNull end)) in E; refine ((_ : injective TInt) _ _ E); eauto with dump).
  assert (F7 : Graphic_player_color x = Graphic_player_color y) by (apply (f_equal (get "player_color")) in E; apply (f_equal (fun o => match o with Some t => t | None => TNull end)) in E; refine ((_ : injective TInt) _ _ E); eauto with dump).
  assert (F8 : Graphic_transparent_selection x = Graphic_transparent_selection y) by (apply (f_equal (get "transparent_selection")) in E; apply (f_equal (fun o => match o with Some t => t | None => TNull end)) in E; refine ((_ : injective TInt) _ _ E); eauto with dump).
  assert (F9 : Graphic_coordinates x = Graphic_coordinates y) by (apply (f_equal (get "coordinates")) in E; apply (f_equal (fun o => match o with Some t => t | None => TNull end)) in E; refine ((_ : injective (fun l => TList (map TInt l))) _ _ E); eauto with dump).
  assert (F10 : Graphic_sound_id x = Graphic_sound_id y) by (apply (f_equal (get "sound_id")) in E; apply (f_equal (fun o => match o with Some t => t | None => TNull end)) in E; refine ((_ : injective TInt) _ _ E); eauto with dump).
  assert (F11 : Graphic_wwise_sound_id x = Graphic_wwise_sound_id y) by (apply (f_equal (get "wwise_sound_id")) in E; apply (f_equal (fun o => match o with Some t => t | None => TNull end)) in E; refine ((_ : injective TInt) _ _ E); eauto with dump).
  assert (F12 : Graphic_angle_sounds_used x = Graphic_angle_sounds_used y) by (apply (f_equal (get "angle_sounds_used")) in E; apply (f_equal (fun o => match o with Some t => t | None => TNull end)) in E; refine ((_ : injective TInt) _ _ E); eauto with dump).
  assert (F13 : Graphic_frame_count x = Graphic_frame_count y) by (apply (f_equal (get "frame_count")) in E; apply (f_equal (fun o => match o with Some t => t | None => TNull end)) in E; refine ((_ : injective TInt) _ _ E); eauto with dump).
  assert (F14 : Graphic_angle_count x = Graphic_angle_count y) by (apply (f_equal (get "angle_count")) in E; apply (f_equal (fun o => match o with Some t => t | None => TNull end)) in E; refine ((_ : injective TInt) _ _ E); eauto with dump).
  assert (F15 : Graphic_speed_multiplier x = Graphic_speed_multiplier y) by (apply (f_equal (get "speed_multiplier")) in E; apply (f_equal (fun o => match o with Some t => t | None => TNull end)) in E; refine ((_ : injective TFloat) _ _ E); eauto with dump).
  assert (F16 : Graphic_frame_duration x = Graphic_frame_duration y) by (apply (f_equal (get "frame_duration")) in E; apply (f_equal (fun o => match o with Some t => t | None => TNull end)) in E; refine ((_ : injective TFloat) _ _ E); eauto with dump).
  assert (F17 : Graphic_replay_delay x = Graphic_replay_delay y) by (apply (f_equal (get "replay_delay")) in E; apply (f_equal (fun o => match o with Some t => t | None => TNull end)) in E; refine ((_ : injective TFloat) _ _ E); eauto with dump).
  assert (F18 : Graphic_sequence_type x = Graphic_sequence_type y) by (apply (f_equal (get "sequence_type")) in E; apply (f_equal (fun o => match o with Some t => t | None => TNull end)) in E; refine ((_ : injective TInt) _ _ E); eauto with dump).
  assert (F19 : Graphic_id x = Graphic_id y) by (apply (f_equal (get "id")) in E; apply (f_equal (fun o => match o with Some t => t | None => TNull end)) in E; refine ((_ : injective TInt) _ _ E); eauto with dump).
  assert (F20 : Graphic_mirroring_mode x = Graphic_mirroring_mode y) by (apply (f_equal (get "mirroring_mode")) in E; apply (f_equal (fun o => match o with Some t => t | None => TNull end)) in E; refine ((_ : injective TInt) _ _ E); eauto with dump).
  assert (F21 : Graphic_editor_flag x = Graphic_editor_flag y) by (apply (f_equal (get "editor_flag")) in E; apply (f_equal (fun o => match o with Some t => t | None => TNull end)) in E; refine ((_ : injective TInt) _ _ E); eauto with dump).
  assert (F22 : Graphic_deltas x = Graphic_deltas y) by (apply (f_equal (get "deltas")) in E; apply (f_equal (fun o => match o with Some t => t | None => TNull end)) in E; refine ((_ : injective (fun l => TList (map GraphicDelta_asdict l))) _ _ E); eauto with dump).
  assert (F23 : Graphic_angle_sounds x = Graphic_angle_sounds y) by (apply (f_equal (get "angle_sounds")) in E; apply (f_equal (fun o => match o with Some t => t | None => TNull end)) in E; refine ((_ : injective (fun l => TList (map GraphicAngleSound_asdict l))) _ _ E); eauto with dump).
  clear E. destruct x, y. cbn in F0, F1, F2, F3, F4, F5, F6, F7, F8, F9, F10, F11, F12, F13, F14, F15, F16, F17, F18, F19, F20, F21, F22, F23. subst. reflexivity.
Qed.
Lemma solid_Graphic : solid Graphic_asdict. Proof. discriminate. Qed.
#[local] Hint Resolve C34_Graphic solid_Graphic : dump.

Theorem C34_FrameData_fields : forall x,
  keys (FrameData_asdict x) = ["frame_count"; "angle_count"; "shape_id"] /\
  get "frame_count" (FrameData_asdict x) = Some (TInt (FrameData_frame_count x)) /\
  get "angle_count" (FrameData_asdict x) = Some (TInt (FrameData_angle_count x)) /\
  get "shape_id" (FrameData_asdict x) = Some (TInt (FrameData_shape_id x)).
Proof. intros x. repeat match goal with |- _ /\ _ => split end; reflexivity. Qed.
Theorem C34_FrameData : injective FrameData_asdict.
Proof.
  intros x y E.
  assert (F0 : FrameData_frame_count x = FrameData_frame_count y) by (apply (f_equal (get "frame_count")) in E; apply (f_equal (fun o => match o with Some t => t | None => TNull end)) in E; refine ((_ : injective TInt) _ _ E); eauto with dump).
  assert (F1 : FrameData_angle_count x = FrameData_angle_count y) by (apply (f_equal (get "angle_count")) in E; apply (f_equal (fun o => match o with Some t => t | None => TNull end)) in E; refine ((_ : injective TInt) _ _ E); eauto with dump).
  assert (F2 : FrameData_shape_id x = FrameData_shape_id y) by (apply (f_equal (get "shape_id")) in E; apply (f_equal (fun o => match o with Some t => t | None => TNull end)) in E; refine ((_ : injective TInt) _ _ E); eauto with dump).
  clear E. destruct x, y. cbn in F0, F1, F2. subst. reflexivity.
Qed.
Lemma solid_FrameData : solid FrameData_asdict. Proof. discriminate. Qed.
#[local] Hint Resolve C34_FrameData solid_FrameData : dump.

Theorem C34_Terrain_fields : forall x,
  keys (Terrain_asdict x) = ["enabled"; "random"; "is_water"; "hide_in_editor"; "string_id"; "name"; "name_2"; "slp"; "shape_ptr"; "sound_id"; "wwise_sound_id"; "wwise_sound_stop_id"; "blend_priority"; "blend_type"; "overlay_mask_name"; "colors"; "cliff_colors"; "passable_terrain"; "impassable_terrain"; "is_animated"; "animation_frames"; "pause_frames"; "interval"; "pause_between_loops"; "frame"; "draw_frame"; "animate_last"; "frame_changed"; "drawn"; "frame_data"; "terrain_to_draw"; "terrain_dimensions"; "terrain_unit_masked_density"; "terrain_unit_id"; "terrain_unit_density"; "terrain_unit_centering"; "number_of_terrain_units_used"; "phantom"] /\
  get "enabled" (Terrain_asdict x) = Some (TInt (Terrain_enabled x)) /\
  get "random" (Terrain_asdict x) = Some (TInt (Terrain_random x)) /\
  get "is_water" (Terrain_asdict x) = Some (TInt (Terrain_is_water x)) /\
  get "hide_in_editor" (Terrain_asdict x) = Some (TInt (Terrain_hide_in_editor x)) /\
  get "string_id" (Terrain_asdict x) = Some (TInt (Terrain_string_id x)) /\
  get "name" (Terrain_asdict x) = Some (TText (Terrain_name x)) /\
  get "name_2" (Terrain_asdict x) = Some (TText (Terrain_name_2 x)) /\
  get "slp" (Terrain_asdict x) = Some (TInt (Terrain_slp x)) /\
  get "shape_ptr" (Terrain_asdict x) = Some (TInt (Terrain_shape_ptr x)) /\
  get "sound_id" (Terrain_asdict x) = Some (TInt (Terrain_sound_id x)) /\
  get "wwise_sound_id" (Terrain_asdict x) = Some (TInt (Terrain_wwise_sound_id x)) /\
  get "wwise_sound_stop_id" (Terrain_asdict x) = Some (TInt (Terrain_wwise_sound_stop_id x)) /\
  get "blend_priority" (Terrain_asdict x) = Some (TInt (Terrain_blend_priority x)) /\
  get "blend_type" (Terrain_asdict x) = Some (TInt (Terrain_blend_type x)) /\
  get "overlay_mask_name" (Terrain_asdict x) = Some (TText (Terrain_overlay_mask_name x)) /\
  get "colors" (Terrain_asdict x) = Some (TList (map TInt (Terrain_colors x))) /\
  get "cliff_colors" (Terrain_asdict x) = Some (TList (map TInt (Terrain_cliff_colors x))) /\
  get "passable_terrain" (Terrain_asdict x) = Some (TInt (Terrain_passable_terrain x)) /\
  get "impassable_terrain" (Terrain_asdict x) = Some (TInt (Terrain_impassable_terrain x)) /\
  get "is_animated" (Terrain_asdict x) = Some (TInt (Terrain_is_animated x)) /\
  get "animation_frames" (Terrain_asdict x) = Some (TInt (Terrain_animation_frames x)) /\
  get "pause_frames" (Terrain_asdict x) = Some (TInt (Terrain_pause_frames x)) /\
  get "interval" (Terrain_asdict x) = Some (TFloat (Terrain_interval x)) /\
  get "pause_between_loops" (Terrain_asdict x) = Some (TFloat (Terrain_pause_between_loops x)) /\
  get "frame" (Terrain_asdict x) = Some (TInt (Terrain_frame x)) /\
  get "draw_frame" (Terrain_asdict x) = Some (TInt (Terrain_draw_frame x)) /\
  get "animate_last" (Terrain_asdict x) = Some (TFloat (Terrain_animate_last x)) /\
  get "frame_changed" (Terrain_asdict x) = Some (TInt (Terrain_frame_changed x)) /\
  get "drawn" (Terrain_asdict x) = Some (TInt (Terrain_drawn x)) /\
  get "frame_data" (Terrain_asdict x) = Some (TList (map FrameData_asdict (Terrain_frame_data x))) /\
  get "terrain_to_draw" (Terrain_asdict x) = Some (TInt (Terrain_terrain_to_draw x)) /\
  get "terrain_dimensions" (Terrain_asdict x) = Some (TList (map TInt (Terrain_terrain_dimensions x))) /\
  get "terrain_unit_masked_density" (Terrain_asdict x) = Some (TList (map TInt (Terrain_terrain_unit_masked_density x))) /\
  get "terrain_unit_id" (Terrain_asdict x) = Some (TList (map TInt (Terrain_terrain_unit_id x))) /\
  get "terrain_unit_density" (Terrain_asdict x) = Some (TList (map TInt (Terrain_terrain_unit_density x))) /\
  get "terrain_unit_centering" (Terrain_asdict x) = Some (TList (map TInt (Terrain_terrain_unit_centering x))) /\
  get "number_of_terrain_units_used" (Terrain_asdict x) = Some (TInt (Terrain_number_of_terrain_units_used x)) /\
  get "phantom" (Terrain_asdict x) = Some (TInt (Terrain_phantom x)).
Proof. intros x. repeat match goal with |- _ /\ _ => split end; reflexivity. Qed.
Theorem C34_Terrain : injective Terrain_asdict.
Proof.
  intros x y E.
  assert (F0 : Terrain_enabled x = Terrain_enabled y) by (apply (f_equal (get "enabled")) in E; apply (f_equal (fun o => match o with Some t => t | None => TNull end)) in E; refine ((_ : injective TInt) _ _ E); eauto with dump).
  assert (F1 : Terrain_random x = Terrain_random y) by (apply (f_equal (get "random")) in E; apply (f_equal (fun o => match o with Some t => t | None => TNull end)) in E; refine ((_ : injective TInt) _ _ E); eauto with dump).
  assert (F2 : Terrain_is_water x = Terrain_is_water y) by (apply (f_equal (get "is_water")) in E; apply (f_equal (fun o => match o with Some t => t | None => TNull end)) in E; refine ((_ : injective TInt) _ _ E); eauto with dump).
  assert (F3 : Terrain_hide_in_editor x = Terrain_hide_in_editor y) by (apply (f_equal (get "hide_in_editor")) in E; apply (f_equal (fun o => match o with Some t => t | None => TNull end)) in E; refine ((_ : injective TInt) _ _ E); eauto with dump).
  assert (F4 : Terrain_string_id x = Terrain_string_id y) by (apply (f_equal (get "string_id")) in E; apply (f_equal (fun o => match o with Some t => t | None => TNull end)) in E; refine ((_ : injective TInt) _ _ E); eauto with dump).
  assert (F5 : Terrain_name x = Terrain_name y) by (apply (f_equal (get "name")) in E; apply (f_equal (fun o => match o with Some t => t | None => TNull end)) in E; refine ((_ : injective TText) _ _ E); eauto with dump).
  assert (F6 : Terrain_name_2 x = Terrain_name_2 y) by (apply (f_equal (get "name_2")) in E; apply (f_equal (fun o => match o with Some t => t | None => TNull end)) in E; refine ((_ : injective TText) _ _ E); eauto with dump).
  assert (F7 : Terrain_slp x = Terrain_slp y) by (apply (f_equal (get "slp")) in E; apply (f_equal (fun o => match o with Some t => t | None => TNull end)) in E; refine ((_ : injective TInt) _ _ E); eauto with dump).
  assert (F8 : Terrain_shape_ptr x = Terrain_shape_ptr y) by (apply (f_equal (get "shape_ptr")) in E; apply (f_equal (fun o => match o with Some t => t | None => TNull end)) in E; refine ((_ : injective TInt) _ _ E); eauto with dump).
  assert (F9 : Terrain_sound_id x = Terrain_sound_id y) by (apply (f_equal (get "sound_id")) in E; apply (f_equal (fun o => match o with Some t => t | None => TNull end)) in E; refine ((_ : injective TInt) _ _ E); eauto with dump).
  assert (F10 : Terrain_wwise_sound_id x = Terrain_wwise_sound_id y) by (apply (f_equal (get "wwise_sound_id")) in E; apply (f_equal (fun o => match o with Some t => t | None => TNull end)) in E; refine ((_ : injective TInt) _ _ E); eauto with dump).
  assert (F11 : Terrain_wwise_sound_stop_id x = Terrain_wwise_sound_stop_id y) by (apply (f_equal (get "wwise_sound_stop_id")) in E; apply (f_equal (fun o => match o with Some t => t | None => TNull end)) in E; refine ((_ : injective TInt) _ _ E); eauto with dump).
  assert (F12 : Terrain_blend_priority x = Terrain_blend_priority y) by (apply (f_equal (get "blend_priority")) in E; apply (f_equal (fun o => match o with Some t => t | None => TNull end)) in E; refine ((_ : injective TInt) _ _ E); eauto with dump).
  assert (F13 : Terrain_blend_type x = Terrain_blend_type y) by (apply (f_equal (get "blend_type")) in E; apply (f_equal (fun o => match o with Some t => t | None => TNull end)) in E; refine ((_ : injective TInt) _ _ E); eauto with dump).
  assert (F14 : Terrain_overlay_mask_name x = Terrain_overlay_mask_name y) by (apply (f_equal (get "overlay_mask_name")) in E; apply (f_equal (fun o => match o with Some t => t | None => TNull end)) in E; refine ((_ : injective TText) _ _ E); eauto with dump).
  assert (F15 : Terrain_colors x = Terrain_colors y) by (apply (f_equal (get "colors")) in E; apply (f_equal (fun o => match o with Some t => t | None => TNull end)) in E; refine ((_ : injective (fun l => TList (map TInt l))) _ _ E); eauto with dump).
  assert (F16 : Terrain_cliff_colors x = Terrain_cliff_colors y) by (apply (f_equal (get "cliff_colors")) in E; apply (f_equal (fun o => match o with Some t => t | None => TNull end)) in E; refine ((_ : injective (fun l => TList (map TInt l))) _ _ E); eauto with dump).
  assert (F17 : Terrain_passable_terrain x = Terrain_passable_terrain y) by (apply (f_equal (get "passable_terrain")) in E; apply (f_equal (fun o => match o with Some t => t | None => TNull end)) in E; refine ((_ : injective TInt) _ _ E); eauto with dump).
  assert (F18 : Terrain_impassable_terrain x = Terrain_impassable_terrain y) by (apply (f_equal (get "impassable_terrain")) in E; apply (f_equal (fun o => match o with Some t => t | None => TNull end)) in E; refine ((_ : injective TInt) _ _ E); eauto with dump).
  assert (F19 : Terrain_is_animated x = Terrain_is_animated y) by (apply (f_equal (get "is_animated")) in E; apply (f_equal (fun o => match o with Some t => t | None => TNull end)) in E; refine ((_ : injective TInt) _ _ E); eauto with dump).
  assert (F20 : Terrain_animation_frames x = Terrain_animation_frames y) by (apply (f_equal (get "animation_frames")) in E; apply (f_equal (fun o => match o with Some t => t | None => TNull end)) in E; refine ((_ : injective TInt) _ _ E); eauto with dump).
  assert (F21 : Terrain_pause_frames x = Terrain_pause_frames y) by (apply (f_equal (get "pause_frames")) in E; apply (f_equal (fun o => match o with Some t => t | None => TNull end)) in E; refine ((_ : injective TInt) _ _ E); eauto with dump).
  assert (F22 : Terrain_interval x = Terrain_interval y) by (apply (f_equal (get "interval")) in E; apply (f_equal (fun o => match o with Some t => t | None => TNull end)) in E; refine ((_ : injective TFloat) _ _ E); eauto with dump).
  assert (F23 : Terrain_pause_between_loops x = Terrain_pause_between_loops y) by (apply (f_equal (get "pause_between_loops")) in E; apply (f_equal (fun o => match o with Some t => t | None => TNull end)) in E; refine ((_ : injective TFloat) _ _ E); eauto with dump).
  assert (F24 : Terrain_frame x = Terrain_frame y) by (apply (f_equal (get "frame")) in E; apply (f_equal (fun o => match o with Some t => t | None => TNull end)) in E; refine ((_ : injective TInt) _ _ E); eauto with dump).
  assert (F25 : Terrain_draw_frame x = Terrain_draw_frame y) by (apply (f_equal (get "draw_frame")) in E; apply (f_equal (fun o => match o with Some t => t | None => TNull end)) in E; refine ((_ : injective TInt) _ _ E); eauto with dump).
  assert (F26 : Terrain_animate_last x = Terrain_animate_last y) by (apply (f_equal (get "animate_last")) in E; apply (f_equal (fun o => match o with Some t => t | None => TNull end)) in E; refine ((_ : injective TFloat) _ _ E); eauto with dump).
  assert (F27 : Terrain_frame_changed x = Terrain_frame_changed y) by (apply (f_equal (get "frame_changed")) in E; apply (f_equal (fun o => match o with Some t => t | None => TNull end)) in E; refine ((_ : injective TInt) _ _ E); eauto with dump).
  assert (F28 : Terrain_drawn x = Terrain_drawn y) by (apply (f_equal (get "drawn")) in E; apply (f_equal (fun o => match o with Some t => t | None => TNull end)) in E; refine ((_ : injective TInt) _ _ E); eauto with dump).
  assert (F29 : Terrain_frame_data x = Terrain_frame_data y) by (apply (f_equal (get "frame_data")) in E; apply (f_equal (fun o => match o with Some t => t | None => TNull end)) in E; refine ((_ : injective (fun l => TList (map FrameData_asdict l))) _ _ E); eauto with dump).
  assert (F30 : Terrain_terrain_to_draw x = Terrain_terrain_to_draw y) by (apply (f_equal (get "terrain_to_draw")) in E; apply (f_equal (fun o => match o with Some t => t | None => TNull end)) in E; refine ((_ : injective TInt) _ _ E); eauto with dump).
  assert (F31 : Terrain_terrain_dimensions x = Terrain_terrain_dimensions y) by (apply (f_equal (get "terrain_dimensions")) in E; apply (f_equal (fun o => match o with Some t => t | None => TNull end)) in E; refine ((_ : injective (fun l => TList (map TInt l))) _ _ E); eauto with dump).
  assert (F32 : Terrain_terrain_unit_masked_density x = Terrain_terrain_unit_masked_density y) by (apply (f_equal (get "terrain_unit_masked_density")) in E; apply (f_equal (fun o => match o with Some t => t | None => TNull end)) in E; refine ((_ : injective (fun l => TList (map TInt l))) _ _ E); eauto with dump).
  assert (F33 : Terrain_terrain_unit_id x = Terrain_terrain_unit_id y) by (apply (f_equal (get "terrain_unit_id")) in E; apply (f_equal (fun o => match o with Some t => t | None => TNull end)) in E; refine ((_ : injective (fun l => TList (map TInt l))) _ _ E); eauto with dump).
  assert (F34 : Terrain_terrain_unit_density x = Terrain_terrain_unit_density y) by (apply (f_equal (get "terrain_unit_density")) in E; apply (f_equal (fun o => match o with Some t => t | None => TNull end)) in E; refine ((_ : injective (fun l => TList (map TInt l))) _ _ E); eauto with dump).
  assert (F35 : Terrain_terrain_unit_centering x = Terrain_terrain_unit_centering y) by (apply (f_equal (get "terrain_unit_centering")) in E; apply (f_equal (fun o => match o with Some t => t | None => TNull end)) in E; refine ((_ : injective (fun l => TList (map TInt l))) _ _ E); eauto with dump).
  assert (F36 : Terrain_number_of_terrain_units_used x = Terrain_number_of_terrain_units_used y) by (apply (f_equal (get "number_of_terrain_units_used")) in E; apply (f_equal (fun o => match o with Some t => t | None => TNull end)) in E; refine ((_ : injective TInt) _ _ E); eauto with dump).
  assert (F37 : Terrain_phantom x = Terrain_phantom y) by (apply (f_equal (get "phantom")) in E; apply (f_equal (fun o => match o with Some t => t | None => TNull end)) in E; refine ((_ : injective TInt) _ _ E); eauto with dump).
  clear E. destruct x, y. cbn in F0, F1, F2, F3, F4, F5, F6, F7, F8, F9, F10, F11, F12, F13, F14, F15, F16, F17, F18, F19, F20, F21, F22, F23, F24, F25, F26, F27, F28, F29, F30, F31, F32, F33, F34, F35, F36, F37. subst. reflexivity.
Qed.
Lemma solid_Terrain : solid Terrain_asdict. Proof. discriminate. Qed.
#[local] Hint Resolve C34_Terrain solid_Terrain : dump.

Theorem C34_TileSize_fields : forall x,
  keys (TileSize_asdict x) = ["width"; "height"; "delta_y"] /\
  get "width" (TileSize_asdict x) = Some (TInt (TileSize_width x)) /\
  get "height" (TileSize_asdict x) = Some (TInt (TileSize_height x)) /\
  get "delta_y" (TileSize_asdict x) = Some (TInt (TileSize_delta_y x)).
Proof. intros x. repeat match goal with |- _ /\ _ => split end; reflexivity. Qed.
Theorem C34_TileSize : injective TileSize_asdict.
Proof.
  intros x y E.
  assert (F0 : TileSize_width x = TileSize_width y) by (apply (f_equal (get "width")) in E; apply (f_equal (fun o => match o with Some t => t | None => TNull end)) in E; refine ((_ : injective TInt) _ _ E); eauto with dump).
  assert (F1 : TileSize_height x = TileSize_height y) by (apply (f_equal (get "height")) in E; apply (f_equal (fun o => match o with Some t => t | None => TNull end)) in E; refine ((_ : injective TInt) _ _ E); eauto with dump).
  assert (F2 : TileSize_delta_y x = TileSize_delta_y y) by (apply (f_equal (get "delta_y")) in E; apply (f_equal (fun o => match o with Some t => t | None => TNull end)) in E; refine ((_ : injective TInt) _ _ E); eauto with dump).
  clear E. destruct x, y. cbn in F0, F1, F2. subst. reflexivity.
Qed.
Lemma solid_TileSize : solid TileSize_asdict. Proof. discriminate. Qed.
#[local] Hint Resolve C34_TileSize solid_TileSize : dump.

Theorem C34_TerrainBlock_fields : forall x,
  keys (TerrainBlock_asdict x) = ["virtual_function_ptr"; "map_pointer"; "map_width"; "map_height"; "world_width"; "world_height"; "tile_sizes"; "padding_ts"; "terrains"; "map_min_x"; "map_min_y"; "map_max_x"; "map_max_y"; "map_max_x_plus_1"; "map_max_y_plus_1"; "terrains_used_2"; "borders_used"; "max_terrain"; "tile_width"; "tile_height"; "tile_half_height"; "tile_half_width"; "elev_height"; "cur_row"; "cur_col"; "block_beg_row"; "block_end_row"; "block_beg_col"; "block_end_col"; "search_map_ptr"; "search_map_rows_ptr"; "any_frame_change"; "map_visible_flag"; "fog_flag"] /\
  get "virtual_function_ptr" (TerrainBlock_asdict x) = Some (TInt (TerrainBlock_virtual_function_ptr x)) /\
  get "map_pointer" (TerrainBlock_asdict x) = Some (TInt (TerrainBlock_map_pointer x)) /\
  get "map_width" (TerrainBlock_asdict x) = Some (TInt (TerrainBlock_map_width x)) /\
  get "map_height" (TerrainBlock_asdict x) = Some (TInt (TerrainBlock_map_height x)) /\
  get "world_width" (TerrainBlock_asdict x) = Some (TInt (TerrainBlock_world_width x)) /\
  get "world_height" (TerrainBlock_asdict x) = Some (TInt (TerrainBlock_world_height x)) /\
  get "tile_sizes" (TerrainBlock_asdict x) = Some (TList (map TileSize_asdict (TerrainBlock_tile_sizes x))) /\
  get "padding_ts" (TerrainBlock_asdict x) = Some (TInt (TerrainBlock_padding_ts x)) /\
  get "terrains" (TerrainBlock_asdict x) = Some (TList (map Terrain_asdict (TerrainBlock_terrains x))) /\
  get "map_min_x" (TerrainBlock_asdict x) = Some (TFloat (TerrainBlock_map_min_x x)) /\
  get "map_min_y" (TerrainBlock_asdict x) = Some (TFloat (TerrainBlock_map_min_y x)) /\
  get "map_max_x" (TerrainBlock_asdict x) = Some (TFloat (TerrainBlock_map_max_x x)) /\
  get "map_max_y" (TerrainBlock_asdict x) = Some (TFloat (TerrainBlock_map_max_y x)) /\
  get "map_max_x_plus_1" (TerrainBlock_asdict x) = Some (TFloat (TerrainBlock_map_max_x_plus_1 x)) /\
  get "map_max_y_plus_1" (TerrainBlock_asdict x) = Some (TFloat (TerrainBlock_map_max_y_plus_1 x)) /\
  get "terrains_used_2" (TerrainBlock_asdict x) = Some (TInt (TerrainBlock_terrains_used_2 x)) /\
  get "borders_used" (TerrainBlock_asdict x) = Some (TInt (TerrainBlock_borders_used x)) /\
  get "max_terrain" (TerrainBlock_asdict x) = Some (TInt (TerrainBlock_max_terrain x)) /\
  get "tile_width" (TerrainBlock_asdict x) = Some (TInt (TerrainBlock_tile_width x)) /\
  get "tile_height" (TerrainBlock_asdict x) = Some (TInt (TerrainBlock_tile_height x)) /\
  get "tile_half_height" (TerrainBlock_asdict x) = Some (TInt (TerrainBlock_tile_half_height x)) /\
  get "tile_half_width" (TerrainBlock_asdict x) = Some (TInt (TerrainBlock_tile_half_width x)) /\
  get "elev_height" (TerrainBlock_asdict x) = Some (TInt (TerrainBlock_elev_height x)) /\
  get "cur_row" (TerrainBlock_asdict x) = Some (TInt (TerrainBlock_cur_row x)) /\
  get "cur_col" (TerrainBlock_asdict x) = Some (TInt (TerrainBlock_cur_col x)) /\
  get "block_beg_row" (TerrainBlock_asdict x) = Some (TInt (TerrainBlock_block_beg_row x)) /\
  get "block_end_row" (TerrainBlock_asdict x) = Some (TInt (TerrainBlock_block_end_row x)) /\
  get "block_beg_col" (TerrainBlock_asdict x) = Some (TInt (TerrainBlock_block_beg_col x)) /\
  get "block_end_col" (TerrainBlock_asdict x) = Some (TInt (TerrainBlock_block_end_col x)) /\
  get "search_map_ptr" (TerrainBlock_asdict x) = Some (TInt (TerrainBlock_search_map_ptr x)) /\
  get "search_map_rows_ptr" (TerrainBlock_asdict x) = Some (TInt (TerrainBlock_search_map_rows_ptr x)) /\
  get "any_frame_change" (TerrainBlock_asdict x) = Some (TInt (TerrainBlock_any_frame_change x)) /\
  get "map_visible_flag" (TerrainBlock_asdict x) = Some (TInt (TerrainBlock_map_visible_flag x)) /\
  get "fog_flag" (TerrainBlock_asdict x) = Some (TInt (TerrainBlock_fog_flag x)).
Proof. intros x. repeat match goal with |- _ /\ _ => split end; reflexivity. Qed.
Theorem C34_TerrainBlock : injective TerrainBlock_asdict.
Proof.
  intros x y E.
  assert (F0 : TerrainBlock_virtual_function_ptr x = TerrainBlock_virtual_function_ptr y) by (apply (f_equal (get "virtual_function_ptr")) in E; apply (f_equal (fun o => match o with Some t => t | None => TNull end)) in E; refine ((_ : injective TInt) _ _ E); eauto with dump).
  assert (F1 : TerrainBlock_map_pointer x = TerrainBlock_map_pointer y) by (apply (f_equal (get "map_pointer")) in E; apply (f_equal (fun o => match o with Some t => t | None => TNull end)) in E; refine ((_ : injective TInt) _ _ E); eauto with dump).
  assert (F2 : TerrainBlock_map_width x = TerrainBlock_map_width y) by (apply (f_equal (get "map_width")) in E; apply (f_equal (fun o => match o with Some t => t | None => TNull end)) in E; refine ((_ : injective TInt) _ _ E); eauto with dump).
  assert (F3 : TerrainBlock_map_height x = TerrainBlock_map_height y) by (apply (f_equal (get "map_height")) in E; apply (f_equal (fun o => match o with Some t => t | None => TNull end)) in E; refine ((_ : injective TInt) _ _ E); eauto with dump).
  assert (F4 : TerrainBlock_world_width x = TerrainBlock_world_width y) by (apply (f_equal (get "world_width")) in E; apply (f_equal (fun o => match o with Some t => t | None => TNull end)) in E; refine ((_ : injective TInt) _ _ E); eauto with dump).
  assert (F5 : TerrainBlock_world_height x = TerrainBlock_world_height y) by (apply (f_equal (get "world_height")) in E; apply (f_equal (fun o => match o with Some t => t | None => TNull end)) in E; refine ((_ : injective TInt) _ _ E); eauto with dump).
  assert (F6 : TerrainBlock_tile_sizes x = TerrainBlock_tile_sizes y) by (apply (f_equal (get "tile_sizes")) in E; apply (f_equal (fun o => match o with Some t => t | None => TNull end)) in E; refine ((_ : injective (fun l => TList (map TileSize_asdict l))) _ _ E); eauto with dump).
  assert (F7 : TerrainBlock_padding_ts x = TerrainBlock_padding_ts y) by (apply (f_equal (get "padding_ts")) in E; apply (f_equal (fun o => match o with Some t => t | None => TNull end)) in E; refine ((_ : injective TInt) _ _ E); eauto with dump).
  assert (F8 : TerrainBlock_terrains x = TerrainBlock_terrains y) by (apply (f_equal (get "terrains")) in E; apply (f_equal (fun o => match o with Some t => t | None => TNull end)) in E; refine ((_ : injective (fun l => TList (map Terrain_asdict l))) _ _ E); eauto with dump).
  assert (F9 : TerrainBlock_map_min_x x = TerrainBlock_map_min_x y) by (apply (f_equal (get "map_min_x")) in E; apply (f_equal (fun o => match o with Some t => t | None => TNull end)) in E; refine ((_ : injective TFloat) _ _ E); eauto with dump).
  assert (F10 : TerrainBlock_map_min_y x = TerrainBlock_map_min_y y) by (apply (f_equal (get "map_min_y")) in E; apply (f_equal (fun o => match o with Some t => t | None => TNull end)) in E; refine ((_ : injective TFloat) _ _ E); eauto with dump).
  assert (F11 : TerrainBlock_map_max_x x = TerrainBlock_map_max_x y) by (apply (f_equal (get "map_max_x")) in E; apply (f_equal (fun o => match o with Some t => t | None => TNull end)) in E; refine ((_ : injective TFloat) _ _ E); eauto with dump).
  assert (F12 : TerrainBlock_map_max_y x = TerrainBlock_map_max_y y) by (apply (f_equal (get "map_max_y")) in E; apply (f_equal (fun o => match o with Some t => t | None => TNull end)) in E; refine ((_ : injective TFloat) _ _ E); eauto with dump).
  assert (F13 : TerrainBlock_map_max_x_plus_1 x = TerrainBlock_map_max_x_plus_1 y) by (apply (f_equal (get "map_max_x_plus_1")) in E; apply (f_equal (fun o => match o with Some t => t | None => TNull end)) in E; refine ((_ : injective TFloat) _ _ E); eauto with dump).
  assert (F14 : TerrainBlock_map_max_y_plus_1 x = TerrainBlock_map_max_y_plus_1 y) by (apply (f_equal (get "map_max_y_plus_1")) in E; apply (f_equal (fun o => match o with Some t => t | None => TNull end)) in E; refine ((_ : injective TFloat) _ _ E); eauto with dump).
  assert (F15 : TerrainBlock_terrains_used_2 x = TerrainBlock_terrains_used_2 y) by (apply (f_equal (get "terrains_used_2")) in E; apply (f_equal (fun o => match o with Some t => t | None => TNull end)) in E; refine ((_ : injective TInt) _ _ E); eauto with dump).
  assert (F16 : TerrainBlock_borders_used x = TerrainBlock_borders_used y) by (apply (f_equal (get "borders_used")) in E; apply (f_equal (fun o => match o with Some t => t | None => TNull end)) in E; refine ((_ : injective TInt) _ _ E); eauto with dump).
  assert (F17 : TerrainBlock_max_terrain x = TerrainBlock_max_terrain y) by (apply (f_equal (get "max_terrain")) in E; apply (f_equal (fun o => match o with Some t => t | None => TNull end)) in E; refine ((_ : injective TInt) _ _ E); eauto with dump).
  assert (F18 : TerrainBlock_tile_width x = TerrainBlock_tile_width y) by (apply (f_equal (get "tile_width")) in E; apply (f_equal (fun o => match o with Some t => t | None => TNull end)) in E; refine ((_ : injective TInt) _ _ E); eauto with dump).
  assert (F19 : TerrainBlock_tile_height x = TerrainBlock_tile_height y) by (apply (f_equal (get "tile_height")) in E; apply (f_equal (fun o => match o with Some t => t | None => TNull end)) in E; refine ((_ : injective TInt) _ _ E); eauto with dump).
  assert (F20 : TerrainBlock_tile_half_height x = TerrainBlock_tile_half_height y) by (apply (f_equal (get "tile_half_height")) in E; apply (f_equal (fun o => match o with Some t => t | None => TNull end)) in E; refine ((_ : injective TInt) _ _ E); eauto with dump).
  assert (F21 : TerrainBlock_tile_half_width x = TerrainBlock_tile_half_width y) by (apply (f_equal (get "tile_half_width")) in E; apply (f_equal (fun o => match o with Some t => t | None => TNull end)) in E; refine ((_ : injective TInt) _ _ E); eauto with dump).
  assert (F22 : TerrainBlock_elev_height x = TerrainBlock_elev_height y) by (apply (f_equal (get "elev_height")) in E; apply (f_equal (fun o => match o with Some t => t | None => TNull end)) in E; refine ((_ : injective TInt) _ _ E); eauto with dump).
  assert (F23 : TerrainBlock_cur_row x = TerrainBlock_cur_row y) by (apply (f_equal (get "cur_row")) in E; apply (f_equal (fun o => match o with Some t => t | None => TNull end)) in E; refine ((_ : injective TInt) _ _ E); eauto with dump).
  assert (F24 : TerrainBlock_cur_col x = TerrainBlock_cur_col y) by (apply (f_equal (get "cur_col")) in E; apply (f_equal (fun o => match o with Some t => t | None => TNull end)) in E; refine ((_ : injective TInt) _ _ E); eauto with dump).
  assert (F25 : TerrainBlock_block_beg_row x = TerrainBlock_block_beg_row y) by (apply (f_equal (get "block_beg_row")) in E; apply (f_equal (fun o => match o with Some t => t | None => TNull end)) in E; refine ((_ : injective TInt) _ _ E); eauto with dump).
  assert (F26 : TerrainBlock_block_end_row x = TerrainBlock_block_end_row y) by (apply (f_equal (get "block_end_row")) in E; apply (f_equal (fun o => match o with Some t => t | None => TNull end)) in E; refine ((_ : injective TInt) _ _ E); eauto with dump).
  assert (F27 : TerrainBlock_block_beg_col x = TerrainBlock_block_beg_col y) by (apply (f_equal (get "block_beg_col")) in E; apply (f_equal (fun o => match o with Some t => t | None => TNull end)) in E; refine ((_ : injective TInt) _ _ E); eauto with dump).
  assert (F28 : TerrainBlock_block_end_col x = TerrainBlock_block_end_col y) by (apply (f_equal (get "block_end_col")) in E; apply (f_equal (fun o => match o with Some t => t | None => TNull end)) in E; refine ((_ : injective TInt) _ _ E); eauto with dump).
  assert (F29 : TerrainBlock_search_map_ptr x = TerrainBlock_search_map_ptr y) by (apply (f_equal (get "search_map_ptr")) in E; apply (f_equal (fun o => match o with Some t => t | None => TNull end)) in E; refine ((_ : injective TInt) _ _ E); eauto with dump).
  assert (F30 : TerrainBlock_search_map_rows_ptr x = TerrainBlock_search_map_rows_ptr y) by (apply (f_equal (get "search_map_rows_ptr")) in E; apply (f_equal (fun o => match o with Some t => t | None => TNull end)) in E; refine ((_ : injective TInt) _ _ E); eauto with dump).
  assert (F31 : TerrainBlock_any_frame_change x = TerrainBlock_any_frame_change y) by (apply (f_equal (get "any_frame_change")) in E; apply (f_equal (fun o => match o with Some t => t | None => TNull end)) in E; refine ((_ : injective TInt) _ _ E); eauto with dump).
  assert (F32 : TerrainBlock_map_visible_flag x = TerrainBlock_map_visible_flag y) by (apply (f_equal (get "map_visible_flag")) in E; apply (f_equal (fun o => match o with Some t => t | None => TNull end)) in E; refine ((_ : injective TInt) _ _ E); eauto with dump).
  assert (F33 : TerrainBlock_fog_flag x = TerrainBlock_fog_flag y) by (apply (f_equal (get "fog_flag")) in E; apply (f_equal (fun o => match o with Some t => t | None => TNull end)) in E; refine ((_ : injective TInt) _ _ E); eauto with dump).
  clear E. destruct x, y. cbn in F0, F1, F2, F3, F4, F5, F6, F7, F8, F9, F10, F11, F12, F13, F14, F15, F16, F17, F18, F19, F20, F21, F22, F23, F24, F25, F26, F27, F28, F29, F30, F31, F32, F33. subst. reflexivity.
Qed.
Lemma solid_TerrainBlock : solid TerrainBlock_asdict. Proof. discriminate. Qed.
#[local] Hint Resolve C34_TerrainBlock solid_TerrainBlock : dump.

Theorem C34_MapUnit_fields : forall x,
  keys (MapUnit_asdict x) = ["unit"; "host_terrain"; "group_placing"; "scale_flag"; "padding_1"; "objects_per_group"; "fluctuation"; "groups_per_player"; "group_arena"; "player_id"; "set_place_for_all_players"; "min_distance_to_players"; "max_distance_to_players"] /\
  get "unit" (MapUnit_asdict x) = Some (TInt (MapUnit_unit x)) /\
  get "host_terrain" (MapUnit_asdict x) = Some (TInt (MapUnit_host_terrain x)) /\
  get "group_placing" (MapUnit_asdict x) = Some (TInt (MapUnit_group_placing x)) /\
  get "scale_flag" (MapUnit_asdict x) = Some (TInt (MapUnit_scale_flag x)) /\
  get "padding_1" (MapUnit_asdict x) = Some (TInt (MapUnit_padding_1 x)) /\
  get "objects_per_group" (MapUnit_asdict x) = Some (TInt (MapUnit_objects_per_group x)) /\
  get "fluctuation" (MapUnit_asdict x) = Some (TInt (MapUnit_fluctuation x)) /\
  get "groups_per_player" (MapUnit_asdict x) = Some (TInt (MapUnit_groups_per_player x)) /\
  get "group_arena" (MapUnit_asdict x) = Some (TInt (MapUnit_group_arena x)) /\
  get "player_id" (MapUnit_asdict x) = Some (TInt (MapUnit_player_id x)) /\
  get "set_place_for_all_players" (MapUnit_asdict x) = Some (TInt (MapUnit_set_place_for_all_players x)) /\
  get "min_distance_to_players" (MapUnit_asdict x) = Some (TInt (MapUnit_min_distance_to_players x)) /\
  get "max_distance_to_players" (MapUnit_asdict x) = Some (TInt (MapUnit_max_distance_to_players x)).
Proof. intros x. repeat match goal with |- _ /\ _ => split end; reflexivity. Qed.
Theorem C34_MapUnit : injective MapUnit_asdict.
Proof.
  intros x y E.
  assert (F0 : MapUnit_unit x = MapUnit_unit y) by (apply (f_equal (get "unit")) in E; apply (f_equal (fun o => match o with Some t => t | None => TNull end)) in E; refine ((_ : injective TInt) _ _ E); eauto with dump).
  assert (F1 : MapUnit_host_terrain x = MapUnit_host_terrain y) by (apply (f_equal (get "host_terrain")) in E; apply (f_equal (fun o => match o with Some t => t | None => TNull end)) in E; refine ((_ : injective TInt) _ _ E); eauto with dump).
  assert (F2 : MapUnit_group_placing x = MapUnit_group_placing y) by (apply (f_equal (get "group_placing")) in E; apply (f_equal (fun o => match o with Some t => t | None => TNull end)) in E; refine ((_ : injective TInt) _ _ E); eauto with dump).
  assert (F3 : MapUnit_scale_flag x = MapUnit_scale_flag y) by (apply (f_equal (get "scale_flag")) in E; apply (f_equal (fun o => match o with Some t => t | None => TNull end)) in E; refine ((_ : injective TInt) _ _ E); eauto with dump).
  assert (F4 : MapUnit_padding_1 x = MapUnit_padding_1 y) by (apply (f_equal (get "padding_1")) in E; apply (f_equal (fun o => match o with Some t => t | None => TNull end)) in E; refine ((_ : injective TInt) _ _ E); eauto with dump).
  assert (F5 : MapUnit_objects_per_group x = MapUnit_objects_per_group y) by (apply (f_equal (get "objects_per_group")) in E; apply (f_equal (fun o => match o with Some t => t | None => TNull end)) in E; refine ((_ : injective TInt) _ _ E); eauto with dump).
  assert (F6 : MapUnit_fluctuation x = MapUnit_fluctuation y) by (apply (f_equal (get "fluctuation")) in E; apply (f_equal (fun o => match o with Some t => t | None => TNull end)) in E; refine ((_ : injective TInt) _ _ E); eauto with dump).
  assert (F7 : MapUnit_groups_per_player x = MapUnit_groups_per_player y) by (apply (f_equal (get "groups_per_player")) in E; apply (f_equal (fun o => match o with Some t => t | None => TNull end)) in E; refine ((_ : injective TInt) _ _ E); eauto with dump).
  assert (F8 : MapUnit_group_arena x = MapUnit_group_arena y) by (apply (f_equal (get "group_arena")) in E; apply (f_equal (fun o => match o with Some t => t | None => TNull end)) in E; refine ((_ : injective TInt) _ _ E); eauto with dump).
  assert (F9 : MapUnit_player_id x = MapUnit_player_id y) by (apply (f_equal (get "player_id")) in E; apply (f_equal (fun o => match o with Some t => t | None => TNull end)) in E; refine ((_ : injective TInt) _ _ E); eauto with dump).
  assert (F10 : MapUnit_set_place_for_all_players x = MapUnit_set_place_for_all_players y) by (apply (f_equal (get "set_place_for_all_players")) in E; apply (f_equal (fun o => match o with Some t => t | None => TNull end)) in E; refine ((_ : injective TInt) _ _ E); eauto with dump).
  assert (F11 : MapUnit_min_distance_to_players x = MapUnit_min_distance_to_players y) by (apply (f_equal (get "min_distance_to_players")) in E; apply (f_equal (fun o => match o with Some t => t | None => TNull end)) in E; refine ((_ : injective TInt) _ _ E); eauto with dump).
  assert (F12 : MapUnit_max_distance_to_players x = MapUnit_max_distance_to_players y) by (apply (f_equal (get "max_distance_to_players")) in E; apply (f_equal (fun o => match o with Some t => t | None => TNull end)) in E; refine ((_ : injective TInt) _ _ E); eauto with dump).
  clear E. destruct x, y. cbn in F0, F1, F2, F3, F4, F5, F6, F7, F8, F9, F10, F11, F12. subst. reflexivity.
Qed.
Lemma solid_MapUnit : solid MapUnit_asdict. Proof. discriminate. Qed.
#[local] Hint Resolve C34_MapUnit solid_MapUnit : dump.

Theorem C34_MapTerrain_fields : forall x,
  keys (MapTerrain_asdict x) = ["proportion"; "terrain"; "clump_count"; "edge_spacing"; "placement_terrain"; "clumpiness"] /\
  get "proportion" (MapTerrain_asdict x) = Some (TInt (MapTerrain_proportion x)) /\
  get "terrain" (MapTerrain_asdict x) = Some (TInt (MapTerrain_terrain x)) /\
  get "clump_count" (MapTerrain_asdict x) = Some (TInt (MapTerrain_clump_count x)) /\
  get "edge_spacing" (MapTerrain_asdict x) = Some (TInt (MapTerrain_edge_spacing x)) /\
  get "placement_terrain" (MapTerrain_asdict x) = Some (TInt (MapTerrain_placement_terrain x)) /\
  get "clumpiness" (MapTerrain_asdict x) = Some (TInt (MapTerrain_clumpiness x)).
Proof. intros x. repeat match goal with |- _ /\ _ => split end; reflexivity. Qed.
Theorem C34_MapTerrain : injective MapTerrain_asdict.
Proof.
  intros x y E.
  assert (F0 : MapTerrain_proportion x = MapTerrain_proportion y) by (apply (f_equal (get "proportion")) in E; apply (f_equal (fun o => match o with Some t => t | None => TNull end)) in E; refine ((_ : injective TInt) _ _ E); eauto with dump).
  assert (F1 : MapTerrain_terrain x = MapTerrain_terrain y) by (apply (f_equal (get "terrain")) in E; apply (f_equal (fun o => match o with Some t => t | None => TNull end)) in E; refine ((_ : injective TInt) _ _ E); eauto with dump).
  assert (F2 : MapTerrain_clump_count x = MapTerrain_clump_count y) by (apply (f_equal (get "clump_count")) in E; apply (f_equal (fun o => match o with Some t => t | None => TNull end)) in E; refine ((_ : injective TInt) _ _ E); eauto with dump).
  assert (F3 : MapTerrain_edge_spacing x = MapTerrain_edge_spacing y) by (apply (f_equal (get "edge_spacing")) in E; apply (f_equal (fun o => match o with Some t => t | None => TNull end)) in E; refine ((_ : injective TInt) _ _ E); eauto with dump).
  assert (F4 : MapTerrain_placement_terrain x = MapTerrain_placement_terrain y) by (apply (f_equal (get "placement_terrain")) in E; apply (f_equal (fun o => match o with Some t => t | None => TNull end)) in E; refine ((_ : injective TInt) _ _ E); eauto with dump).
  assert (F5 : MapTerrain_clumpiness x = MapTerrain_clumpiness y) by (apply (f_equal (get "clumpiness")) in E; apply (f_equal (fun o => match o with Some t => t | None => TNull end)) in E; refine ((_ : injective TInt) _ _ E); eauto with dump).
  clear E. destruct x, y. cbn in F0, F1, F2, F3, F4, F5. subst. reflexivity.
Qed.
Lemma solid_MapTerrain : solid MapTerrain_asdict. Proof. discriminate. Qed.
#[local] Hint Resolve C34_MapTerrain solid_MapTerrain : dump.

Theorem C34_MapLand_fields : forall x,
  keys (MapLand_asdict x) = ["land_id"; "terrain"; "land_spacing"; "base_size"; "zone"; "placement_type"; "padding_1"; "base_x"; "base_y"; "land_proportion"; "by_player_flag"; "padding_2"; "start_area_radius"; "terrain_edge_fade"; "clumpiness"] /\
  get "land_id" (MapLand_asdict x) = Some (TInt (MapLand_land_id x)) /\
  get "terrain" (MapLand_asdict x) = Some (TInt (MapLand_terrain x)) /\
  get "land_spacing" (MapLand_asdict x) = Some (TInt (MapLand_land_spacing x)) /\
  get "base_size" (MapLand_asdict x) = Some (TInt (MapLand_base_size x)) /\
  get "zone" (MapLand_asdict x) = Some (TInt (MapLand_zone x)) /\
  get "placement_type" (MapLand_asdict x) = Some (TInt (MapLand_placement_type x)) /\
  get "padding_1" (MapLand_asdict x) = Some (TInt (MapLand_padding_1 x)) /\
  get "base_x" (MapLand_asdict x) = Some (TInt (MapLand_base_x x)) /\
  get "base_y" (MapLand_asdict x) = Some (TInt (MapLand_base_y x)) /\
  get "land_proportion" (MapLand_asdict x) = Some (TInt (MapLand_land_proportion x)) /\
  get "by_player_flag" (MapLand_asdict x) = Some (TInt (MapLand_by_player_flag x)) /\
  get "padding_2" (MapLand_asdict x) = Some (TInt (MapLand_padding_2 x)) /\
  get "start_area_radius" (MapLand_asdict x) = Some (TInt (MapLand_start_area_radius x)) /\
  get "terrain_edge_fade" (MapLand_asdict x) = Some (TInt (MapLand_terrain_edge_fade x)) /\
  get "clumpiness" (MapLand_asdict x) = Some (TInt (MapLand_clumpiness x)).
Proof. intros x. repeat match goal with |- _ /\ _ => split end; reflexivity. Qed.
Theorem C34_MapLand : injective MapLand_asdict.
Proof.
  intros x y E.
  assert (F0 : MapLand_land_id x = MapLand_land_id y) by (apply (f_equal (get "land_id")) in E; apply (f_equal (fun o => match o with Some t => t | None => TNull end)) in E; refine ((_ : injective TInt) _ _ E); eauto with dump).
  assert (F1 : MapLand_terrain x = MapLand_terrain y) by (apply (f_equal (get "terrain")) in E; apply (f_equal (fun o => match o with Some t => t | None => TNull end)) in E; refine ((_ : injective TInt) _ _ E); eauto with dump).
  assert (F2 : MapLand_land_spacing x = MapLand_land_spacing y) by (apply (f_equal (get "land_spacing")) in E; apply (f_equal (fun o => match o with Some t => t | None => TNull end)) in E; refine ((_ : injective TInt) _ _ E); eauto with dump).
  assert (F3 : MapLand_base_size x = MapLand_base_size y) by (apply (f_equal (get "base_size")) in E; apply (f_equal (fun o => match o with Some t => t | None => TNull end)) in E; refine ((_ : injective TInt) _ _ E); eauto with dump).
  assert (F4 : MapLand_zone x = MapLand_zone y) by (apply (f_equal (get "zone")) in E; apply (f_equal (fun o => match o with Some t => t | None => TNull end)) in E; refine ((_ : injective TInt) _ _ E); eauto with dump).
  assert (F5 : MapLand_placement_type x = MapLand_placement_type y) by (apply (f_equal (get "placement_type")) in E; apply (f_equal (fun o => match o with Some t => t | None => TNull end)) in E; refine ((_ : injective TInt) _ _ E); eauto with dump).
  assert (F6 : MapLand_padding_1 x = MapLand_padding_1 y) by (apply (f_equal (get "padding_1")) in E; apply (f_equal (fun o => match o with Some t => t | None => TNull end)) in E; refine ((_ : injective TInt) _ _ E); eauto with dump).
  assert (F7 : MapLand_base_x x = MapLand_base_x y) by (apply (f_equal (get "base_x")) in E; apply (f_equal (fun o => match o with Some t => t | None => TNull end)) in E; refine ((_ : injective TInt) _ _ E); eauto with dump).
  assert (F8 : MapLand_base_y x = MapLand_base_y y) by (apply (f_equal (get "base_y")) in E; apply (f_equal (fun o => match o with Some t => t | None => TNull end)) in E; refine ((_ : injective TInt) _ _ E); eauto with dump).
  assert (F9 : MapLand_land_proportion x = MapLand_land_proportion y) by (apply (f_equal (get "land_proportion")) in E; apply (f_equal (fun o => match o with Some t => t | None => TNull end)) in E; refine ((_ : injective TInt) _ _ E); eauto with dump).
  assert (F10 : MapLand_by_player_flag x = MapLand_by_player_flag y) by (apply (f_equal (get "by_player_flag")) in E; apply (f_equal (fun o => match o with Some t => t | None => TNull end)) in E; refine ((_ : injective TInt) _ _ E); eauto with dump).
  assert (F11 : MapLand_padding_2 x = MapLand_padding_2 y) by (apply (f_equal (get "padding_2")) in E; apply (f_equal (fun o => match o with Some t => t | None => TNull end)) in E; refine ((_ : injective TInt) _ _ E); eauto with dump).
  assert (F12 : MapLand_start_area_radius x = MapLand_start_area_radius y) by (apply (f_equal (get "start_area_radius")) in E; apply (f_equal (fun o => match o with Some t => t | None => TNull end)) in E; refine ((_ : injective TInt) _ _ E); eauto with dump).
  assert (F13 : MapLand_terrain_edge_fade x = MapLand_terrain_edge_fade y) by (apply (f_equal (get "terrain_edge_fade")) in E; apply (f_equal (fun o => match o with Some t => t | None => TNull end)) in E; refine ((_ : injective TInt) _ _ E); eauto with dump).
  assert (F14 : MapLand_clumpiness x = MapLand_clumpiness y) by (apply (f_equal (get "clumpiness")) in E; apply (f_equal (fun o => match o with Some t => t | None => TNull end)) in E; refine ((_ : injective TInt) _ _ E); eauto with dump).
  clear E. destruct x, y. cbn in F0, F1, F2, F3, F4, F5, F6, F7, F8, F9, F10, F11, F12, F13, F14. subst. reflexivity.
Qed.
Lemma solid_MapLand : solid MapLand_asdict. Proof. discriminate. Qed.
#[local] Hint Resolve C34_MapLand solid_MapLand : dump.

Theorem C34_MapElevation_fields : forall x,
  keys (MapElevation_asdict x) = ["proportion"; "terrain"; "clump_count"; "base_terrain"; "base_elevation"; "tile_spacing"] /\
  get "proportion" (MapElevation_asdict x) = Some (TInt (MapElevation_proportion x)) /\
  get "terrain" (MapElevation_asdict x) = Some (TInt (MapElevation_terrain x)) /\
  get "clump_count" (MapElevation_asdict x) = Some (TInt (MapElevation_clump_count x)) /\
  get "base_terrain" (MapElevation_asdict x) = Some (TInt (MapElevation_base_terrain x)) /\
  get "base_elevation" (MapElevation_asdict x) = Some (TInt (MapElevation_base_elevation x)) /\
  get "tile_spacing" (MapElevation_asdict x) = Some (TInt (MapElevation_tile_spacing x)).
Proof. intros x. repeat match goal with |- _ /\ _ => split end; reflexivity. Qed.
Theorem C34_MapElevation : injective MapElevation_asdict.
Proof.
  intros x y E.
  assert (F0 : MapElevation_proportion x = MapElevation_proportion y) by (apply (f_equal (get "proportion")) in E; apply (f_equal (fun o => match o with Some t => t | None => TNull end)) in E; refine ((_ : injective TInt) _ _ E); eauto with dump).
  assert (F1 : MapElevation_terrain x = MapElevation_terrain y) by (apply (f_equal (get "terrain")) in E; apply (f_equal (fun o => match o with Some t => t | None => TNull end)) in E; refine ((_ : injective TInt) _ _ E); eauto with dump).
  assert (F2 : MapElevation_clump_count x = MapElevation_clump_count y) by (apply (f_equal (get "clump_count")) in E; apply (f_equal (fun o => match o with Some t => t | None => TNull end)) in E; refine ((_ : injective TInt) _ _ E); eauto with dump).
  assert (F3 : MapElevation_base_terrain x = MapElevation_base_terrain y) by (apply (f_equal (get "base_terrain")) in E; apply (f_equal (fun o => match o with Some t => t | None => TNull end)) in E; refine ((_ : injective TInt) _ _ E); eauto with dump).
  assert (F4 : MapElevation_base_elevation x = MapElevation_base_elevation y) by (apply (f_equal (get "base_elevation")) in E; apply (f_equal (fun o => match o with Some t => t | None => TNull end)) in E; refine ((_ : injective TInt) _ _ E); eauto with dump).
  assert (F5 : MapElevation_tile_spacing x = MapElevation_tile_spacing y) by (apply (f_equal (get "tile_spacing")) in E; apply (f_equal (fun o => match o with Some t => t | None => TNull end)) in E; refine ((_ : injective TInt) _ _ E); eauto with dump).
  clear E. destruct x, y. cbn in F0, F1, F2, F3, F4, F5. subst. reflexivity.
Qed.
Lemma solid_MapElevation : solid MapElevation_asdict. Proof. discriminate. Qed.
#[local] Hint Resolve C34_MapElevation solid_MapElevation : dump.

Theorem C34_MapInfo_fields : forall x,
  keys (MapInfo_asdict x) = ["map_id"; "border_south_west"; "border_north_west"; "border_north_east"; "border_south_east"; "border_usage"; "water_shape"; "base_terrain"; "land_coverage"; "unused_id"; "map_lands_size"; "map_lands_ptr"; "map_lands"; "map_terrains_size"; "map_terrains_ptr"; "map_terrains"; "map_units_size"; "map_units_ptr"; "map_units"; "map_elevations_size"; "map_elevations_ptr"; "map_elevations"] /\
  get "map_id" (MapInfo_asdict x) = Some (TInt (MapInfo_map_id x)) /\
  get "border_south_west" (MapInfo_asdict x) = Some (TInt (MapInfo_border_south_west x)) /\
  get "border_north_west" (MapInfo_asdict x) = Some (TInt (MapInfo_border_north_west x)) /\
  get "border_north_east" (MapInfo_asdict x) = Some (TInt (MapInfo_border_north_east x)) /\
  get "border_south_east" (MapInfo_asdict x) = Some (TInt (MapInfo_border_south_east x)) /\
  get "border_usage" (MapInfo_asdict x) = Some (TInt (MapInfo_border_usage x)) /\
  get "water_shape" (MapInfo_asdict x) = Some (TInt (MapInfo_water_shape x)) /\
  get "base_terrain" (MapInfo_asdict x) = Some (TInt (MapInfo_base_terrain x)) /\
  get "land_coverage" (MapInfo_asdict x) = Some (TInt (MapInfo_land_coverage x)) /\
  get "unused_id" (MapInfo_asdict x) = Some (TInt (MapInfo_unused_id x)) /\
  get "map_lands_size" (MapInfo_asdict x) = Some (TInt (MapInfo_map_lands_size x)) /\
  get "map_lands_ptr" (MapInfo_asdict x) = Some (TInt (MapInfo_map_lands_ptr x)) /\
  get "map_lands" (MapInfo_asdict x) = Some (TList (map MapLand_asdict (MapInfo_map_lands x))) /\
  get "map_terrains_size" (MapInfo_asdict x) = Some (TInt (MapInfo_map_terrains_size x)) /\
  get "map_terrains_ptr" (MapInfo_asdict x) = Some (TInt (MapInfo_map_terrains_ptr x)) /\
  get "map_terrains" (MapInfo_asdict x) = Some (TList (map MapTerrain_asdict (MapInfo_map_terrains x))) /\
  get "map_units_size" (MapInfo_asdict x) = Some (TInt (MapInfo_map_units_size x)) /\
  get "map_units_ptr" (MapInfo_asdict x) = Some (TInt (MapInfo_map_units_ptr x)) /\
  get "map_units" (MapInfo_asdict x) = Some (TList (map MapUnit_asdict (MapInfo_map_units x))) /\
  get "map_elevations_size" (MapInfo_asdict x) = Some (TInt (MapInfo_map_elevations_size x)) /\
  get "map_elevations_ptr" (MapInfo_asdict x) = Some (TInt (MapInfo_map_elevations_ptr x)) /\
  get "map_elevations" (MapInfo_asdict x) = Some (TList (map MapElevation_asdict (MapInfo_map_elevations x))).
Proof. intros x. repeat match goal with |- _ /\ _ => split end; reflexivity. Qed.
Theorem C34_MapInfo : injective MapInfo_asdict.
Proof.
  intros x y E.
  assert (F0 : MapInfo_map_id x = MapInfo_map_id y) by (apply (f_equal (get "map_id")) in E; apply (f_equal (fun o => match o with Some t => t | None => TNull end)) in E; refine ((_ : injective TInt) _ _ E); eauto with dump).
  assert (F1 : MapInfo_border_south_west x = MapInfo_border_south_west y) by (apply (f_equal (get "border_south_west")) in E; apply (f_equal (fun o => match o with Some t => t | None => TNull end)) in E; refine ((_ : injective TInt) _ _ E); eauto with dump).
  assert (F2 : MapInfo_border_north_west x = MapInfo_border_north_west y) by (apply (f_equal (get "border_north_west")) in E; apply (f_equal (fun o => match o with Some t => t | None => TNull end)) in E; refine ((_ : injective TInt) _ _ E); eauto with dump).
  assert (F3 : MapInfo_border_north_east x = MapInfo_border_north_east y) by (apply (f_equal (get "border_north_east")) in E; apply (f_equal (fun o => match o with Some t => t | None => TNull end)) in E; refine ((_ : injective TInt) _ _ E); eauto with dump).
  assert (F4 : MapInfo_border_south_east x = MapInfo_border_south_east y) by (apply (f_equal (get "border_south_east")) in E; apply (f_equal (fun o => match o with Some t => t | None => TNull end)) in E; refine ((_ : injective TInt) _ _ E); eauto with dump).
  assert (F5 : MapInfo_border_usage x = MapInfo_border_usage y) by (apply (f_equal (get "border_usage")) in E; apply (f_equal (fun o => match o with Some t => t | None => TNull end)) in E; refine ((_ : injective TInt) _ _ E); eauto with dump).
  assert (F6 : MapInfo_water_shape x = MapInfo_water_shape y) by (apply (f_equal (get "water_shape")) in E; apply (f_equal (fun o => match o with Some t => t | None => TNull end)) in E; refine ((_ : injective TInt) _ _ E); eauto with dump).
  assert (F7 : MapInfo_base_terrain x = MapInfo_base_terrain y) by (apply (f_equal (get "base_terrain")) in E; apply (f_equal (fun o => match o with Some t => t | None => TNull end)) in E; refine ((_ : injective TInt) _ _ E); eauto with dump).
  assert (F8 : MapInfo_land_coverage x = MapInfo_land_coverage y) by (apply (f_equal (get "land_coverage")) in E; apply (f_equal (fun o => match o with Some t => t | None => TNull end)) in E; refine ((_ : injective TInt) _ _ E); eauto with dump).
  assert (F9 : MapInfo_unused_id x = MapInfo_unused_id y) by (apply (f_equal (get "unused_id")) in E; apply (f_equal (fun o => match o with Some t => t | None => TNull end)) in E; refine ((_ : injective TInt) _ _ E); eauto with dump).
  assert (F10 : MapInfo_map_lands_size x = MapInfo_map_lands_size y) by (apply (f_equal (get "map_lands_size")) in E; apply (f_equal (fun o => match o with Some t => t | None => TNull end)) in E; refine ((_ : injective TInt) _ _ E); eauto with dump).
  assert (F11 : MapInfo_map_lands_ptr x = MapInfo_map_lands_ptr y) by (apply (f_equal (get "map_lands_ptr")) in E; apply (f_equal (fun o => match o with Some t => t | None => TNull end)) in E; refine ((_ : injective TInt) _ _ E); eauto with dump).
  assert (F12 : MapInfo_map_lands x = MapInfo_map_lands y) by (apply (f_equal (get "map_lands")) in E; apply (f_equal (fun o => match o with Some t => t | None => TNull end)) in E; refine ((_ : injective (fun l => TList (map MapLand_asdict l))) _ _ E); eauto with dump).
  assert (F13 : MapInfo_map_terrains_size x = MapInfo_map_terrains_size y) by (apply (f_equal (get "map_terrains_size")) in E; apply (f_equal (fun o => match o with Some t => t | None => TNull end)) in E; refine ((_ : injective TInt) _ _ E); eauto with dump).
  assert (F14 : MapInfo_map_terrains_ptr x = MapInfo_map_terrains_ptr y) by (apply (f_equal (get "map_terrains_ptr")) in E; apply (f_equal (fun o => match o with Some t => t | None => TNull end)) in E; refine ((_ : injective TInt) _ _ E); eauto with dump).
  assert (F15 : MapInfo_map_terrains x = MapInfo_map_terrains y) by (apply (f_equal (get "map_terrains")) in E; apply (f_equal (fun o => match o with Some t => t | None => TNull end)) in E; refine ((_ : injective (fun l => TList (map MapTerrain_asdict l))) _ _ E); eauto with dump).
  assert (F16 : MapInfo_map_units_size x = MapInfo_map_units_size y) by (apply (f_equal (get "map_units_size")) in E; apply (f_equal (fun o => match o with Some t => t | None => TNull end)) in E; refine ((_ : injective TInt) _ _ E); eauto with dump).
  assert (F17 : MapInfo_map_units_ptr x = MapInfo_map_units_ptr y) by (apply (f_equal (get "map_units_ptr")) in E; apply (f_equal (fun o => match o with Some t => t | None => TNull end)) in E; refine ((_ : injective TInt) _ _ E); eauto with dump).
  assert (F18 : MapInfo_map_units x = MapInfo_map_units y) by (apply (f_equal (get "map_units")) in E; apply (f_equal (fun o => match o with Some t => t | None => TNull end)) in E; refine ((_ : injective (fun l => TList (map MapUnit_asdict l))) _ _ E); eauto with dump).
  assert (F19 : MapInfo_map_elevations_size x = MapInfo_map_elevations_size y) by (apply (f_equal (get "map_elevations_size")) in E; apply (f_equal (fun o => match o with Some t => t | None => TNull end)) in E; refine ((_ : injective TInt) _ _ E); eauto with dump).
  assert (F20 : MapInfo_map_elevations_ptr x = MapInfo_map_elevations_ptr y) by (apply (f_equal (get "map_elevations_ptr")) in E; apply (f_equal (fun o => match o with Some t => t | None => TNull end)) in E; refine ((_ : injective TInt) _ _ E); eauto with dump).
  assert (F21 : MapInfo_map_elevations x = MapInfo_map_elevations y) by (apply (f_equal (get "map_elevations")) in E; apply (f_equal (fun o => match o with Some t => t | None => TNull end)) in E; refine ((_ : injective (fun l => TList (map MapElevation_asdict l))) _ _ E); eauto with dump).
  clear E. destruct x, y. cbn in F0, F1, F2, F3, F4, F5, F6, F7, F8, F9, F10, F11, F12, F13, F14, F15, F16, F17, F18, F19, F20, F21. subst. reflexivity.
Qed.
Lemma solid_MapInfo : solid MapInfo_asdict. Proof. discriminate. Qed.
#[local] Hint Resolve C34_MapInfo solid_MapInfo : dump.

Theorem C34_RandomMaps_fields : forall x,
  keys (RandomMaps_asdict x) = ["random_maps_ptr"; "map_info_1"; "map_info_2"] /\
  get "random_maps_ptr" (RandomMaps_asdict x) = Some (TInt (RandomMaps_random_maps_ptr x)) /\
  get "map_info_1" (RandomMaps_asdict x) = Some (TList (map MapInfo_asdict (RandomMaps_map_info_1 x))) /\
  get "map_info_2" (RandomMaps_asdict x) = Some (TList (map MapInfo_asdict (RandomMaps_map_info_2 x))).
Proof. intros x. repeat match goal with |- _ /\ _ => split end; reflexivity. Qed.
Theorem C34_RandomMaps : injective RandomMaps_asdict.
Proof.
  intros x y E.
  assert (F0 : RandomMaps_random_maps_ptr x = RandomMaps_random_maps_ptr y) by (apply (f_equal (get "random_maps_ptr")) in E; apply (f_equal (fun o => match o with Some t => t | None => TNull end)) in E; refine ((_ : injective TInt) _ _ E); eauto with dump).
  assert (F1 : RandomMaps_map_info_1 x = RandomMaps_map_info_1 y) by (apply (f_equal (get "map_info_1")) in E; apply (f_equal (fun o => match o with Some t => t | None => TNull end)) in E; refine ((_ : injective (fun l => TList (map MapInfo_asdict l))) _ _ E); eauto with dump).
  assert (F2 : RandomMaps_map_info_2 x = RandomMaps_map_info_2 y) by (apply (f_equal (get "map_info_2")) in E; apply (f_equal (fun o => match o with Some t => t | None => TNull end)) in E; refine ((_ : injective (fun l => TList (map MapInfo_asdict l))) _ _ E); eauto with dump).
  clear E. destruct x, y. cbn in F0, F1, F2. subst. reflexivity.
Qed.
Lemma solid_RandomMaps : solid RandomMaps_asdict. Proof. discriminate. Qed.
#[local] Hint Resolve C34_RandomMaps solid_RandomMaps : dump.

Theorem C34_Task_fields : forall x,
  keys (Task_asdict x) = ["task_type"; "id"; "is_default"; "action_type"; "class_id"; "unit_id"; "terrain_id"; "resource_in"; "resource_multiplier"; "resource_out"; "unused_resource"; "work_value_1"; "work_value_2"; "work_range"; "auto_search_targets"; "search_wait_time"; "enable_targeting"; "combat_level_flag"; "gather_type"; "work_flag_2"; "target_diplomacy"; "carry_check"; "pick_for_construction"; "moving_graphic_id"; "proceeding_graphic_id"; "working_graphic_id"; "carrying_graphic_id"; "resource_gathering_sound_id"; "resource_deposit_sound_id"; "wwise_resource_gathering_sound_id"; "wwise_resource_deposit_sound_id"; "enabled"] /\
  get "task_type" (Task_asdict x) = Some (TInt (Task_task_type x)) /\
  get "id" (Task_asdict x) = Some (TInt (Task_id x)) /\
  get "is_default" (Task_asdict x) = Some (TInt (Task_is_default x)) /\
  get "action_type" (Task_asdict x) = Some (TInt (Task_action_type x)) /\
  get "class_id" (Task_asdict x) = Some (TInt (Task_class_id x)) /\
  get "unit_id" (Task_asdict x) = Some (TInt (Task_unit_id x)) /\
  get "terrain_id" (Task_asdict x) = Some (TInt (Task_terrain_id x)) /\
  get "resource_in" (Task_asdict x) = Some (TInt (Task_resource_in x)) /\
  get "resource_multiplier" (Task_asdict x) = Some (TInt (Task_resource_multiplier x)) /\
  get "resource_out" (Task_asdict x) = Some (TInt (Task_resource_out x)) /\
  get "unused_resource" (Task_asdict x) = Some (TInt (Task_unused_resource x)) /\
  get "work_value_1" (Task_asdict x) = Some (TFloat (Task_work_value_1 x)) /\
  get "work_value_2" (Task_asdict x) = Some (TFloat (Task_work_value_2 x)) /\
  get "work_range" (Task_asdict x) = Some (TFloat (Task_work_range x)) /\
  get "auto_search_targets" (Task_asdict x) = Some (TInt (Task_auto_search_targets x)) /\
  get "search_wait_time" (Task_asdict x) = Some (TFloat (Task_search_wait_time x)) /\
  get "enable_targeting" (Task_asdict x) = Some (TInt (Task_enable_targeting x)) /\
  get "combat_level_flag" (Task_asdict x) = Some (TInt (Task_combat_level_flag x)) /\
  get "gather_type" (Task_asdict x) = Some (TInt (Task_gather_type x)) /\
  get "work_flag_2" (Task_asdict x) = Some (TInt (Task_work_flag_2 x)) /\
  get "target_diplomacy" (Task_asdict x) = Some (TInt (Task_target_diplomacy x)) /\
  get "carry_check" (Task_asdict x) = Some (TInt (Task_carry_check x)) /\
  get "pick_for_construction" (Task_asdict x) = Some (TInt (Task_pick_for_construction x)) /\
  get "moving_graphic_id" (Task_asdict x) = Some (TInt (Task_moving_graphic_id x)) /\
  get "proceeding_graphic_id" (Task_asdict x) = Some (TInt (Task_proceeding_graphic_id x)) /\
  get "working_graphic_id" (Task_asdict x) = Some (TInt (Task_working_graphic_id x)) /\
  get "carrying_graphic_id" (Task_asdict x) = Some (TInt (Task_carrying_graphic_id x)) /\
  get "resource_gathering_sound_id" (Task_asdict x) = Some (TInt (Task_resource_gathering_sound_id x)) /\
  get "resource_deposit_sound_id" (Task_asdict x) = Some (TInt (Task_resource_deposit_sound_id x)) /\
  get "wwise_resource_gathering_sound_id" (Task_asdict x) = Some (TInt (Task_wwise_resource_gathering_sound_id x)) /\
  get "wwise_resource_deposit_sound_id" (Task_asdict x) = Some (TInt (Task_wwise_resource_deposit_sound_id x)) /\
  get "enabled" (Task_asdict x) = Some (TInt (Task_enabled x)).
Proof. intros x. repeat match goal with |- _ /\ _ => split end; reflexivity. Qed.
Theorem C34_Task : injective Task_asdict.
Proof.
  intros x y E.
  assert (F0 : Task_task_type x = Task_task_type y) by (apply (f_equal (get "task_type")) in E; apply (f_equal (fun o => match o with Some t => t | None => TNull end)) in E; refine ((_ : injective TInt) _ _ E); eauto with dump).
  assert (F1 : Task_id x = Task_id y) by (apply (f_equal (get "id")) in E; apply (f_equal (fun o => match o with Some t => t | None => TNull end)) in E; refine ((_ : injective TInt) _ _ E); eauto with dump).
  assert (F2 : Task_is_default x = Task_is_default y) by (apply (f_equal (get "is_default")) in E; apply (f_equal (fun o => match o with Some t => t | None => TNull end)) in E; refine ((_ : injective TInt) _ _ E); eauto with dump).
  assert (F3 : Task_action_type x = Task_action_type y) by (apply (f_equal (get "action_type")) in E; apply (f_equal (fun o => match o with Some t => t | None => TNull end)) in E; refine ((_ : injective TInt) _ _ E); eauto with dump).
  assert (F4 : Task_class_id x = Task_class_id y) by (apply (f_equal (get "class_id")) in E; apply (f_equal (fun o => match o with Some t => t | None => TNull end)) in E; refine ((_ : injective TInt) _ _ E); eauto with dump).
  assert (F5 : Task_unit_id x = Task_unit_id y) by (apply (f_equal (get "unit_id")) in E; apply (f_equal (fun o => match o with Some t => t | None => TNull end)) in E; refine ((_ : injective TInt) _ _ E); eauto with dump).
  assert (F6 : Task_terrain_id x = Task_terrain_id y) by (apply (f_equal (get "terrain_id")) in E; apply (f_equal (fun o => match o with Some t => t | None => TNull end)) in E; refine ((_ : injective TInt) _ _ E); eauto with dump).
  assert (F7 : Task_resource_in x = Task_resource_in y) by (apply (f_equal (get "resource_in")) in E; apply (f_equal (fun o => match o with Some t => t | None => TNull end)) in E; refine ((_ : injective TInt) _ _ E); eauto with dump).
  assert (F8 : Task_resource_multiplier x = Task_resource_multiplier y) by (apply (f_equal (get "resource_multiplier")) in E; apply (f_equal (fun o => match o with Some t => t | None => TNull end)) in E; refine ((_ : injective TInt) _ _ E); eauto with dump).
  assert (F9 : Task_resource_out x = Task_resource_out y) by (apply (f_equal (get "resource_out")) in E; apply (f_equal (fun o => match o with Some t => t | None => TNull end)) in E; refine ((_ : injective TInt) _ _ E); eauto with dump).
  assert (F10 : Task_unused_resource x = Task_unused_resource y) by (apply (f_equal (get "unused_resource")) in E; apply (f_equal (fun o => match o with Some t => t | None => TNull end)) in E; refine ((_ : injective TInt) _ _ E); eauto with dump).
  assert (F11 : Task_work_value_1 x = Task_work_value_1 y) by (apply (f_equal (get "work_value_1")) in E; apply (f_equal (fun o => match o with Some t => t | None => TNull end)) in E; refine ((_ : injective TFloat) _ _ E); eauto with dump).
  assert (F12 : Task_work_value_2 x = Task_work_value_2 y) by (apply (f_equal (get "work_value_2")) in E; apply (f_equal (fun o => match o with Some t => t | None => TNull end)) in E; refine ((_ : injective TFloat) _ _ E); eauto with dump).
  assert (F13 : Task_work_range x = Task_work_range y) by (apply (f_equal (get "work_range")) in E; apply (f_equal (fun o => match o with Some t => t | None => TNull end)) in E; refine ((_ : injective TFloat) _ _ E); eauto with dump).
  assert (F14 : Task_auto_search_targets x = Task_auto_search_targets y) by (apply (f_equal (get "auto_search_targets")) in E; apply (f_equal (fun o => match o with Some t => t | None => TNull end)) in E; refine ((_ : injective TInt) _ _ E); eauto with dump).
  assert (F15 : Task_search_wait_time x = Task_search_wait_time y) by (apply (f_equal (get "search_wait_time")) in E; apply (f_equal (fun o => match o with Some t => t | None => TNull end)) in E; refine ((_ : injective TFloat) _ _ E); eauto with dump).
  assert (F16 : Task_enable_targeting x = Task_enable_targeting y) by (apply (f_equal (get "enable_targeting")) in E; apply (f_equal (fun o => match o with Some t => t | None => TNull end)) in E; refine ((_ : injective TInt) _ _ E); eauto with dump).
  assert (F17 : Task_combat_level_flag x = Task_combat_level_flag y) by (apply (f_equal (get "combat_level_flag")) in E; apply (f_equal (fun o => match o with Some t => t | None => TNull end)) in E; refine ((_ : injective TInt) _ _ E); eauto with dump).
  assert (F18 : Task_gather_type x = Task_gather_type y) by (apply (f_equal (get "gather_type")) in E; apply (f_equal (fun o => match o with Some t => t | None => TNull end)) in E; refine ((_ : injective TInt) _ _ E); eauto with dump).
  assert (F19 : Task_work_flag_2 x = Task_work_flag_2 y) by (apply (f_equal (get "work_flag_2")) in E; apply (f_equal (fun o => match o with Some t => t | None => TNull end)) in E; refine ((_ : injective TInt) _ _ E); eauto with dump).
  assert (F20 : Task_target_diplomacy x = Task_target_diplomacy y) by (apply (f_equal (get "target_diplomacy")) in E; apply (f_equal (fun o => match o with Some t => t | None => TNull end)) in E; refine ((_ : injective TInt) _ _ E); eauto with dump).
  assert (F21 : Task_carry_check x = Task_carry_check y) by (apply (f_equal (get "carry_check")) in E; apply (f_equal (fun o => match o with Some t => t | None => TNull end)) in E; refine ((_ : injective TInt) _ _ E); eauto with dump).
  assert (F22 : Task_pick_for_construction x = Task_pick_for_construction y) by (apply (f_equal (get "pick_for_construction")) in E; apply (f_equal (fun o => match o with Some t => t | None => TNull end)) in E; refine ((_ : injective TInt) _ _ E); eauto with dump).
  assert (F23 : Task_moving_graphic_id x = Task_moving_graphic_id y) by (apply (f_equal (get "moving_graphic_id")) in E; apply (f_equal (fun o => match o with Some t => t | None => TNull end)) in E; refine ((_ : injective TInt) _ _ E); eauto with dump).
  assert (F24 : Task_proceeding_graphic_id x = Task_proceeding_graphic_id y) by (apply (f_equal (get "proceeding_graphic_id")) in E; apply (f_equal (fun o => match o with Some t => t | None => TNull end)) in E; refine ((_ : injective TInt) _ _ E); eauto with dump).
  assert (F25 : Task_working_graphic_id x = Task_working_graphic_id y) by (apply (f_equal (get "working_graphic_id")) in E; apply (f_equal (fun o => match o with Some t => t | None => TNull end)) in E; refine ((_ : injective TInt) _ _ E); eauto with dump).
  assert (F26 : Task_carrying_graphic_id x = Task_carrying_graphic_id y) by (apply (f_equal (get "carrying_graphic_id")) in E; apply (f_equal (fun o => match o with Some t => t | None => TNull end)) in E; refine ((_ : injective TInt) _ _ E); eauto with dump).
  assert (F27 : Task_resource_gathering_sound_id x = Task_resource_gathering_sound_id y) by (apply (f_equal (get "resource_gathering_sound_id")) in E; apply (f_equal (fun o => match o with Some t => t | None => TNull end)) in E; refine ((_ : injective TInt) _ _ E); eauto with dump).
  assert (F28 : Task_resource_deposit_sound_id x = Task_resource_deposit_sound_id y) by (apply (f_equal (get "resource_deposit_sound_id")) in E; apply (f_equal (fun o => match o with Some t => t | None => TNull end)) in E; refine ((_ : injective TInt) _ _ E); eauto with dump).
  assert (F29 : Task_wwise_resource_gathering_sound_id x = Task_wwise_resource_gathering_sound_id y) by (apply (f_equal (get "wwise_resource_gathering_sound_id")) in E; apply (f_equal (fun o => match o with Some t => t | None => TNull end)) in E; refine ((_ : injective TInt) _ _ E); eauto with dump).
  assert (F30 : Task_wwise_resource_deposit_sound_id x = Task_wwise_resource_deposit_sound_id y) by (apply (f_equal (get "wwise_resource_deposit_sound_id")) in E; apply (f_equal (fun o => match o with Some t => t | None => TNull end)) in E; refine ((_ : injective TInt) _ _ E); eauto with dump).
  assert (F31 : Task_enabled x = Task_enabled y) by (apply (f_equal (get "enabled")) in E; apply (f_equal (fun o => match o with Some t => t | None => TNull end)) in E; refine ((_ : injective TInt) _ _ E); eauto with dump).
  clear E. destruct x, y. cbn in F0, F1, F2, F3, F4, F5, F6, F7, F8, F9, F10, F11, F12, F13, F14, F15, F16, F17, F18, F19, F20, F21, F22, F23, F24, F25, F26, F27, F28, F29, F30, F31. subst. reflexivity.
Qed.
Lemma solid_Task : solid Task_asdict. Proof. discriminate. Qed.
#[local] Hint Resolve C34_Task solid_Task : dump.

Theorem C34_UnitHeaders_fields : forall x,
  keys (UnitHeaders_asdict x) = ["exists"; "task_list"] /\
  get "exists" (UnitHeaders_asdict x) = Some (TInt (UnitHeaders_exists_ x)) /\
  get "task_list" (UnitHeaders_asdict x) = Some (of_option (fun l => TList (map Task_asdict l)) (UnitHeaders_task_list x)).
Proof. intros x. repeat match goal with |- _ /\ _ => split end; reflexivity. Qed.
Theorem C34_UnitHeaders : injective UnitHeaders_asdict.
Proof.
  intros x y E.
  assert (F0 : UnitHeaders_exists_ x = UnitHeaders_exists_ y) by (apply (f_equal (get "exists")) in E; apply (f_equal (fun o => match o with Some t => t | None => TNull end)) in E; refine ((_ : injective TInt) _ _ E); eauto with dump).
  assert (F1 : UnitHeaders_task_list x = UnitHeaders_task_list y) by (apply (f_equal (get "task_list")) in E; apply (f_equal (fun o => match o with Some t => t | None => TNull end)) in E; refine ((_ : injective (of_option (fun l => TList (map Task_asdict l)))) _ _ E); eauto with dump).
  clear E. destruct x, y. cbn in F0, F1. subst. reflexivity.
Qed.
Lemma solid_UnitHeaders : solid UnitHeaders_asdict. Proof. discriminate. Qed.
#[local] Hint Resolve C34_UnitHeaders solid_UnitHeaders : dump.

Theorem C34_ResourceStorage_fields : forall x,
  keys (ResourceStorage_asdict x) = ["type"; "amount"; "flag"] /\
  get "type" (ResourceStorage_asdict x) = Some (TInt (ResourceStorage_type x)) /\
  get "amount" (ResourceStorage_asdict x) = Some (TFloat (ResourceStorage_amount x)) /\
  get "flag" (ResourceStorage_asdict x) = Some (TInt (ResourceStorage_flag x)).
Proof. intros x. repeat match goal with |- _ /\ _ => split end; reflexivity. Qed.
Theorem C34_ResourceStorage : injective ResourceStorage_asdict.
Proof.
  intros x y E.
  assert (F0 : ResourceStorage_type x = ResourceStorage_type y) by (apply (f_equal (get "type")) in E; apply (f_equal (fun o => match o with Some t => t | None => TNull end)) in E; refine ((_ : injective TInt) _ _ E); eauto with dump).
  assert (F1 : ResourceStorage_amount x = ResourceStorage_amount y) by (apply (f_equal (get "amount")) in E; apply (f_equal (fun o => match o with Some t => t | None => TNull end)) in E; refine ((_ : injective TFloat) _ _ E); eauto with dump).
  assert (F2 : ResourceStorage_flag x = ResourceStorage_flag y) by (apply (f_equal (get "flag")) in E; apply (f_equal (fun o => match o with Some t => t | None => TNull end)) in E; refine ((_ : injective TInt) _ _ E); eauto with dump).
  clear E. destruct x, y. cbn in F0, F1, F2. subst. reflexivity.
Qed.
Lemma solid_ResourceStorage : solid ResourceStorage_asdict. Proof. discriminate. Qed.
#[local] Hint Resolve C34_ResourceStorage solid_ResourceStorage : dump.

Theorem C34_DamageGraphic_fields : forall x,
  keys (DamageGraphic_asdict x) = ["graphic_id"; "damage_percent"; "apply_mode"] /\
  get "graphic_id" (DamageGraphic_asdict x) = Some (TInt (DamageGraphic_graphic_id x)) /\
  get "damage_percent" (DamageGraphic_asdict x) = Some (TInt (DamageGraphic_damage_percent x)) /\
  get "apply_mode" (DamageGraphic_asdict x) = Some (TInt (DamageGraphic_apply_mode x)).
Proof. intros x. repeat match goal with |- _ /\ _ => split end; reflexivity. Qed.
Theorem C34_DamageGraphic : injective DamageGraphic_asdict.
Proof.
  intros x y E.
  assert (F0 : DamageGraphic_graphic_id x = DamageGraphic_graphic_id y) by (apply (f_equal (get "graphic_id")) in E; apply (f_equal (fun o => match o with Some t => t | None => TNull end)) in E; refine ((_ : injective TInt) _ _ E); eauto with dump).
  assert (F1 : DamageGraphic_damage_percent x = DamageGraphic_damage_percent y) by (apply (f_equal (get "damage_percent")) in E; apply (f_equal (fun o => match o with Some t => t | None => TNull end)) in E; refine ((_ : injective TInt) _ _ E); eauto with dump).
  assert (F2 : DamageGraphic_apply_mode x = DamageGraphic_apply_mode y) by (apply (f_equal (get "apply_mode")) in E; apply (f_equal (fun o => match o with Some t => t | None => TNull end)) in E; refine ((_ : injective TInt) _ _ E); eauto with dump).
  clear E. destruct x, y. cbn in F0, F1, F2. subst. reflexivity.
Qed.
Lemma solid_DamageGraphic : solid DamageGraphic_asdict. Proof. discriminate. Qed.
#[local] Hint Resolve C34_DamageGraphic solid_DamageGraphic : dump.

Theorem C34_DeadFish_fields : forall x,
  keys (DeadFish_asdict x) = ["walking_graphic"; "running_graphic"; "rotation_speed"; "old_size_class"; "tracking_unit"; "tracking_unit_mode"; "tracking_unit_density"; "old_move_algorithm"; "turn_radius"; "turn_radius_speed"; "max_yaw_per_second_moving"; "stationary_yaw_revolution_time"; "max_yaw_per_second_stationary"; "min_collision_size_multiplier"] /\
  get "walking_graphic" (DeadFish_asdict x) = Some (TInt (DeadFish_walking_graphic x)) /\
  get "running_graphic" (DeadFish_asdict x) = Some (TInt (DeadFish_running_graphic x)) /\
  get "rotation_speed" (DeadFish_asdict x) = Some (TFloat (DeadFish_rotation_speed x)) /\
  get "old_size_class" (DeadFish_asdict x) = Some (TInt (DeadFish_old_size_class x)) /\
  get "tracking_unit" (DeadFish_asdict x) = Some (TInt (DeadFish_tracking_unit x)) /\
  get "tracking_unit_mode" (DeadFish_asdict x) = Some (TInt (DeadFish_tracking_unit_mode x)) /\
  get "tracking_unit_density" (DeadFish_asdict x) = Some (TFloat (DeadFish_tracking_unit_density x)) /\
  get "old_move_algorithm" (DeadFish_asdict x) = Some (TInt (DeadFish_old_move_algorithm x)) /\
  get "turn_radius" (DeadFish_asdict x) = Some (TFloat (DeadFish_turn_radius x)) /\
  get "turn_radius_speed" (DeadFish_asdict x) = Some (TFloat (DeadFish_turn_radius_speed x)) /\
  get "max_yaw_per_second_moving" (DeadFish_asdict x) = Some (TFloat (DeadFish_max_yaw_per_second_moving x)) /\
  get "stationary_yaw_revolution_time" (DeadFish_asdict x) = Some (TFloat (DeadFish_stationary_yaw_revolution_time x)) /\
  get "max_yaw_per_second_stationary" (DeadFish_asdict x) = Some (TFloat (DeadFish_max_yaw_per_second_stationary x)) /\
  get "min_collision_size_multiplier" (DeadFish_asdict x) = Some (TFloat (DeadFish_min_collision_size_multiplier x)).
Proof. intros x. repeat match goal with |- _ /\ _ => split end; reflexivity. Qed.
Theorem C34_DeadFish : injective DeadFish_asdict.
Proof.
  intros x y E.
  assert (F0 : DeadFish_walking_graphic x = DeadFish_walking_graphic y) by (apply (f_equal (get "walking_graphic")) in E; apply (f_equal (fun o => match o with Some t => t | None => TNull end)) in E; refine ((_ : injective TInt) _ _ E); eauto with dump).
  assert (F1 : DeadFish_running_graphic x = DeadFish_running_graphic y) by (apply (f_equal (get "running_graphic")) in E; apply (f_equal (fun o => match o with Some t => t | None => TNull end)) in E; refine ((_ : injective TInt) _ _ E); eauto with dump).
  assert (F2 : DeadFish_rotation_speed x = DeadFish_rotation_speed y) by (apply (f_equal (get "rotation_speed")) in E; apply (f_equal (fun o => match o with Some t => t | None => TNull end)) in E; refine ((_ : injective TFloat) _ _ E); eauto with dump).
  assert (F3 : DeadFish_old_size_class x = DeadFish_old_size_class y) by (apply (f_equal (get "old_size_class")) in E; apply (f_equal (fun o => match o with Some t => t | None => TNull end)) in E; refine ((_ : injective TInt) _ _ E); eauto with dump).
  assert (F4 : DeadFish_tracking_unit x = DeadFish_tracking_unit y) by (apply (f_equal (get "tracking_unit")) in E; apply (f_equal (fun o => match o with Some t => t | None => TNull end)) in E; refine ((_ : injective TInt) _ _ E); eauto with dump).
  assert (F5 : DeadFish_tracking_unit_mode x = DeadFish_tracking_unit_mode y) by (apply (f_equal (get "tracking_unit_mode")) in E; apply (f_equal (fun o => match o with Some t => t | None => TNull end)) in E; refine ((_ : injective TInt) _ _ E); eauto with dump).
  assert (F6 : DeadFish_tracking_unit_density x = DeadFish_tracking_unit_density y) by (apply (f_equal (get "tracking_unit_density")) in E; apply (f_equal (fun o => match o with Some t => t | None => TNull end)) in E; refine ((_ : injective TFloat) _ _ E); eauto with dump).
  assert (F7 : DeadFish_old_move_algorithm x = DeadFish_old_move_algorithm y) by (apply (f_equal (get "old_move_algorithm")) in E; apply (f_equal (fun o => match o with Some t => t | None => TNull end)) in E; refine ((_ : injective TInt) _ _ E); eauto with dump).
  assert (F8 : DeadFish_turn_radius x = DeadFish_turn_radius y) by (apply (f_equal (get "turn_radius")) in E; apply (f_equal (fun o => match o with Some t => t | None => TNull end)) in E; refine ((_ : injective TFloat) _ _ E); eauto with dump).
  assert (F9 : DeadFish_turn_radius_speed x = DeadFish_turn_radius_speed y) by (apply (f_equal (get "turn_radius_speed")) in E; apply (f_equal (fun o => match o with Some t => t | None => TNull end)) in E; refine ((_ : injective TFloat) _ _ E); eauto with dump).
  assert (F10 : DeadFish_max_yaw_per_second_moving x = DeadFish_max_yaw_per_second_moving y) by (apply (f_equal (get "max_yaw_per_second_moving")) in E; apply (f_equal (fun o => match o with Some t => t | None => TNull end)) in E; refine ((_ : injective TFloat) _ _ E); eauto with dump).
  assert (F11 : DeadFish_stationary_yaw_revolution_time x = DeadFish_stationary_yaw_revolution_time y) by (apply (f_equal (get "stationary_yaw_revolution_time")) in E; apply (f_equal (fun o => match o with Some t => t | None => TNull end)) in E; refine ((_ : injective TFloat) _ _ E); eauto with dump).
  assert (F12 : DeadFish_max_yaw_per_second_stationary x = DeadFish_max_yaw_per_second_stationary y) by (apply (f_equal (get "max_yaw_per_second_stationary")) in E; apply (f_equal (fun o => match o with Some t => t | None => TNull end)) in E; refine ((_ : injective TFloat) _ _ E); eauto with dump).
  assert (F13 : DeadFish_min_collision_size_multiplier x = DeadFish_min_collision_size_multiplier y) by (apply (f_equal (get "min_collision_size_multiplier")) in E; apply (f_equal (fun o => match o with Some t => t | None => TNull end)) in E; refine ((_ : injective TFloat) _ _ E); eauto with dump).
  clear E. destruct x, y. cbn in F0, F1, F2, F3, F4, F5, F6, F7, F8, F9, F10, F11, F12, F13. subst. reflexivity.
Qed.
Lemma solid_DeadFish : solid DeadFish_asdict. Proof. discriminate. Qed.
#[local] Hint Resolve C34_DeadFish solid_DeadFish : dump.

Theorem C34_Bird_fields : forall x,
  keys (Bird_asdict x) = ["default_task_id"; "search_radius"; "work_rate"; "drop_sites"; "task_swap_group"; "attack_sound"; "move_sound"; "wwise_attack_sound_id"; "wwise_move_sound_id"; "run_pattern"; "tasks"] /\
  get "default_task_id" (Bird_asdict x) = Some (TInt (Bird_default_task_id x)) /\
  get "search_radius" (Bird_asdict x) = Some (TFloat (Bird_search_radius x)) /\
  get "work_rate" (Bird_asdict x) = Some (TFloat (Bird_work_rate x)) /\
  get "drop_sites" (Bird_asdict x) = Some (TList (map TInt (Bird_drop_sites x))) /\
  get "task_swap_group" (Bird_asdict x) = Some (TInt (Bird_task_swap_group x)) /\
  get "attack_sound" (Bird_asdict x) = Some (TInt (Bird_attack_sound x)) /\
  get "move_sound" (Bird_asdict x) = Some (TInt (Bird_move_sound x)) /\
  get "wwise_attack_sound_id" (Bird_asdict x) = Some (TInt (Bird_wwise_attack_sound_id x)) /\
  get "wwise_move_sound_id" (Bird_asdict x) = Some (TInt (Bird_wwise_move_sound_id x)) /\
  get "run_pattern" (Bird_asdict x) = Some (TInt (Bird_run_pattern x)) /\
  get "tasks" (Bird_asdict x) = Some (TList (map Task_asdict (Bird_tasks x))).
Proof. intros x. repeat match goal with |- _ /\ _ => split end; reflexivity. Qed.
Theorem C34_Bird : injective Bird_asdict.
Proof.
  intros x y E.
  assert (F0 : Bird_default_task_id x = Bird_default_task_id y) by (apply (f_equal (get "default_task_id")) in E; apply (f_equal (fun o => match o with Some t => t | None => TNull end)) in E; refine ((_ : injective TInt) _ _ E); eauto with dump).
  assert (F1 : Bird_search_radius x = Bird_search_radius y) by (apply (f_equal (get "search_radius")) in E; apply (f_equal (fun o => match o with Some t => t | None => TNull end)) in E; refine ((_ : injective TFloat) _ _ E); eauto with dump).
  assert (F2 : Bird_work_rate x = Bird_work_rate y) by (apply (f_equal (get "work_rate")) in E; apply (f_equal (fun o => match o with Some t => t | None => TNull end)) in E; refine ((_ : injective TFloat) _ _ E); eauto with dump).
  assert (F3 : Bird_drop_sites x = Bird_drop_sites y) by (apply (f_equal (get "drop_sites")) in E; apply (f_equal (fun o => match o with Some t => t | None => TNull end)) in E; refine ((_ : injective (fun l => TList (map TInt l))) _ _ E); eauto with dump).
  assert (F4 : Bird_task_swap_group x = Bird_task_swap_group y) by (apply (f_equal (get "task_swap_group")) in E; apply (f_equal (fun o => match o with Some t => t | None => TNull end)) in E; refine ((_ : injective TInt) _ _ E); eauto with dump).
  assert (F5 : Bird_attack_sound x = Bird_attack_sound y) by (apply (f_equal (get "attack_sound")) in E; apply (f_equal (fun o => match o with Some t => t | None => TNull end)) in E; refine ((_ : injective TInt) _ _ E); eauto with dump).
  assert (F6 : Bird_move_sound x = Bird_move_sound y) by (apply (f_equal (get "move_sound")) in E; apply (f_equal (fun o => match o with Some t => t | None => TNull end)) in E; refine ((_ : injective TInt) _ _ E); eauto with dump).
  assert (F7 : Bird_wwise_attack_sound_id x = Bird_wwise_attack_sound_id y) by (apply (f_equal (get "wwise_attack_sound_id")) in E; apply (f_equal (fun o => match o with Some t => t | None => TNull end)) in E; refine ((_ : injective TInt) _ _ E); eauto with dump).
  assert (F8 : Bird_wwise_move_sound_id x = Bird_wwise_move_sound_id y) by (apply (f_equal (get "wwise_move_sound_id")) in E; apply (f_equal (fun o => match o with Some t => t | None => TNull end)) in E; refine ((_ : injective TInt) _ _ E); eauto with dump).
  assert (F9 : Bird_run_pattern x = Bird_run_pattern y) by (apply (f_equal (get "run_pattern")) in E; apply (f_equal (fun o => match o with Some t => t | None => TNull end)) in E; refine ((_ : injective TInt) _ _ E); eauto with dump).
  assert (F10 : Bird_tasks x = Bird_tasks y) by (apply (f_equal (get "tasks")) in E; apply (f_equal (fun o => match o with Some t => t | None => TNull end)) in E; refine ((_ : injective (fun l => TList (map Task_asdict l))) _ _ E); eauto with dump).
  clear E. destruct x, y. cbn in F0, F1, F2, F3, F4, F5, F6, F7, F8, F9, F10. subst. reflexivity.
Qed.
Lemma solid_Bird : solid Bird_asdict. Proof. discriminate. Qed.
#[local] Hint Resolve C34_Bird solid_Bird : dump.

Theorem C34_AttackOrArmor_fields : forall x,
  keys (AttackOrArmor_asdict x) = ["class_"; "amount"] /\
  get "class_" (AttackOrArmor_asdict x) = Some (TInt (AttackOrArmor_class_ x)) /\
  get "amount" (AttackOrArmor_asdict x) = Some (TInt (AttackOrArmor_amount x)).
Proof. intros x. repeat match goal with |- _ /\ _ => split end; reflexivity. Qed.
Theorem C34_AttackOrArmor : injective AttackOrArmor_asdict.
Proof.
  intros x y E.
  assert (F0 : AttackOrArmor_class_ x = AttackOrArmor_class_ y) by (apply (f_equal (get "class_")) in E; apply (f_equal (fun o => match o with Some t => t | None => TNull end)) in E; refine ((_ : injective TInt) _ _ E); eauto with dump).
  assert (F1 : AttackOrArmor_amount x = AttackOrArmor_amount y) by (apply (f_equal (get "amount")) in E; apply (f_equal (fun o => match o with Some t => t | None => TNull end)) in E; refine ((_ : injective TInt) _ _ E); eauto with dump).
  clear E. destruct x, y. cbn in F0, F1. subst. reflexivity.
Qed.
Lemma solid_AttackOrArmor : solid AttackOrArmor_asdict. Proof. discriminate. Qed.
#[local] Hint Resolve C34_AttackOrArmor solid_AttackOrArmor : dump.

Theorem C34_Type50_fields : forall x,
  keys (Type50_asdict x) = ["base_armor"; "attacks"; "armours"; "defense_terrain_bonus"; "bonus_damage_resistance"; "max_range"; "blast_width"; "reload_time"; "projectile_unit_id"; "accuracy_percent"; "break_off_combat"; "frame_delay"; "graphic_displacement"; "blast_attack_level"; "min_range"; "accuracy_dispersion"; "attack_graphic"; "displayed_melee_armour"; "displayed_attack"; "displayed_range"; "displayed_reload_time"; "blast_damage"; "damage_reflection"; "friendly_fire_damage"; "interrupt_frame"; "garrison_firepower"; "attack_graphic_2"] /\
  get "base_armor" (Type50_asdict x) = Some (TInt (Type50_base_armor x)) /\
  get "attacks" (Type50_asdict x) = Some (TList (map AttackOrArmor_asdict (Type50_attacks x))) /\
  get "armours" (Type50_asdict x) = Some (TList (map AttackOrArmor_asdict (Type50_armours x))) /\
  get "defense_terrain_bonus" (Type50_asdict x) = Some (TInt (Type50_defense_terrain_bonus x)) /\
  get "bonus_damage_resistance" (Type50_asdict x) = Some (TFloat (Type50_bonus_damage_resistance x)) /\
  get "max_range" (Type50_asdict x) = Some (TFloat (Type50_max_range x)) /\
  get "blast_width" (Type50_asdict x) = Some (TFloat (Type50_blast_width x)) /\
  get "reload_time" (Type50_asdict x) = Some (TFloat (Type50_reload_time x)) /\
  get "projectile_unit_id" (Type50_asdict x) = Some (TInt (Type50_projectile_unit_id x)) /\
  get "accuracy_percent" (Type50_asdict x) = Some (TInt (Type50_accuracy_percent x)) /\
  get "break_off_combat" (Type50_asdict x) = Some (TInt (Type50_break_off_combat x)) /\
  get "frame_delay" (Type50_asdict x) = Some (TInt (Type50_frame_delay x)) /\
  get "graphic_displacement" (Type50_asdict x) = Some (TList (map TFloat (Type50_graphic_displacement x))) /\
  get "blast_attack_level" (Type50_asdict x) = Some (TInt (Type50_blast_attack_level x)) /\
  get "min_range" (Type50_asdict x) = Some (TFloat (Type50_min_range x)) /\
  get "accuracy_dispersion" (Type50_asdict x) = Some (TFloat (Type50_accuracy_dispersion x)) /\
  get "attack_graphic" (Type50_asdict x) = Some (TInt (Type50_attack_graphic x)) /\
  get "displayed_melee_armour" (Type50_asdict x) = Some (TInt (Type50_displayed_melee_armour x)) /\
  get "displayed_attack" (Type50_asdict x) = Some (TInt (Type50_displayed_attack x)) /\
  get "displayed_range" (Type50_asdict x) = Some (TFloat (Type50_displayed_range x)) /\
  get "displayed_reload_time" (Type50_asdict x) = Some (TFloat (Type50_displayed_reload_time x)) /\
  get "blast_damage" (Type50_asdict x) = Some (TFloat (Type50_blast_damage x)) /\
  get "damage_reflection" (Type50_asdict x) = Some (TFloat (Type50_damage_reflection x)) /\
  get "friendly_fire_damage" (Type50_asdict x) = Some (TFloat (Type50_friendly_fire_damage x)) /\
  get "interrupt_frame" (Type50_asdict x) = Some (TInt (Type50_interrupt_frame x)) /\
  get "garrison_firepower" (Type50_asdict x) = Some (TFloat (Type50_garrison_firepower x)) /\
  get "attack_graphic_2" (Type50_asdict x) = Some (TInt (Type50_attack_graphic_2 x)).
Proof. intros x. repeat match goal with |- _ /\ _ => split end; reflexivity. Qed.
Theorem C34_Type50 : injective Type50_asdict.
Proof.
  intros x y E.
  assert (F0 : Type50_base_armor x = Type50_base_armor y) by (apply (f_equal (get "base_armor")) in E; apply (f_equal (fun o => match o with Some t => t | None => TNull end)) in E; refine ((_ : injective TInt) _ _ E); eauto with dump).
  assert (F1 : Type50_attacks x = Type50_attacks y) by (apply (f_equal (get "attacks")) in E; apply (f_equal (fun o => match o with Some t => t | None => TNull end)) in E; refine ((_ : injective (fun l => TList (map AttackOrArmor_asdict l))) _ _ E); eauto with dump).
  assert (F2 : Type50_armours x = Type50_armours y) by (apply (f_equal (get "armours")) in E; apply (f_equal (fun o => match o with Some t => t | None => TNull end)) in E; refine ((_ : injective (fun l => TList (map AttackOrArmor_asdict l))) _ _ E); eauto with dump).
  assert (F3 : Type50_defense_terrain_bonus x = Type50_defense_terrain_bonus y) by (apply (f_equal (get "defense_terrain_bonus")) in E; apply (f_equal (fun o => match o with Some t => t | None => TNull end)) in E; refine ((_ : injective TInt) _ _ E); eauto with dump).
  assert (F4 : Type50_bonus_damage_resistance x = Type50_bonus_damage_resistance y) by (apply (f_equal (get "bonus_damage_resistance")) in E; apply (f_equal (fun o => match o with Some t => t | None => TNull end)) in E; refine ((_ : injective TFloat) _ _ E); eauto with dump).
  assert (F5 : Type50_max_range x = Type50_max_range y) by (apply (f_equal (get "max_range")) in E; apply (f_equal (fun o => match o with Some t => t | None => TNull end)) in E; refine ((_ : injective TFloat) _ _ E); eauto with dump).
  assert (F6 : Type50_blast_width x = Type50_blast_width y) by (apply (f_equal (get "blast_width")) in E; apply (f_equal (fun o => match o with Some t => t | None => TNull end)) in E; refine ((_ : injective TFloat) _ _ E); eauto with dump).
  assert (F7 : Type50_reload_time x = Type50_reload_time y) by (apply (f_equal (get "reload_time")) in E; apply (f_equal (fun o => match o with Some t => t | None => TNull end)) in E; refine ((_ : injective TFloat) _ _ E); eauto with dump).
  assert (F8 : Type50_projectile_unit_id x = Type50_projectile_unit_id y) by (apply (f_equal (get "projectile_unit_id")) in E; apply (f_equal (fun o => match o with Some t => t | None => TNull end)) in E; refine ((_ : injective TInt) _ _ E); eauto with dump).
  assert (F9 : Type50_accuracy_percent x = Type50_accuracy_percent y) by (apply (f_equal (get "accuracy_percent")) in E; apply (f_equal (fun o => match o with Some t => t | None => TNull end)) in E; refine ((_ : injective TInt) _ _ E); eauto with dump).
  assert (F10 : Type50_break_off_combat x = Type50_break_off_combat y) by (apply (f_equal (get "break_off_combat")) in E; apply (f_equal (fun o => match o with Some t => t | None => TNull end)) in E; refine ((_ : injective TInt) _ _ E); eauto with dump).
  assert (F11 : Type50_frame_delay x = Type50_frame_delay y) by (apply (f_equal (get "frame_delay")) in E; apply (f_equal (fun o => match o with Some t => t | None => TNull end)) in E; refine ((_ : injective TInt) _ _ E); eauto with dump).
  assert (F12 : Type50_graphic_displacement x = Type50_graphic_displacement y) by (apply (f_equal (get "graphic_displacement")) in E; apply (f_equal (fun o => match o with Some t => t | None => TNull end)) in E; refine ((_ : injective (fun l => TList (map TFloat l))) _ _ E); eauto with dump).
  assert (F13 : Type50_blast_attack_level x = Type50_blast_attack_level y) by (apply (f_equal (get "blast_attack_level")) in E; apply (f_equal (fun o => match o with Some t => t | None => TNull end)) in E; refine ((_ : injective TInt) _ _ E); eauto with dump).
  assert (F14 : Type50_min_range x = Type50_min_range y) by (apply (f_equal (get "min_range")) in E; apply (f_equal (fun o => match o with Some t => t | None => TNull end)) in E; refine ((_ : injective TFloat) _ _ E); eauto with dump).
  assert (F15 : Type50_accuracy_dispersion x = Type50_accuracy_dispersion y) by (apply (f_equal (get "accuracy_dispersion")) in E; apply (f_equal (fun o => match o with Some t => t | None => TNull end)) in E; refine ((_ : injective TFloat) _ _ E); eauto with dump).
  assert (F16 : Type50_attack_graphic x = Type50_attack_graphic y) by (apply (f_equal (get "attack_graphic")) in E; apply (f_equal (fun o => match o with Some t => t | None => TNull end)) in E; refine ((_ : injective TInt) _ _ E); eauto with dump).
  assert (F17 : Type50_displayed_melee_armour x = Type50_displayed_melee_armour y) by (apply (f_equal (get "displayed_melee_armour")) in E; apply (f_equal (fun o => match o with Some t => t | None => TNull end)) in E; refine ((_ : injective TInt) _ _ E); eauto with dump).
  assert (F18 : Type50_displayed_attack x = Type50_displayed_attack y) by (apply (f_equal (get "displayed_attack")) in E; apply (f_equal (fun o => match o with Some t => t | None => TNull end)) in E; refine ((_ : injective TInt) _ _ E); eauto with dump).
  assert (F19 : Type50_displayed_range x = Type50_displayed_range y) by (apply (f_equal (get "displayed_range")) in E; apply (f_equal (fun o => match o with Some t => t | None => TNull end)) in E; refine ((_ : injective TFloat) _ _ E); eauto with dump).
  assert (F20 : Type50_displayed_reload_time x = Type50_displayed_reload_time y) by (apply (f_equal (get "displayed_reload_time")) in E; apply (f_equal (fun o => match o with Some t => t | None => TNull end)) in E; refine ((_ : injective TFloat) _ _ E); eauto with dump).
  assert (F21 : Type50_blast_damage x = Type50_blast_damage y) by (apply (f_equal (get "blast_damage")) in E; apply (f_equal (fun o => match o with Some t => t | None => TNull end)) in E; refine ((_ : injective TFloat) _ _ E); eauto with dump).
  assert (F22 : Type50_damage_reflection x = Type50_damage_reflection y) by (apply (f_equal (get "damage_reflection")) in E; apply (f_equal (fun o => match o with Some t => t | None => TNull end)) in E; refine ((_ : injective TFloat) _ _ E); eauto with dump).
  assert (F23 : Type50_friendly_fire_damage x = Type50_friendly_fire_damage y) by (apply (f_equal (get "friendly_fire_damage")) in E; apply (f_equal (fun o => match o with Some t => t | None => TNull end)) in E; refine ((_ : injective TFloat) _ _ E); eauto with dump).
  assert (F24 : Type50_interrupt_frame x = Type50_interrupt_frame y) by (apply (f_equal (get "interrupt_frame")) in E; apply (f_equal (fun o => match o with Some t => t | None => TNull end)) in E; refine ((_ : injective TInt) _ _ E); eauto with dump).
  assert (F25 : Type50_garrison_firepower x = Type50_garrison_firepower y) by (apply (f_equal (get "garrison_firepower")) in E; apply (f_equal (fun o => match o with Some t => t | None => TNull end)) in E; refine ((_ : injective TFloat) _ _ E); eauto with dump).
  assert (F26 : Type50_attack_graphic_2 x = Type50_attack_graphic_2 y) by (apply (f_equal (get "attack_graphic_2")) in E; apply (f_equal (fun o => match o with Some t => t | None => TNull end)) in E; refine ((_ : injective TInt) _ _ E); eauto with dump).
  clear E. destruct x, y. cbn in F0, F1, F2, F3, F4, F5, F6, F7, F8, F9, F10, F11, F12, F13, F14, F15, F16, F17, F18, F19, F20, F21, F22, F23, F24, F25, F26. subst. reflexivity.
Qed.
Lemma solid_Type50 : solid Type50_asdict. Proof. discriminate. Qed.
#[local] Hint Resolve C34_Type50 solid_Type50 : dump.

Theorem C34_Projectile_fields : forall x,
  keys (Projectile_asdict x) = ["projectile_type"; "smart_mode"; "hit_mode"; "vanish_mode"; "area_effect_specials"; "projectile_arc"] /\
  get "projectile_type" (Projectile_asdict x) = Some (TInt (Projectile_projectile_type x)) /\
  get "smart_mode" (Projectile_asdict x) = Some (TInt (Projectile_smart_mode x)) /\
  get "hit_mode" (Projectile_asdict x) = Some (TInt (Projectile_hit_mode x)) /\
  get "vanish_mode" (Projectile_asdict x) = Some (TInt (Projectile_vanish_mode x)) /\
  get "area_effect_specials" (Projectile_asdict x) = Some (TInt (Projectile_area_effect_specials x)) /\
  get "projectile_arc" (Projectile_asdict x) = Some (TFloat (Projectile_projectile_arc x)).
Proof. intros x. repeat match goal with |- _ /\ _ => split end; reflexivity. Qed.
Theorem C34_Projectile : injective Projectile_asdict.
Proof.
  intros x y E.
  assert (F0 : Projectile_projectile_type x = Projectile_projectile_type y) by (apply (f_equal (get "projectile_type")) in E; apply (f_equal (fun o => match o with Some t => t | None => TNull end)) in E; refine ((_ : injective TInt) _ _ E); eauto with dump).
  assert (F1 : Projectile_smart_mode x = Projectile_smart_mode y) by (apply (f_equal (get "smart_mode")) in E; apply (f_equal (fun o => match o with Some t => t | None => TNull end)) in E; refine ((_ : injective TInt) _ _ E); eauto with dump).
  assert (F2 : Projectile_hit_mode x = Projectile_hit_mode y) by (apply (f_equal (get "hit_mode")) in E; apply (f_equal (fun o => match o with Some t => t | None => TNull end)) in E; refine ((_ : injective TInt) _ _ E); eauto with dump).
  assert (F3 : Projectile_vanish_mode x = Projectile_vanish_mode y) by (apply (f_equal (get "vanish_mode")) in E; apply (f_equal (fun o => match o with Some t => t | None => TNull end)) in E; refine ((_ : injective TInt) _ _ E); eauto with dump).
  assert (F4 : Projectile_area_effect_specials x = Projectile_area_effect_specials y) by (apply (f_equal (get "area_effect_specials")) in E; apply (f_equal (fun o => match o with Some t => t | None => TNull end)) in E; refine ((_ : injective TInt) _ _ E); eauto with dump).
  assert (F5 : Projectile_projectile_arc x = Projectile_projectile_arc y) by (apply (f_equal (get "projectile_arc")) in E; apply (f_equal (fun o => match o with Some t => t | None => TNull end)) in E; refine ((_ : injective TFloat) _ _ E); eauto with dump).
  clear E. destruct x, y. cbn in F0, F1, F2, F3, F4, F5. subst. reflexivity.
Qed.
Lemma solid_Projectile : solid Projectile_asdict. Proof. discriminate. Qed.
#[local] Hint Resolve C34_Projectile solid_Projectile : dump.

Theorem C34_ResourceCost_fields : forall x,
  keys (ResourceCost_asdict x) = ["type"; "amount"; "flag"] /\
  get "type" (ResourceCost_asdict x) = Some (TInt (ResourceCost_type x)) /\
  get "amount" (ResourceCost_asdict x) = Some (TInt (ResourceCost_amount x)) /\
  get "flag" (ResourceCost_asdict x) = Some (TInt (ResourceCost_flag x)).
Proof. intros x. repeat match goal with |- _ /\ _ => split end; reflexivity. Qed.
Theorem C34_ResourceCost : injective ResourceCost_asdict.
Proof.
  intros x y E.
  assert (F0 : ResourceCost_type x = ResourceCost_type y) by (apply (f_equal (get "type")) in E; apply (f_equal (fun o => match o with Some t => t | None => TNull end)) in E; refine ((_ : injective TInt) _ _ E); eauto with dump).
  assert (F1 : ResourceCost_amount x = ResourceCost_amount y) by (apply (f_equal (get "amount")) in E; apply (f_equal (fun o => match o with Some t => t | None => TNull end)) in E; refine ((_ : injective TInt) _ _ E); eauto with dump).
  assert (F2 : ResourceCost_flag x = ResourceCost_flag y) by (apply (f_equal (get "flag")) in E; apply (f_equal (fun o => match o with Some t => t | None => TNull end)) in E; refine ((_ : injective TInt) _ _ E); eauto with dump).
  clear E. destruct x, y. cbn in F0, F1, F2. subst. reflexivity.
Qed.
Lemma solid_ResourceCost : solid ResourceCost_asdict. Proof. discriminate. Qed.
#[local] Hint Resolve C34_ResourceCost solid_ResourceCost : dump.

Theorem C34_TrainLocation_fields : forall x,
  keys (TrainLocation_asdict x) = ["train_time"; "unit_id"; "button_id"; "hot_key_id"] /\
  get "train_time" (TrainLocation_asdict x) = Some (TInt (TrainLocation_train_time x)) /\
  get "unit_id" (TrainLocation_asdict x) = Some (TInt (TrainLocation_unit_id x)) /\
  get "button_id" (TrainLocation_asdict x) = Some (TInt (TrainLocation_button_id x)) /\
  get "hot_key_id" (TrainLocation_asdict x) = Some (TInt (TrainLocation_hot_key_id x)).
Proof. intros x. repeat match goal with |- _ /\ _ => split end; reflexivity. Qed.
Theorem C34_TrainLocation : injective TrainLocation_asdict.
Proof.
  intros x y E.
  assert (F0 : TrainLocation_train_time x = TrainLocation_train_time y) by (apply (f_equal (get "train_time")) in E; apply (f_equal (fun o => match o with Some t => t | None => TNull end)) in E; refine ((_ : injective TInt) _ _ E); eauto with dump).
  assert (F1 : TrainLocation_unit_id x = TrainLocation_unit_id y) by (apply (f_equal (get "unit_id")) in E; apply (f_equal (fun o => match o with Some t => t | None => TNull end)) in E; refine ((_ : injective TInt) _ _ E); eauto with dump).
  assert (F2 : TrainLocation_button_id x = TrainLocation_button_id y) by (apply (f_equal (get "button_id")) in E; apply (f_equal (fun o => match o with Some t => t | None => TNull end)) in E; refine ((_ : injective TInt) _ _ E); eauto with dump).
  assert (F3 : TrainLocation_hot_key_id x = TrainLocation_hot_key_id y) by (apply (f_equal (get "hot_key_id")) in E; apply (f_equal (fun o => match o with Some t => t | None => TNull end)) in E; refine ((_ : injective TInt) _ _ E); eauto with dump).
  clear E. destruct x, y. cbn in F0, F1, F2, F3. subst. reflexivity.
Qed.
Lemma solid_TrainLocation : solid TrainLocation_asdict. Proof. discriminate. Qed.
#[local] Hint Resolve C34_TrainLocation solid_TrainLocation : dump.

Theorem C34_Creatable_fields : forall x,
  keys (Creatable_asdict x) = ["resource_costs"; "train_locations"; "rear_attack_modifier"; "flank_attack_modifier"; "creatable_type"; "hero_mode"; "garrison_graphic"; "spawning_graphic"; "upgrade_graphic"; "hero_glow_graphic"; "idle_attack_graphic"; "max_charge"; "recharge_rate"; "charge_event"; "charge_type"; "charge_target"; "charge_projectile_unit"; "attack_priority"; "invulnerability_level"; "button_icon_id"; "button_short_tooltip_id"; "button_extended_tooltip_id"; "button_hotkey_action"; "min_conversion_time_mod"; "max_conversion_time_mod"; "conversion_chance_mod"; "total_projectiles"; "max_total_projectiles"; "projectile_spawning_area"; "secondary_projectile_unit"; "special_graphic"; "special_ability"; "displayed_pierce_armour"] /\
  get "resource_costs" (Creatable_asdict x) = Some (TList (map ResourceCost_asdict (Creatable_resource_costs x))) /\
  get "train_locations" (Creatable_asdict x) = Some (TList (map TrainLocation_asdict (Creatable_train_locations x))) /\
  get "rear_attack_modifier" (Creatable_asdict x) = Some (TFloat (Creatable_rear_attack_modifier x)) /\
  get "flank_attack_modifier" (Creatable_asdict x) = Some (TFloat (Creatable_flank_attack_modifier x)) /\
  get "creatable_type" (Creatable_asdict x) = Some (TInt (Creatable_creatable_type x)) /\
  get "hero_mode" (Creatable_asdict x) = Some (TInt (Creatable_hero_mode x)) /\
  get "garrison_graphic" (Creatable_asdict x) = Some (TInt (Creatable_garrison_graphic x)) /\
  get "spawning_graphic" (Creatable_asdict x) = Some (TInt (Creatable_spawning_graphic x)) /\
  get "upgrade_graphic" (Creatable_asdict x) = Some (TInt (Creatable_upgrade_graphic x)) /\
  get "hero_glow_graphic" (Creatable_asdict x) = Some (TInt (Creatable_hero_glow_graphic x)) /\
  get "idle_attack_graphic" (Creatable_asdict x) = Some (TInt (Creatable_idle_attack_graphic x)) /\
  get "max_charge" (Creatable_asdict x) = Some (TFloat (Creatable_max_charge x)) /\
  get "recharge_rate" (Creatable_asdict x) = Some (TFloat (Creatable_recharge_rate x)) /\
  get "charge_event" (Creatable_asdict x) = Some (TInt (Creatable_charge_event x)) /\
  get "charge_type" (Creatable_asdict x) = Some (TInt (Creatable_charge_type x)) /\
  get "charge_target" (Creatable_asdict x) = Some (TInt (Creatable_charge_target x)) /\
  get "charge_projectile_unit" (Creatable_asdict x) = Some (TInt (Creatable_charge_projectile_unit x)) /\
  get "attack_priority" (Creatable_asdict x) = Some (TInt (Creatable_attack_priority x)) /\
  get "invulnerability_level" (Creatable_asdict x) = Some (TFloat (Creatable_invulnerability_level x)) /\
  get "button_icon_id" (Creatable_asdict x) = Some (TInt (Creatable_button_icon_id x)) /\
  get "button_short_tooltip_id" (Creatable_asdict x) = Some (TInt (Creatable_button_short_tooltip_id x)) /\
  get "button_extended_tooltip_id" (Creatable_asdict x) = Some (TInt (Creatable_button_extended_tooltip_id x)) /\
  get "button_hotkey_action" (Creatable_asdict x) = Some (TInt (Creatable_button_hotkey_action x)) /\
  get "min_conversion_time_mod" (Creatable_asdict x) = Some (TFloat (Creatable_min_conversion_time_mod x)) /\
  get "max_conversion_time_mod" (Creatable_asdict x) = Some (TFloat (Creatable_max_conversion_time_mod x)) /\
  get "conversion_chance_mod" (Creatable_asdict x) = Some (TFloat (Creatable_conversion_chance_mod x)) /\
  get "total_projectiles" (Creatable_asdict x) = Some (TFloat (Creatable_total_projectiles x)) /\
  get "max_total_projectiles" (Creatable_asdict x) = Some (TInt (Creatable_max_total_projectiles x)) /\
  get "projectile_spawning_area" (Creatable_asdict x) = Some (TList (map TFloat (Creatable_projectile_spawning_area x))) /\
  get "secondary_projectile_unit" (Creatable_asdict x) = Some (TInt (Creatable_secondary_projectile_unit x)) /\
  get "special_graphic" (Creatable_asdict x) = Some (TInt (Creatable_special_graphic x)) /\
  get "special_ability" (Creatable_asdict x) = Some (TInt (Creatable_special_ability x)) /\
  get "displayed_pierce_armour" (Creatable_asdict x) = Some (TInt (Creatable_displayed_pierce_armour x)).
Proof. intros x. repeat match goal with |- _ /\ _ => split end; reflexivity. Qed.
Theorem C34_Creatable : injective Creatable_asdict.
Proof.
  intros x y E.
  assert (F0 : Creatable_resource_costs x = Creatable_resource_costs y) by (apply (f_equal (get "resource_costs")) in E; apply (f_equal (fun o => match o with Some t => t | None => TNull end)) in E; refine ((_ : injective (fun l => TList (map ResourceCost_asdict l))) _ _ E); eauto with dump).
  assert (F1 : Creatable_train_locations x = Creatable_train_locations y) by (apply (f_equal (get "train_locations")) in E; apply (f_equal (fun o => match o with Some t => t | None => TNull end)) in E; refine ((_ : injective (fun l => TList (map TrainLocation_asdict l))) _ _ E); eauto with dump).
  assert (F2 : Creatable_rear_attack_modifier x = Creatable_rear_attack_modifier y) by (apply (f_equal (get "rear_attack_modifier")) in E; apply (f_equal (fun o => match o with Some t => t | None => TNull end)) in E; refine ((_ : injective TFloat) _ _ E); eauto with dump).
  assert (F3 : Creatable_flank_attack_modifier x = Creatable_flank_attack_modifier y) by (apply (f_equal (get "flank_attack_modifier")) in E; apply (f_equal (fun o => match o with Some t => t | None => TNull end)) in E; refine ((_ : injective TFloat) _ _ E); eauto with dump).
  assert (F4 : Creatable_creatable_type x = Creatable_creatable_type y) by (apply (f_equal (get "creatable_type")) in E; apply (f_equal (fun o => match o with Some t => t | None => TNull end)) in E; refine ((_ : injective TInt) _ _ E); eauto with dump).
  assert (F5 : Creatable_hero_mode x = Creatable_hero_mode y) by (apply (f_equal (get "hero_mode")) in E; apply (f_equal (fun o => match o with Some t => t | None => TNull end)) in E; refine ((_ : injective TInt) _ _ E); eauto with dump).
  assert (F6 : Creatable_garrison_graphic x = Creatable_garrison_graphic y) by (apply (f_equal (get "garrison_graphic")) in E; apply (f_equal (fun o => match o with Some t => t | None => TNull end)) in E; refine ((_ : injective TInt) _ _ E); eauto with dump).
  assert (F7 : Creatable_spawning_graphic x = Creatable_spawning_graphic y) by (apply (f_equal (get "spawning_graphic")) in E; apply (f_equal (fun o => match o with Some t => t | None => TNull end)) in E; refine ((_ : injective TInt) _ _ E); eauto with dump).
  assert (F8 : Creatable_upgrade_graphic x = Creatable_upgrade_graphic y) by (apply (f_equal (get "upgrade_graphic")) in E; apply (f_equal (fun o => match o with Some t => t | None => TNull end)) in E; refine ((_ : injective TInt) _ _ E); eauto with dump).
  assert (F9 : Creatable_hero_glow_graphic x = Creatable_hero_glow_graphic y) by (apply (f_equal (get "hero_glow_graphic")) in E; apply (f_equal (fun o => match o with Some t => t | None => TNull end)) in E; refine ((_ : injective TInt) _ _ E); eauto with dump).
  assert (F10 : Creatable_idle_attack_graphic x = Creatable_idle_attack_graphic y) by (apply (f_equal (get "idle_attack_graphic")) in E; apply (f_equal (fun o => match o with Some t => t | None => TNull end)) in E; refine ((_ : injective TInt) _ _ E); eauto with dump).
  assert (F11 : Creatable_max_charge x = Creatable_max_charge y) by (apply (f_equal (get "max_charge")) in E; apply (f_equal (fun o => match o with Some t => t | None => TNull end)) in E; refine ((_ : injective TFloat) _ _ E); eauto with dump).
  assert (F12 : Creatable_recharge_rate x = Creatable_recharge_rate y) by (apply (f_equal (get "recharge_rate")) in E; apply (f_equal (fun o => match o with Some t => t | None => TNull end)) in E; refine ((_ : injective TFloat) _ _ E); eauto with dump).
  assert (F13 : Creatable_charge_event x = Creatable_charge_event y) by (apply (f_equal (get "charge_event")) in E; apply (f_equal (fun o => match o with Some t => t | None => TNull end)) in E; refine ((_ : injective TInt) _ _ E); eauto with dump).
  assert (F14 : Creatable_charge_type x = Creatable_charge_type y) by (apply (f_equal (get "charge_type")) in E; apply (f_equal (fun o => match o with Some t => t | None => TNull end)) in E; refine ((_ : injective TInt) _ _ E); eauto with dump).
  assert (F15 : Creatable_charge_target x = Creatable_charge_target y) by (apply (f_equal (get "charge_target")) in E; apply (f_equal (fun o => match o with Some t => t | None => TNull end)) in E; refine ((_ : injective TInt) _ _ E); eauto with dump).
  assert (F16 : Creatable_charge_projectile_unit x = Creatable_charge_projectile_unit y) by (apply (f_equal (get "charge_projectile_unit")) in E; apply (f_equal (fun o => match o with Some t => t | None => TNull end)) in E; refine ((_ : injective TInt) _ _ E); eauto with dump).
  assert (F17 : Creatable_attack_priority x = Creatable_attack_priority y) by (apply (f_equal (get "attack_priority")) in E; apply (f_equal (fun o => match o with Some t => t | None => TNull end)) in E; refine ((_ : injective TInt) _ _ E); eauto with dump).
  assert (F18 : Creatable_invulnerability_level x = Creatable_invulnerability_level y) by (apply (f_equal (get "invulnerability_level")) in E; apply (f_equal (fun o => match o with Some t => t | None => TNull end)) in E; refine ((_ : injective TFloat) _ _ E); eauto with dump).
  assert (F19 : Creatable_button_icon_id x = Creatable_button_icon_id y) by (apply (f_equal (get "button_icon_id")) in E; apply (f_equal (fun o => match o with Some t => t | None => TNull end)) in E; refine ((_ : injective TInt) _ _ E); eauto with dump).
  assert (F20 : Creatable_button_short_tooltip_id x = Creatable_button_short_tooltip_id y) by (apply (f_equal (get "button_short_tooltip_id")) in E; apply (f_equal (fun o => match o with Some t => t | None => TNull end)) in E; refine ((_ : injective TInt) _ _ E); eauto with dump).
  assert (F21 : Creatable_button_extended_tooltip_id x = Creatable_button_extended_tooltip_id y) by (apply (f_equal (get "button_extended_tooltip_id")) in E; apply (f_equal (fun o => match o with Some t => t | None => TNull end)) in E; refine ((_ : injective TInt) _ _ E); eauto with dump).
  assert (F22 : Creatable_button_hotkey_action x = Creatable_button_hotkey_action y) by (apply (f_equal (get "button_hotkey_action")) in E; apply (f_equal (fun o => match o with Some t => t | None => TNull end)) in E; refine ((_ : injective TInt) _ _ E); eauto with dump).
  assert (F23 : Creatable_min_conversion_time_mod x = Creatable_min_conversion_time_mod y) by (apply (f_equal (get "min_conversion_time_mod")) in E; apply (f_equal (fun o => match o with Some t => t | None => TNull end)) in E; refine ((_ : injective TFloat) _ _ E); eauto with dump).
  assert (F24 : Creatable_max_conversion_time_mod x = Creatable_max_conversion_time_mod y) by (apply (f_equal (get "max_conversion_time_mod")) in E; apply (f_equal (fun o => match o with Some t => t | None => TNull end)) in E; refine ((_ : injective TFloat) _ _ E); eauto with dump).
  assert (F25 : Creatable_conversion_chance_mod x = Creatable_conversion_chance_mod y) by (apply (f_equal (get "conversion_chance_mod")) in E; apply (f_equal (fun o => match o with Some t => t | None => TNull end)) in E; refine ((_ : injective TFloat) _ _ E); eauto with dump).
  assert (F26 : Creatable_total_projectiles x = Creatable_total_projectiles y) by (apply (f_equal (get "total_projectiles")) in E; apply (f_equal (fun o => match o with Some t => t | None => TNull end)) in E; refine ((_ : injective TFloat) _ _ E); eauto with dump).
  assert (F27 : Creatable_max_total_projectiles x = Creatable_max_total_projectiles y) by (apply (f_equal (get "max_total_projectiles")) in E; apply (f_equal (fun o => match o with Some t => t | None => TNull end)) in E; refine ((_ : injective TInt) _ _ E); eauto with dump).
  assert (F28 : Creatable_projectile_spawning_area x = Creatable_projectile_spawning_area y) by (apply (f_equal (get "projectile_spawning_area")) in E; apply (f_equal (fun o => match o with Some t => t | None => TNull end)) in E; refine ((_ : injective (fun l => TList (map TFloat l))) _ _ E); eauto with dump).
  assert (F29 : Creatable_secondary_projectile_unit x = Creatable_secondary_projectile_unit y) by (apply (f_equal (get "secondary_projectile_unit")) in E; apply (f_equal (fun o => match o with Some t => t | None => TNull end)) in E; refine ((_ : injective TInt) _ _ E); eauto with dump).
  assert (F30 : Creatable_special_graphic x = Creatable_special_graphic y) by (apply (f_equal (get "special_graphic")) in E; apply (f_equal (fun o => match o with Some t => t | None => TNull end)) in E; refine ((_ : injective TInt) _ _ E); eauto with dump).
  assert (F31 : Creatable_special_ability x = Creatable_special_ability y) by (apply (f_equal (get "special_ability")) in E; apply (f_equal (fun o => match o with Some t => t | None => TNull end)) in E; refine ((_ : injective TInt) _ _ E); eauto with dump).
  assert (F32 : Creatable_displayed_pierce_armour x = Creatable_displayed_pierce_armour y) by (apply (f_equal (get "displayed_pierce_armour")) in E; apply (f_equal (fun o => match o with Some t => t | None => TNull end)) in E; refine ((_ : injective TInt) _ _ E); eauto with dump).
  clear E. destruct x, y. cbn in F0, F1, F2, F3, F4, F5, F6, F7, F8, F9, F10, F11, F12, F13, F14, F15, F16, F17, F18, F19, F20, F21, F22, F23, F24, F25, F26, F27, F28, F29, F30, F31, F32. subst. reflexivity.
Qed.
Lemma solid_Creatable : solid Creatable_asdict. Proof. discriminate. Qed.
#[local] Hint Resolve C34_Creatable solid_Creatable : dump.

Theorem C34_BuildingAnnex_fields : forall x,
  keys (BuildingAnnex_asdict x) = ["unit_id"; "misplacement_x"; "misplacement_y"] /\
  get "unit_id" (BuildingAnnex_asdict x) = Some (TInt (BuildingAnnex_unit_id x)) /\
  get "misplacement_x" (BuildingAnnex_asdict x) = Some (TFloat (BuildingAnnex_misplacement_x x)) /\
  get "misplacement_y" (BuildingAnnex_asdict x) = Some (TFloat (BuildingAnnex_misplacement_y x)).
Proof. intros x. repeat match goal with |- _ /\ _ => split end; reflexivity. Qed.
Theorem C34_BuildingAnnex : injective BuildingAnnex_asdict.
Proof.
  intros x y E.
  assert (F0 : BuildingAnnex_unit_id x = BuildingAnnex_unit_id y) by (apply (f_equal (get "unit_id")) in E; apply (f_equal (fun o => match o with Some t => t | None => TNull end)) in E; refine ((_ : injective TInt) _ _ E); eauto with dump).
  assert (F1 : BuildingAnnex_misplacement_x x = BuildingAnnex_misplacement_x y) by (apply (f_equal (get "misplacement_x")) in E; apply (f_equal (fun o => match o with Some t => t | None => TNull end)) in E; refine ((_ : injective TFloat) _ _ E); eauto with dump).
  assert (F2 : BuildingAnnex_misplacement_y x = BuildingAnnex_misplacement_y y) by (apply (f_equal (get "misplacement_y")) in E; apply (f_equal (fun o => match o with Some t => t | None => TNull end)) in E; refine ((_ : injective TFloat) _ _ E); eauto with dump).
  clear E. destruct x, y. cbn in F0, F1, F2. subst. reflexivity.
Qed.
Lemma solid_BuildingAnnex : solid BuildingAnnex_asdict. Proof. discriminate. Qed.
#[local] Hint Resolve C34_BuildingAnnex solid_BuildingAnnex : dump.

Theorem C34_Building_fields : forall x,
  keys (Building_asdict x) = ["construction_graphic_id"; "snow_graphic_id"; "destruction_graphic_id"; "destruction_rubble_graphic_id"; "researching_graphic"; "research_completed_graphic"; "adjacent_mode"; "graphics_angle"; "disappears_when_built"; "stack_unit_id"; "foundation_terrain_id"; "old_overlap_id"; "tech_id"; "can_burn"; "annexes"; "head_unit"; "transform_unit"; "transform_sound"; "construction_sound"; "wwise_transform_sound_id"; "wwise_construction_sound_id"; "garrison_type"; "garrison_heal_rate"; "garrison_repair_rate"; "pile_unit"; "looting_table"] /\
  get "construction_graphic_id" (Building_asdict x) = Some (TInt (Building_construction_graphic_id x)) /\
  get "snow_graphic_id" (Building_asdict x) = Some (TInt (Building_snow_graphic_id x)) /\
  get "destruction_graphic_id" (Building_asdict x) = Some (TInt (Building_destruction_graphic_id x)) /\
  get "destruction_rubble_graphic_id" (Building_asdict x) = Some (TInt (Building_destruction_rubble_graphic_id x)) /\
  get "researching_graphic" (Building_asdict x) = Some (TInt (Building_researching_graphic x)) /\
  get "research_completed_graphic" (Building_asdict x) = Some (TInt (Building_research_completed_graphic x)) /\
  get "adjacent_mode" (Building_asdict x) = Some (TInt (Building_adjacent_mode x)) /\
  get "graphics_angle" (Building_asdict x) = Some (TInt (Building_graphics_angle x)) /\
  get "disappears_when_built" (Building_asdict x) = Some (TInt (Building_disappears_when_built x)) /\
  get "stack_unit_id" (Building_asdict x) = Some (TInt (Building_stack_unit_id x)) /\
  get "foundation_terrain_id" (Building_asdict x) = Some (TInt (Building_foundation_terrain_id x)) /\
  get "old_overlap_id" (Building_asdict x) = Some (TInt (Building_old_overlap_id x)) /\
  get "tech_id" (Building_asdict x) = Some (TInt (Building_tech_id x)) /\
  get "can_burn" (Building_asdict x) = Some (TInt (Building_can_burn x)) /\
  get "annexes" (Building_asdict x) = Some (TList (map BuildingAnnex_asdict (Building_annexes x))) /\
  get "head_unit" (Building_asdict x) = Some (TInt (Building_head_unit x)) /\
  get "transform_unit" (Building_asdict x) = Some (TInt (Building_transform_unit x)) /\
  get "transform_sound" (Building_asdict x) = Some (TInt (Building_transform_sound x)) /\
  get "construction_sound" (Building_asdict x) = Some (TInt (Building_construction_sound x)) /\
  get "wwise_transform_sound_id" (Building_asdict x) = Some (TInt (Building_wwise_transform_sound_id x)) /\
  get "wwise_construction_sound_id" (Building_asdict x) = Some (TInt (Building_wwise_construction_sound_id x)) /\
  get "garrison_type" (Building_asdict x) = Some (TInt (Building_garrison_type x)) /\
  get "garrison_heal_rate" (Building_asdict x) = Some (TFloat (Building_garrison_heal_rate x)) /\
  get "garrison_repair_rate" (Building_asdict x) = Some (TFloat (Building_garrison_repair_rate x)) /\
  get "pile_unit" (Building_asdict x) = Some (TInt (Building_pile_unit x)) /\
  get "looting_table" (Building_asdict x) = Some (TList (map TInt (Building_looting_table x))).
Proof. intros x. repeat match goal with |- _ /\ _ => split end; reflexivity. Qed.
Theorem C34_Building : injective Building_asdict.
Proof.
  intros x y E.
  assert (F0 : Building_construction_graphic_id x = Building_construction_graphic_id y) by (apply (f_equal (get "construction_graphic_id")) in E; apply (f_equal (fun o => match o with Some t => t | None => TNull end)) in E; refine ((_ : injective TInt) _ _ E); eauto with dump).
  assert (F1 : Building_snow_graphic_id x = Building_snow_graphic_id y) by (apply (f_equal (get "snow_graphic_id")) in E; apply (f_equal (fun o => match o with Some t => t | None => TNull end)) in E; refine ((_ : injective TInt) _ _ E); eauto with dump).
  assert (F2 : Building_destruction_graphic_id x = Building_destruction_graphic_id y) by (apply (f_equal (get "destruction_graphic_id")) in E; apply (f_equal (fun o => match o with Some t => t | None => TNull end)) in E; refine ((_ : injective TInt) _ _ E); eauto with dump).
  assert (F3 : Building_destruction_rubble_graphic_id x = Building_destruction_rubble_graphic_id y) by (apply (f_equal (get "destruction_rubble_graphic_id")) in E; apply (f_equal (fun o => match o with Some t => t | None => TNull end)) in E; refine ((_ : injective TInt) _ _ E); eauto with dump).
  assert (F4 : Building_researching_graphic x = Building_researching_graphic y) by (apply (f_equal (get "researching_graphic")) in E; apply (f_equal (fun o => match o with Some t => t | None => TNull end)) in E; refine ((_ : injective TInt) _ _ E); eauto with dump).
  assert (F5 : Building_research_completed_graphic x = Building_research_completed_graphic y) by (apply (f_equal (get "research_completed_graphic")) in E; apply (f_equal (fun o => match o with Some t => t | None => TNull end)) in E; refine ((_ : injective TInt) _ _ E); eauto with dump).
  assert (F6 : Building_adjacent_mode x = Building_adjacent_mode y) by (apply (f_equal (get "adjacent_mode")) in E; apply (f_equal (fun o => match o with Some t => t | None => TNull end)) in E; refine ((_ : injective TInt) _ _ E); eauto with dump).
  assert (F7 : Building_graphics_angle x = Building_graphics_angle y) by (apply (f_equal (get "graphics_angle")) in E; apply (f_equal (fun o => match o with Some t => t | None => TNull end)) in E; refine ((_ : injective TInt) _ _ E); eauto with dump).
  assert (F8 : Building_disappears_when_built x = Building_disappears_when_built y) by (apply (f_equal (get "disappears_when_built")) in E; apply (f_equal (fun o => match o with Some t => t | None => TNull end)) in E; refine ((_ : injective TInt) _ _ E); eauto with dump).
  assert (F9 : Building_stack_unit_id x = Building_stack_unit_id y) by (apply (f_equal (get "stack_unit_id")) in E; apply (f_equal (fun o => match o with Some t => t | None => TNull end)) in E; refine ((_ : injective TInt) _ _ E); eauto with dump).
  assert (F10 : Building_foundation_terrain_id x = Building_foundation_terrain_id y) by (apply (f_equal (get "foundation_terrain_id")) in E; apply (f_equal (fun o => match o with Some t => t | None => TNull end)) in E; refine ((_ : injective TInt) _ _ E); eauto with dump).
  assert (F11 : Building_old_overlap_id x = Building_old_overlap_id y) by (apply (f_equal (get "old_overlap_id")) in E; apply (f_equal (fun o => match o with Some t => t | None => TNull end)) in E; refine ((_ : injective TInt) _ _ E); eauto with dump).
  assert (F12 : Building_tech_id x = Building_tech_id y) by (apply (f_equal (get "tech_id")) in E; apply (f_equal (fun o => match o with Some t => t | None => TNull end)) in E; refine ((_ : injective TInt) _ _ E); eauto with dump).
  assert (F13 : Building_can_burn x = Building_can_burn y) by (apply (f_equal (get "can_burn")) in E; apply (f_equal (fun o => match o with Some t => t | None => TNull end)) in E; refine ((_ : injective TInt) _ _ E); eauto with dump).
  assert (F14 : Building_annexes x = Building_annexes y) by (apply (f_equal (get "annexes")) in E; apply (f_equal (fun o => match o with Some t => t | None => TNull end)) in E; refine ((_ : injective (fun l => TList (map BuildingAnnex_asdict l))) _ _ E); eauto with dump).
  assert (F15 : Building_head_unit x = Building_head_unit y) by (apply (f_equal (get "head_unit")) in E; apply (f_equal (fun o => match o with Some t => t | None => TNull end)) in E; refine ((_ : injective TInt) _ _ E); eauto with dump).
  assert (F16 : Building_transform_unit x = Building_transform_unit y) by (apply (f_equal (get "transform_unit")) in E; apply (f_equal (fun o => match o with Some t => t | None => TNull end)) in E; refine ((_ : injective TInt) _ _ E); eauto with dump).
  assert (F17 : Building_transform_sound x = Building_transform_sound y) by (apply (f_equal (get "transform_sound")) in E; apply (f_equal (fun o => match o with Some t => t | None => TNull end)) in E; refine ((_ : injective TInt) _ _ E); eauto with dump).
  assert (F18 : Building_construction_sound x = Building_construction_sound y) by (apply (f_equal (get "construction_sound")) in E; apply (f_equal (fun o => match o with Some t => t | None => TNull end)) in E; refine ((_ : injective TInt) _ _ E); eauto with dump).
  assert (F19 : Building_wwise_transform_sound_id x = Building_wwise_transform_sound_id y) by (apply (f_equal (get "wwise_transform_sound_id")) in E; apply (f_equal (fun o => match o with Some t => t | None => TNull end)) in E; refine ((_ : injective TInt) _ _ E); eauto with dump).
  assert (F20 : Building_wwise_construction_sound_id x = Building_wwise_construction_sound_id y) by (apply (f_equal (get "wwise_construction_sound_id")) in E; apply (f_equal (fun o => match o with Some t => t | None => TNull end)) in E; refine ((_ : injective TInt) _ _ E); eauto with dump).
  assert (F21 : Building_garrison_type x = Building_garrison_type y) by (apply (f_equal (get "garrison_type")) in E; apply (f_equal (fun o => match o with Some t => t | None => TNull end)) in E; refine ((_ : injective TInt) _ _ E); eauto with dump).
  assert (F22 : Building_garrison_heal_rate x = Building_garrison_heal_rate y) by (apply (f_equal (get "garrison_heal_rate")) in E; apply (f_equal (fun o => match o with Some t => t | None => TNull end)) in E; refine ((_ : injective TFloat) _ _ E); eauto with dump).
  assert (F23 : Building_garrison_repair_rate x = Building_garrison_repair_rate y) by (apply (f_equal (get "garrison_repair_rate")) in E; apply (f_equal (fun o => match o with Some t => t | None => TNull end)) in E; refine ((_ : injective TFloat) _ _ E); eauto with dump).
  assert (F24 : Building_pile_unit x = Building_pile_unit y) by (apply (f_equal (get "pile_unit")) in E; apply (f_equal (fun o => match o with Some t => t | None => TNull end)) in E; refine ((_ : injective TInt) _ _ E); eauto with dump).
  assert (F25 : Building_looting_table x = Building_looting_table y) by (apply (f_equal (get "looting_table")) in E; apply (f_equal (fun o => match o with Some t => t | None => TNull end)) in E; refine ((_ : injective (fun l => TList (map TInt l))) _ _ E); eauto with dump).
  clear E. destruct x, y. cbn in F0, F1, F2, F3, F4, F5, F6, F7, F8, F9, F10, F11, F12, F13, F14, F15, F16, F17, F18, F19, F20, F21, F22, F23, F24, F25. subst. reflexivity.
Qed.
Lemma solid_Building : solid Building_asdict. Proof. discriminate. Qed.
#[local] Hint Resolve C34_Building solid_Building : dump.

Theorem C34_Unit_fields : forall x,
  keys (Unit_asdict x) = ["type"; "id"; "language_dll_name"; "language_dll_creation"; "class_"; "standing_graphic"; "dying_graphic"; "undead_graphic"; "undead_mode"; "hit_points"; "line_of_sight"; "garrison_capacity"; "collision_size_x"; "collision_size_y"; "collision_size_z"; "train_sound"; "damage_sound"; "dead_unit_id"; "blood_unit_id"; "sort_number"; "can_be_built_on"; "icon_id"; "hide_in_editor"; "old_portrait_pict"; "enabled"; "disabled"; "placement_side_terrain"; "placement_terrain"; "clearance_size"; "hill_mode"; "fog_visibility"; "terrain_restriction"; "fly_mode"; "resource_capacity"; "resource_decay"; "blast_defense_level"; "combat_level"; "interaction_mode"; "minimap_mode"; "interface_kind"; "multiple_attribute_mode"; "minimap_color"; "language_dll_help"; "language_dll_hotkey_text"; "hot_key"; "recyclable"; "enable_auto_gather"; "create_doppelganger_on_death"; "resource_gather_group"; "occlusion_mode"; "obstruction_type"; "obstruction_class"; "trait"; "civilization"; "nothing"; "selection_effect"; "editor_selection_colour"; "outline_size_x"; "outline_size_y"; "outline_size_z"; "scenario_triggers_1"; "scenario_triggers_2"; "resource_storages"; "damage_graphics"; "selection_sound"; "dying_sound"; "wwise_train_sound_id"; "wwise_damage_sound_id"; "wwise_selection_sound_id"; "wwise_dying_sound_id"; "old_attack_reaction"; "convert_terrain"; "name"; "copy_id"; "base_id"; "speed"; "dead_fish"; "bird"; "type_50"; "projectile"; "creatable"; "building"] /\
  get "type" (Unit_asdict x) = Some (TInt (Unit_type x)) /\
  get "id" (Unit_asdict x) = Some (TInt (Unit_id x)) /\
  get "language_dll_name" (Unit_asdict x) = Some (TInt (Unit_language_dll_name x)) /\
  get "language_dll_creation" (Unit_asdict x) = Some (TInt (Unit_language_dll_creation x)) /\
  get "class_" (Unit_asdict x) = Some (TInt (Unit_class_ x)) /\
  get "standing_graphic" (Unit_asdict x) = Some (TList (map TInt (Unit_standing_graphic x))) /\
  get "dying_graphic" (Unit_asdict x) = Some (TInt (Unit_dying_graphic x)) /\
  get "undead_graphic" (Unit_asdict x) = Some (TInt (Unit_undead_graphic x)) /\
  get "undead_mode" (Unit_asdict x) = Some (TInt (Unit_undead_mode x)) /\
  get "hit_points" (Unit_asdict x) = Some (TInt (Unit_hit_points x)) /\
  get "line_of_sight" (Unit_asdict x) = Some (TFloat (Unit_line_of_sight x)) /\
  get "garrison_capacity" (Unit_asdict x) = Some (TInt (Unit_garrison_capacity x)) /\
  get "collision_size_x" (Unit_asdict x) = Some (TFloat (Unit_collision_size_x x)) /\
  get "collision_size_y" (Unit_asdict x) = Some (TFloat (Unit_collision_size_y x)) /\
  get "collision_size_z" (Unit_asdict x) = Some (TFloat (Unit_collision_size_z x)) /\
  get "train_sound" (Unit_asdict x) = Some (TInt (Unit_train_sound x)) /\
  get "damage_sound" (Unit_asdict x) = Some (TInt (Unit_damage_sound x)) /\
  get "dead_unit_id" (Unit_asdict x) = Some (TInt (Unit_dead_unit_id x)) /\
  get "blood_unit_id" (Unit_asdict x) = Some (TInt (Unit_blood_unit_id x)) /\
  get "sort_number" (Unit_asdict x) = Some (TInt (Unit_sort_number x)) /\
  get "can_be_built_on" (Unit_asdict x) = Some (TInt (Unit_can_be_built_on x)) /\
  get "icon_id" (Unit_asdict x) = Some (TInt (Unit_icon_id x)) /\
  get "hide_in_editor" (Unit_asdict x) = Some (TInt (Unit_hide_in_editor x)) /\
  get "old_portrait_pict" (Unit_asdict x) = Some (TInt (Unit_old_portrait_pict x)) /\
  get "enabled" (Unit_asdict x) = Some (TInt (Unit_enabled x)) /\
  get "disabled" (Unit_asdict x) = Some (TInt (Unit_disabled x)) /\
  get "placement_side_terrain" (Unit_asdict x) = Some (TList (map TInt (Unit_placement_side_terrain x))) /\
  get "placement_terrain" (Unit_asdict x) = Some (TList (map TInt (Unit_placement_terrain x))) /\
  get "clearance_size" (Unit_asdict x) = Some (TList (map TFloat (Unit_clearance_size x))) /\
  get "hill_mode" (Unit_asdict x) = Some (TInt (Unit_hill_mode x)) /\
  get "fog_visibility" (Unit_asdict x) = Some (TInt (Unit_fog_visibility x)) /\
  get "terrain_restriction" (Unit_asdict x) = Some (TInt (Unit_terrain_restriction x)) /\
  get "fly_mode" (Unit_asdict x) = Some (TInt (Unit_fly_mode x)) /\
  get "resource_capacity" (Unit_asdict x) = Some (TInt (Unit_resource_capacity x)) /\
  get "resource_decay" (Unit_asdict x) = Some (TFloat (Unit_resource_decay x)) /\
  get "blast_defense_level" (Unit_asdict x) = Some (TInt (Unit_blast_defense_level x)) /\
  get "combat_level" (Unit_asdict x) = Some (TInt (Unit_combat_level x)) /\
  get "interaction_mode" (Unit_asdict x) = Some (TInt (Unit_interaction_mode x)) /\
  get "minimap_mode" (Unit_asdict x) = Some (TInt (Unit_minimap_mode x)) /\
  get "interface_kind" (Unit_asdict x) = Some (TInt (Unit_interface_kind x)) /\
  get "multiple_attribute_mode" (Unit_asdict x) = Some (TFloat (Unit_multiple_attribute_mode x)) /\
  get "minimap_color" (Unit_asdict x) = Some (TInt (Unit_minimap_color x)) /\
  get "language_dll_help" (Unit_asdict x) = Some (TInt (Unit_language_dll_help x)) /\
  get "language_dll_hotkey_text" (Unit_asdict x) = Some (TInt (Unit_language_dll_hotkey_text x)) /\
  get "hot_key" (Unit_asdict x) = Some (TInt (Unit_hot_key x)) /\
  get "recyclable" (Unit_asdict x) = Some (TInt (Unit_recyclable x)) /\
  get "enable_auto_gather" (Unit_asdict x) = Some (TInt (Unit_enable_auto_gather x)) /\
  get "create_doppelganger_on_death" (Unit_asdict x) = Some (TInt (Unit_create_doppelganger_on_death x)) /\
  get "resource_gather_group" (Unit_asdict x) = Some (TInt (Unit_resource_gather_group x)) /\
  get "occlusion_mode" (Unit_asdict x) = Some (TInt (Unit_occlusion_mode x)) /\
  get "obstruction_type" (Unit_asdict x) = Some (TInt (Unit_obstruction_type x)) /\
  get "obstruction_class" (Unit_asdict x) = Some (TInt (Unit_obstruction_class x)) /\
  get "trait" (Unit_asdict x) = Some (TInt (Unit_trait x)) /\
  get "civilization" (Unit_asdict x) = Some (TInt (Unit_civilization x)) /\
  get "nothing" (Unit_asdict x) = Some (TInt (Unit_nothing x)) /\
  get "selection_effect" (Unit_asdict x) = Some (TInt (Unit_selection_effect x)) /\
  get "editor_selection_colour" (Unit_asdict x) = Some (TInt (Unit_editor_selection_colour x)) /\
  get "outline_size_x" (Unit_asdict x) = Some (TFloat (Unit_outline_size_x x)) /\
  get "outline_size_y" (Unit_asdict x) = Some (TFloat (Unit_outline_size_y x)) /\
  get "outline_size_z" (Unit_asdict x) = Some (TFloat (Unit_outline_size_z x)) /\
  get "scenario_triggers_1" (Unit_asdict x) = Some (TInt (Unit_scenario_triggers_1 x)) /\
  get "scenario_triggers_2" (Unit_asdict x) = Some (TInt (Unit_scenario_triggers_2 x)) /\
  get "resource_storages" (Unit_asdict x) = Some (TList (map ResourceStorage_asdict (Unit_resource_storages x))) /\
  get "damage_graphics" (Unit_asdict x) = Some (TList (map DamageGraphic_asdict (Unit_damage_graphics x))) /\
  get "selection_sound" (Unit_asdict x) = Some (TInt (Unit_selection_sound x)) /\
  get "dying_sound" (Unit_asdict x) = Some (TInt (Unit_dying_sound x)) /\
  get "wwise_train_sound_id" (Unit_asdict x) = Some (TInt (Unit_wwise_train_sound_id x)) /\
  get "wwise_damage_sound_id" (Unit_asdict x) = Some (TInt (Unit_wwise_damage_sound_id x)) /\
  get "wwise_selection_sound_id" (Unit_asdict x) = Some (TInt (Unit_wwise_selection_sound_id x)) /\
  get "wwise_dying_sound_id" (Unit_asdict x) = Some (TInt (Unit_wwise_dying_sound_id x)) /\
  get "old_attack_reaction" (Unit_asdict x) = Some (TInt (Unit_old_attack_reaction x)) /\
  get "convert_terrain" (Unit_asdict x) = Some (TInt (Unit_convert_terrain x)) /\
  get "name" (Unit_asdict x) = Some (TText (Unit_name x)) /\
  get "copy_id" (Unit_asdict x) = Some (TInt (Unit_copy_id x)) /\
  get "base_id" (Unit_asdict x) = Some (TInt (Unit_base_id x)) /\
  get "speed" (Unit_asdict x) = Some (of_option TFloat (Unit_speed x)) /\
  get "dead_fish" (Unit_asdict x) = Some (of_option DeadFish_asdict (Unit_dead_fish x)) /\
  get "bird" (Unit_asdict x) = Some (of_option Bird_asdict (Unit_bird x)) /\
  get "type_50" (Unit_asdict x) = Some (of_option Type50_asdict (Unit_type_50 x)) /\
  get "projectile" (Unit_asdict x) = Some (of_option Projectile_asdict (Unit_projectile x)) /\
  get "creatable" (Unit_asdict x) = Some (of_option Creatable_asdict (Unit_creatable x)) /\
  get "building" (Unit_asdict x) = Some (of_option Building_asdict (Unit_building x)).
Proof. intros x. repeat match goal with |- _ /\ _ => split end; reflexivity. Qed.
Theorem C34_Unit : injective Unit_asdict.
Proof.
  intros x y E.
  assert (F0 : Unit_type x = Unit_type y) by (apply (f_equal (get "type")) in E; apply (f_equal (fun o => match o with Some t => t | None => TNull end)) in E; refine ((_ : injective TInt) _ _ E); eauto with dump).
  assert (F1 : Unit_id x = Unit_id y) by (apply (f_equal (get "id")) in E; apply (f_equal (fun o => match o with Some t => t | None => TNull end)) in E; refine ((_ : injective TInt) _ _ E); eauto with dump).
  assert (F2 : Unit_language_dll_name x = Unit_language_dll_name y) by (apply (f_equal (get "language_dll_name")) in E; apply (f_equal (fun o => match o with Some t => t | None => TNull end)) in E; refine ((_ : injective TInt) _ _ E); eauto with dump).
  assert (F3 : Unit_language_dll_creation x = Unit_language_dll_creation y) by (apply (f_equal (get "language_dll_creation")) in E; apply (f_equal (fun o => match o with Some t => t | None => TNull end)) in E; refine ((_ : injective TInt) _ _ E); eauto with dump).
  assert (F4 : Unit_class_ x = Unit_class_ y) by (apply (f_equal (get "class_")) in E; apply (f_equal (fun o => match o with Some t => t | None => TNull end)) in E; refine ((_ : injective TInt) _ _ E); eauto with dump).
  assert (F5 : Unit_standing_graphic x = Unit_standing_graphic y) by (apply (f_equal (get "standing_graphic")) in E; apply (f_equal (fun o => match o with Some t => t | None => TNull end)) in E; refine ((_ : injective (fun l => TList (map TInt l))) _ _ E); eauto with dump).
  assert (F6 : Unit_dying_graphic x = Unit_dying_graphic y) by (apply (f_equal (get "dying_graphic")) in E; apply (f_equal (fun o => match o with Some t => t | None => TNull end)) in E; refine ((_ : injective TInt) _ _ E); eauto with dump).
  assert (F7 : Unit_undead_graphic x = Unit_undead_graphic y) by (apply (f_equal (get "undead_graphic")) in E; apply (f_equal (fun o => match o with Some t => t | None => TNull end)) in E; refine ((_ : injective TInt) _ _ E); eauto with dump).
  assert (F8 : Unit_undead_mode x = Unit_undead_mode y) by (apply (f_equal (get "undead_mode")) in E; apply (f_equal (fun o => match o with Some t => t | None => TNull end)) in E; refine ((_ : injective TInt) _ _ E); eauto with dump).
  assert (F9 : Unit_hit_points x = Unit_hit_points y) by (apply (f_equal (get "hit_points")) in E; apply (f_equal (fun o => match o with Some t => t | None => TNull end)) in E; refine ((_ : injective TInt) _ _ E); eauto with dump).
  assert (F10 : Unit_line_of_sight x = Unit_line_of_sight y) by (apply (f_equal (get "line_of_sight")) in E; apply (f_equal (fun o => match o with Some t => t | None => TNull end)) in E; refine ((_ : injective TFloat) _ _ E); eauto with dump).
  assert (F11 : Unit_garrison_capacity x = Unit_garrison_capacity y) by (apply (f_equal (get "garrison_capacity")) in E; apply (f_equal (fun o => match o with Some t => t | None => TNull end)) in E; refine ((_ : injective TInt) _ _ E); eauto with dump).
  assert (F12 : Unit_collision_size_x x = Unit_collision_size_x y) by (apply (f_equal (get "collision_size_x")) in E; apply (f_equal (fun o => match o with Some t => t | None => TNull end)) in E; refine ((_ : injective TFloat) _ _ E); eauto with dump).
  assert (F13 : Unit_collision_size_y x = Unit_collision_size_y y) by (apply (f_equal (get "collision_size_y")) in E; apply (f_equal (fun o => match o with Some t => t | None => TNull end)) in E; refine ((_ : injective TFloat) _ _ E); eauto with dump).
  assert (F14 : Unit_collision_size_z x = Unit_collision_size_z y) by (apply (f_equal (get "collision_size_z")) in E; apply (f_equal (fun o => match o with Some t => t | None => TNull end)) in E; refine ((_ : injective TFloat) _ _ E); eauto with dump).
  assert (F15 : Unit_train_sound x = Unit_train_sound y) by (apply (f_equal (get "train_sound")) in E; apply (f_equal (fun o => match o with Some t => t | None => TNull end)) in E; refine ((_ : injective TInt) _ _ E); eauto with dump).
  assert (F16 : Unit_damage_sound x = Unit_damage_sound y) by (apply (f_equal (get "damage_sound")) in E; apply (f_equal (fun o => match o with Some t => t | None => TNull end)) in E; refine ((_ : injective TInt) _ _ E); eauto with dump).
  assert (F17 : Unit_dead_unit_id x = Unit_dead_unit_id y) by (apply (f_equal (get "dead_unit_id")) in E; apply (f_equal (fun o => match o with Some t => t | None => TNull end)) in E; refine ((_ : injective TInt) _ _ E); eauto with dump).
  assert (F18 : Unit_blood_unit_id x = Unit_blood_unit_id y) by (apply (f_equal (get "blood_unit_id")) in E; apply (f_equal (fun o => match o with Some t => t | None => TNull end)) in E; refine ((_ : injective TInt) _ _ E); eauto with dump).
  assert (F19 : Unit_sort_number x = Unit_sort_number y) by (apply (f_equal (get "sort_number")) in E; apply (f_equal (fun o => match o with Some t => t | None => TNull end)) in E; refine ((_ : injective TInt) _ _ E); eauto with dump).
  assert (F20 : Unit_can_be_built_on x = Unit_can_be_built_on y) by (apply (f_equal (get "can_be_built_on")) in E; apply (f_equal (fun o => match o with Some t => t | None => TNull end)) in E; refine ((_ : injective TInt) _ _ E); eauto with dump).
  assert (F21 : Unit_icon_id x = Unit_icon_id y) by (apply (f_equal (get "icon_id")) in E; apply (f_equal (fun o => match o with Some t => t | None => TNull end)) in E; refine ((_ : injective TInt) _ _ E); eauto with dump).
  assert (F22 : Unit_hide_in_editor x = Unit_hide_in_editor y) by (apply (f_equal (get "hide_in_editor")) in E; apply (f_equal (fun o => match o with Some t => t | None => TNull end)) in E; refine ((_ : injective TInt) _ _ E); eauto with dump).
  assert (F23 : Unit_old_portrait_pict x = Unit_old_portrait_pict y) by (apply (f_equal (get "old_portrait_pict")) in E; apply (f_equal (fun o => match o with Some t => t | None => TNull end)) in E; refine ((_ : injective TInt) _ _ E); eauto with dump).
  assert (F24 : Unit_enabled x = Unit_enabled y) by (apply (f_equal (get "enabled")) in E; apply (f_equal (fun o => match o with Some t => t | None => TNull end)) in E; refine ((_ : injective TInt) _ _ E); eauto with dump).
  assert (F25 : Unit_disabled x = Unit_disabled y) by (apply (f_equal (get "disabled")) in E; apply (f_equal (fun o => match o with Some t => t | None => TNull end)) in E; refine ((_ : injective TInt) _ _ E); eauto with dump).
  assert (F26 : Unit_placement_side_terrain x = Unit_placement_side_terrain y) by (apply (f_equal (get "placement_side_terrain")) in E; apply (f_equal (fun o => match o with Some t => t | None => TNull end)) in E; refine ((_ : injective (fun l => TList (map TInt l))) _ _ E); eauto with dump).
  assert (F27 : Unit_placement_terrain x = Unit_placement_terrain y) by (apply (f_equal (get "placement_terrain")) in E; apply (f_equal (fun o => match o with Some t => t | None => TNull end)) in E; refine ((_ : injective (fun l => TList (map TInt l))) _ _ E); eauto with dump).
  assert (F28 : Unit_clearance_size x = Unit_clearance_size y) by (apply (f_equal (get "clearance_size")) in E; apply (f_equal (fun o => match o with Some t => t | None => TNull end)) in E; refine ((_ : injective (fun l => TList (map TFloat l))) _ _ E); eauto with dump).
  assert (F29 : Unit_hill_mode x = Unit_hill_mode y) by (apply (f_equal (get "hill_mode")) in E; apply (f_equal (fun o => match o with Some t => t | None => TNull end)) in E; refine ((_ : injective TInt) _ _ E); eauto with dump).
  assert (F30 : Unit_fog_visibility x = Unit_fog_visibility y) by (apply (f_equal (get "fog_visibility")) in E; apply (f_equal (fun o => match o with Some t => t | None => TNull end)) in E; refine ((_ : injective TInt) _ _ E); eauto with dump).
  assert (F31 : Unit_terrain_restriction x = Unit_terrain_restriction y) by (apply (f_equal (get "terrain_restriction")) in E; apply (f_equal (fun o => match o with Some t => t | None => TNull end)) in E; refine ((_ : injective TInt) _ _ E); eauto with dump).
  assert (F32 : Unit_fly_mode x = Unit_fly_mode y) by (apply (f_equal (get "fly_mode")) in E; apply (f_equal (fun o => match o with Some t => t | None => TNull end)) in E; refine ((_ : injective TInt) _ _ E); eauto with dump).
  assert (F33 : Unit_resource_capacity x = Unit_resource_capacity y) by (apply (f_equal (get "resource_capacity")) in E; apply (f_equal (fun o => match o with Some t => t | None => TNull end)) in E; refine ((_ : injective TInt) _ _ E); eauto with dump).
  assert (F34 : Unit_resource_decay x = Unit_resource_decay y) by (apply (f_equal (get "resource_decay")) in E; apply (f_equal (fun o => match o with Some t => t | None => TNull end)) in E; refine ((_ : injective TFloat) _ _ E); eauto with dump).
  assert (F35 : Unit_blast_defense_level x = Unit_blast_defense_level y) by (apply (f_equal (get "blast_defense_level")) in E; apply (f_equal (fun o => match o with Some t => t | None => TNull end)) in E; refine ((_ : injective TInt) _ _ E); eauto with dump).
  assert (F36 : Unit_combat_level x = Unit_combat_level y) by (apply (f_equal (get "combat_level")) in E; apply (f_equal (fun o => match o with Some t => t | None => TNull end)) in E; refine ((_ : injective TInt) _ _ E); eauto with dump).
  assert (F37 : Unit_interaction_mode x = Unit_interaction_mode y) by (apply (f_equal (get "interaction_mode")) in E; apply (f_equal (fun o => match o with Some t => t | None => TNull end)) in E; refine ((_ : injective TInt) _ _ E); eauto with dump).
  assert (F38 : Unit_minimap_mode x = Unit_minimap_mode y) by (apply (f_equal (get "minimap_mode")) in E; apply (f_equal (fun o => match o with Some t => t | None => TNull end)) in E; refine ((_ : injective TInt) _ _ E); eauto with dump).
  assert (F39 : Unit_interface_kind x = Unit_interface_kind y) by (apply (f_equal (get "interface_kind")) in E; apply (f_equal (fun o => match o with Some t => t | None => TNull end)) in E; refine ((_ : injective TInt) _ _ E); eauto with dump).
  assert (F40 : Unit_multiple_attribute_mode x = Unit_multiple_attribute_mode y) by (apply (f_equal (get "multiple_attribute_mode")) in E; apply (f_equal (fun o => match o with Some t => t | None => TNull end)) in E; refine ((_ : injective TFloat) _ _ E); eauto with dump).
  assert (F41 : Unit_minimap_color x = Unit_minimap_color y) by (apply (f_equal (get "minimap_color")) in E; apply (f_equal (fun o => match o with Some t => t | None => TNull end)) in E; refine ((_ : injective TInt) _ _ E); eauto with dump).
  assert (F42 : Unit_language_dll_help x = Unit_language_dll_help y) by (apply (f_equal (get "language_dll_help")) in E; apply (f_equal (fun o => match o with Some t => t | None => TNull end)) in E; refine ((_ : injective TInt) _ _ E); eauto with dump).
  assert (F43 : Unit_language_dll_hotkey_text x = Unit_language_dll_hotkey_text y) by (apply (f_equal (get "language_dll_hotkey_text")) in E; apply (f_equal (fun o => match o with Some t => t | None => TNull end)) in E; refine ((_ : injective TInt) _ _ E); eauto with dump).
  assert (F44 : Unit_hot_key x = Unit_hot_key y) by (apply (f_equal (get "hot_key")) in E; apply (f_equal (fun o => match o with Some t => t | None => TNull end)) in E; refine ((_ : injective TInt) _ _ E); eauto with dump).
  assert (F45 : Unit_recyclable x = Unit_recyclable y) by (apply (f_equal (get "recyclable")) in E; apply (f_equal (fun o => match o with Some t => t | None => TNull end)) in E; refine ((_ : injective TInt) _ _ E); eauto with dump).
  assert (F46 : Unit_enable_auto_gather x = Unit_enable_auto_gather y) by (apply (f_equal (get "enable_auto_gather")) in E; apply (f_equal (fun o => match o with Some t => t | None => TNull end)) in E; refine ((_ : injective TInt) _ _ E); eauto with dump).
  assert (F47 : Unit_create_doppelganger_on_death x = Unit_create_doppelganger_on_death y) by (apply (f_equal (get "create_doppelganger_on_death")) in E; apply (f_equal (fun o => match o with Some t => t | None => TNull end)) in E; refine ((_ : injective TInt) _ _ E); eauto with dump).
  assert (F48 : Unit_resource_gather_group x = Unit_resource_gather_group y) by (apply (f_equal (get "resource_gather_group")) in E; apply (f_equal (fun o => match o with Some t => t | None => TNull end)) in E; refine ((_ : injective TInt) _ _ E); eauto with dump).
  assert (F49 : Unit_occlusion_mode x = Unit_occlusion_mode y) by (apply (f_equal (get "occlusion_mode")) in E; apply (f_equal (fun o => match o with Some t => t | None => TNull end)) in E; refine ((_ : injective TInt) _ _ E); eauto with dump).
  assert (F50 : Unit_obstruction_type x = Unit_obstruction_type y) by (apply (f_equal (get "obstruction_type")) in E; apply (f_equal (fun o => match o with Some t => t | None => TNull end)) in E; refine ((_ : injective TInt) _ _ E); eauto with dump).
  assert (F51 : Unit_obstruction_class x = Unit_obstruction_class y) by (apply (f_equal (get "obstruction_class")) in E; apply (f_equal (fun o => match o with Some t => t | None => TNull end)) in E; refine ((_ : injective TInt) _ _ E); eauto with dump).
  assert (F52 : Unit_trait x = Unit_trait y) by (apply (f_equal (get "trait")) in E; apply (f_equal (fun o => match o with Some t => t | None => TNull end)) in E; refine ((_ : injective TInt) _ _ E); eauto with dump).
  assert (F53 : Unit_civilization x = Unit_civilization y) by (apply (f_equal (get "civilization")) in E; apply (f_equal (fun o => match o with Some t => t | None => TNull end)) in E; refine ((_ : injective TInt) _ _ E); eauto with dump).
  assert (F54 : Unit_nothing x = Unit_nothing y) by (apply (f_equal (get "nothing")) in E; apply (f_equal (fun o => match o with Some t => t | None => TNull end)) in E; refine ((_ : injective TInt) _ _ E); eauto with dump).
  assert (F55 : Unit_selection_effect x = Unit_selection_effect y) by (apply (f_equal (get "selection_effect")) in E; apply (f_equal (fun o => match o with Some t => t | None => TNull end)) in E; refine ((_ : injective TInt) _ _ E); eauto with dump).
  assert (F56 : Unit_editor_selection_colour x = Unit_editor_selection_colour y) by (apply (f_equal (get "editor_selection_colour")) in E; apply (f_equal (fun o => match o with Some t => t | None => TNull end)) in E; refine ((_ : injective TInt) _ _ E); eauto with dump).
  assert (F57 : Unit_outline_size_x x = Unit_outline_size_x y) by (apply (f_equal (get "outline_size_x")) in E; apply (f_equal (fun o => match o with Some t => t | None => TNull end)) in E; refine ((_ : injective TFloat) _ _ E); eauto with dump).
  assert (F58 : Unit_outline_size_y x = Unit_outline_size_y y) by (apply (f_equal (get "outline_size_y")) in E; apply (f_equal (fun o => match o with Some t => t | None => TNull end)) in E; refine ((_ : injective TFloat) _ _ E); eauto with dump).
  assert (F59 : Unit_outline_size_z x = Unit_outline_size_z y) by (apply (f_equal (get "outline_size_z")) in E; apply (f_equal (fun o => match o with Some t => t | None => TNull end)) in E; refine ((_ : injective TFloat) _ _ E); eauto with dump).
  assert (F60 : Unit_scenario_triggers_1 x = Unit_scenario_triggers_1 y) by (apply (f_equal (get "scenario_triggers_1")) in E; apply (f_equal (fun o => match o with Some t => t | None => TNull end)) in E; refine ((_ : injective TInt) _ _ E); eauto with dump).
  assert (F61 : Unit_scenario_triggers_2 x = Unit_scenario_triggers_2 y) by (apply (f_equal (get "scenario_triggers_2")) in E; apply (f_equal (fun o => match o with Some t => t | None => TNull end)) in E; refine ((_ : injective TInt) _ _ E); eauto with dump).
  assert (F62 : Unit_resource_storages x = Unit_resource_storages y) by (apply (f_equal (get "resource_storages")) in E; apply (f_equal (fun o => match o with Some t => t | None => TNull end)) in E; refine ((_ : injective (fun l => TList (map ResourceStorage_asdict l))) _ _ E); eauto with dump).
  assert (F63 : Unit_damage_graphics x = Unit_damage_graphics y) by (apply (f_equal (get "damage_graphics")) in E; apply (f_equal (fun o => match o with Some t => t | None => TNull end)) in E; refine ((_ : injective (fun l => TList (map DamageGraphic_asdict l))) _ _ E); eauto with dump).
  assert (F64 : Unit_selection_sound x = Unit_selection_sound y) by (apply (f_equal (get "selection_sound")) in E; apply (f_equal (fun o => match o with Some t => t | None => TNull end)) in E; refine ((_ : injective TInt) _ _ E); eauto with dump).
  assert (F65 : Unit_dying_sound x = Unit_dying_sound y) by (apply (f_equal (get "dying_sound")) in E; apply (f_equal (fun o => match o with Some t => t | None => TNull end)) in E; refine ((_ : injective TInt) _ _ E); eauto with dump).
  assert (F66 : Unit_wwise_train_sound_id x = Unit_wwise_train_sound_id y) by (apply (f_equal (get "wwise_train_sound_id")) in E; apply (f_equal (fun o => match o with Some t => t | None => TNull end)) in E; refine ((_ : injective TInt) _ _ E); eauto with dump).
  assert (F67 : Unit_wwise_damage_sound_id x = Unit_wwise_damage_sound_id y) by (apply (f_equal (get "wwise_damage_sound_id")) in E; apply (f_equal (fun o => match o with Some t => t | None => TNull end)) in E; refine ((_ : injective TInt) _ _ E); eauto with dump).
  assert (F68 : Unit_wwise_selection_sound_id x = Unit_wwise_selection_sound_id y) by (apply (f_equal (get "wwise_selection_sound_id")) in E; apply (f_equal (fun o => match o with Some t => t | None => TNull end)) in E; refine ((_ : injective TInt) _ _ E); eauto with dump).
  assert (F69 : Unit_wwise_dying_sound_id x = Unit_wwise_dying_sound_id y) by (apply (f_equal (get "wwise_dying_sound_id")) in E; apply (f_equal (fun o => match o with Some t => t | None => TNull end)) in E; refine ((_ : injective TInt) _ _ E); eauto with dump).
  assert (F70 : Unit_old_attack_reaction x = Unit_old_attack_reaction y) by (apply (f_equal (get "old_attack_reaction")) in E; apply (f_equal (fun o => match o with Some t => t | None => TNull end)) in E; refine ((_ : injective TInt) _ _ E); eauto with dump).
  assert (F71 : Unit_convert_terrain x = Unit_convert_terrain y) by (apply (f_equal (get "convert_terrain")) in E; apply (f_equal (fun o => match o with Some t => t | None => TNull end)) in E; refine ((_ : injective TInt) _ _ E); eauto with dump).
  assert (F72 : Unit_name x = Unit_name y) by (apply (f_equal (get "name")) in E; apply (f_equal (fun o => match o with Some t => t | None => TNull end)) in E; refine ((_ : injective TText) _ _ E); eauto with dump).
  assert (F73 : Unit_copy_id x = Unit_copy_id y) by (apply (f_equal (get "copy_id")) in E; apply (f_equal (fun o => match o with Some t => t | None => TNull end)) in E; refine ((_ : injective TInt) _ _ E); eauto with dump).
  assert (F74 : Unit_base_id x = Unit_base_id y) by (apply (f_equal (get "base_id")) in E; apply (f_equal (fun o => match o with Some t => t | None => TNull end)) in E; refine ((_ : injective TInt) _ _ E); eauto with dump).
  assert (F75 : Unit_speed x = Unit_speed y) by (apply (f_equal (get "speed")) in E; apply (f_equal (fun o => match o with Some t => t | None => TNull end)) in E; refine ((_ : injective (of_option TFloat)) _ _ E); eauto with dump).
  assert (F76 : Unit_dead_fish x = Unit_dead_fish y) by (apply (f_equal (get "dead_fish")) in E; apply (f_equal (fun o => match o with Some t => t | None => TNull end)) in E; refine ((_ : injective (of_option DeadFish_asdict)) _ _ E); eauto with dump).
  assert (F77 : Unit_bird x = Unit_bird y) by (apply (f_equal (get "bird")) in E; apply (f_equal (fun o => match o with Some t => t | None => TNull end)) in E; refine ((_ : injective (of_option Bird_asdict)) _ _ E); eauto with dump).
  assert (F78 : Unit_type_50 x = Unit_type_50 y) by (apply (f_equal (get "type_50")) in E; apply (f_equal (fun o => match o with Some t => t | None => TNull end)) in E; refine ((_ : injective (of_option Type50_asdict)) _ _ E); eauto with dump).
  assert (F79 : Unit_projectile x = Unit_projectile y) by (apply (f_equal (get "projectile")) in E; apply (f_equal (fun o => match o with Some t => t | None => TNull end)) in E; refine ((_ : injective (of_option Projectile_asdict)) _ _ E); eauto with dump).
  assert (F80 : Unit_creatable x = Unit_creatable y) by (apply (f_equal (get "creatable")) in E; apply (f_equal (fun o => match o with Some t => t | None => TNull end)) in E; refine ((_ : injective (of_option Creatable_asdict)) _ _ E); eauto with dump).
  assert (F81 : Unit_building x = Unit_building y) by (apply (f_equal (get "building")) in E; apply (f_equal (fun o => match o with Some t => t | None => TNull end)) in E; refine ((_ : injective (of_option Building_asdict)) _ _ E); eauto with dump).
  clear E. destruct x, y. cbn in F0, F1, F2, F3, F4, F5, F6, F7, F8, F9, F10, F11, F12, F13, F14, F15, F16, F17, F18, F19, F20, F21, F22, F23, F24, F25, F26, F27, F28, F29, F30, F31, F32, F33, F34, F35, F36, F37, F38, F39, F40, F41, F42, F43, F44, F45, F46, F47, F48, F49, F50, F51, F52, F53, F54, F55, F56, F57, F58, F59, F60, F61, F62, F63, F64, F65, F66, F67, F68, F69, F70, F71, F72, F73, F74, F75, F76, F77, F78, F79, F80, F81. subst. reflexivity.
Qed.
Lemma solid_Unit : solid Unit_asdict. Proof. discriminate. Qed.
#[local] Hint Resolve C34_Unit solid_Unit : dump.

Theorem C34_Civ_fields : forall x,
  keys (Civ_asdict x) = ["player_type"; "name"; "tech_tree_id"; "team_bonus_id"; "resources"; "icon_set"; "units"] /\
  get "player_type" (Civ_asdict x) = Some (TInt (Civ_player_type x)) /\
  get "name" (Civ_asdict x) = Some (TText (Civ_name x)) /\
  get "tech_tree_id" (Civ_asdict x) = Some (TInt (Civ_tech_tree_id x)) /\
  get "team_bonus_id" (Civ_asdict x) = Some (TInt (Civ_team_bonus_id x)) /\
  get "resources" (Civ_asdict x) = Some (TList (map TFloat (Civ_resources x))) /\
  get "icon_set" (Civ_asdict x) = Some (TInt (Civ_icon_set x)) /\
  get "units" (Civ_asdict x) = Some (TList (map (of_option Unit_asdict) (Civ_units x))).
Proof. intros x. repeat match goal with |- _ /\ _ => split end; reflexivity. Qed.
Theorem C34_Civ : injective Civ_asdict.
Proof.
  intros x y E.
  assert (F0 : Civ_player_type x = Civ_player_type y) by (apply (f_equal (get "player_type")) in E; apply (f_equal (fun o => match o with Some t => t | None => TNull end)) in E; refine ((_ : injective TInt) _ _ E); eauto with dump).
  assert (F1 : Civ_name x = Civ_name y) by (apply (f_equal (get "name")) in E; apply (f_equal (fun o => match o with Some t => t | None => TNull end)) in E; refine ((_ : injective TText) _ _ E); eauto with dump).
  assert (F2 : Civ_tech_tree_id x = Civ_tech_tree_id y) by (apply (f_equal (get "tech_tree_id")) in E; apply (f_equal (fun o => match o with Some t => t | None => TNull end)) in E; refine ((_ : injective TInt) _ _ E); eauto with dump).
  assert (F3 : Civ_team_bonus_id x = Civ_team_bonus_id y) by (apply (f_equal (get "team_bonus_id")) in E; apply (f_equal (fun o => match o with Some t => t | None => TNull end)) in E; refine ((_ : injective TInt) _ _ E); eauto with dump).
  assert (F4 : Civ_resources x = Civ_resources y) by (apply (f_equal (get "resources")) in E; apply (f_equal (fun o => match o with Some t => t | None => TNull end)) in E; refine ((_ : injective (fun l => TList (map TFloat l))) _ _ E); eauto with dump).
  assert (F5 : Civ_icon_set x = Civ_icon_set y) by (apply (f_equal (get "icon_set")) in E; apply (f_equal (fun o => match o with Some t => t | None => TNull end)) in E; refine ((_ : injective TInt) _ _ E); eauto with dump).
  assert (F6 : Civ_units x = Civ_units y) by (apply (f_equal (get "units")) in E; apply (f_equal (fun o => match o with Some t => t | None => TNull end)) in E; refine ((_ : injective (fun l => TList (map (of_option Unit_asdict) l))) _ _ E); eauto with dump).
  clear E. destruct x, y. cbn in F0, F1, F2, F3, F4, F5, F6. subst. reflexivity.
Qed.
Lemma solid_Civ : solid Civ_asdict. Proof. discriminate. Qed.
#[local] Hint Resolve C34_Civ solid_Civ : dump.

Theorem C34_ResearchResourceCost_fields : forall x,
  keys (ResearchResourceCost_asdict x) = ["type"; "amount"; "flag"] /\
  get "type" (ResearchResourceCost_asdict x) = Some (TInt (ResearchResourceCost_type x)) /\
  get "amount" (ResearchResourceCost_asdict x) = Some (TInt (ResearchResourceCost_amount x)) /\
  get "flag" (ResearchResourceCost_asdict x) = Some (TInt (ResearchResourceCost_flag x)).
Proof. intros x. repeat match goal with |- _ /\ _ => split end; reflexivity. Qed.
Theorem C34_ResearchResourceCost : injective ResearchResourceCost_asdict.
Proof.
  intros x y E.
  assert (F0 : ResearchResourceCost_type x = ResearchResourceCost_type y) by (apply (f_equal (get "type")) in E; apply (f_equal (fun o => match o with Some t => t | None => TNull end)) in E; refine ((_ : injective TInt) _ _ E); eauto with dump).
  assert (F1 : ResearchResourceCost_amount x = ResearchResourceCost_amount y) by (apply (f_equal (get "amount")) in E; apply (f_equal (fun o => match o with Some t => t | None => TNull end)) in E; refine ((_ : injective TInt) _ _ E); eauto with dump).
  assert (F2 : ResearchResourceCost_flag x = ResearchResourceCost_flag y) by (apply (f_equal (get "flag")) in E; apply (f_equal (fun o => match o with Some t => t | None => TNull end)) in E; refine ((_ : injective TInt) _ _ E); eauto with dump).
  clear E. destruct x, y. cbn in F0, F1, F2. subst. reflexivity.
Qed.
Lemma solid_ResearchResourceCost : solid ResearchResourceCost_asdict. Proof. discriminate. Qed.
#[local] Hint Resolve C34_ResearchResourceCost solid_ResearchResourceCost : dump.

Theorem C34_ResearchLocation_fields : forall x,
  keys (ResearchLocation_asdict x) = ["location_id"; "research_time"; "button_id"; "hot_key_id"] /\
  get "location_id" (ResearchLocation_asdict x) = Some (TInt (ResearchLocation_location_id x)) /\
  get "research_time" (ResearchLocation_asdict x) = Some (TInt (ResearchLocation_research_time x)) /\
  get "button_id" (ResearchLocation_asdict x) = Some (TInt (ResearchLocation_button_id x)) /\
  get "hot_key_id" (ResearchLocation_asdict x) = Some (TInt (ResearchLocation_hot_key_id x)).
Proof. intros x. repeat match goal with |- _ /\ _ => split end; reflexivity. Qed.
Theorem C34_ResearchLocation : injective ResearchLocation_asdict.
Proof.
  intros x y E.
  assert (F0 : ResearchLocation_location_id x = ResearchLocation_location_id y) by (apply (f_equal (get "location_id")) in E; apply (f_equal (fun o => match o with Some t => t | None => TNull end)) in E; refine ((_ : injective TInt) _ _ E); eauto with dump).
  assert (F1 : ResearchLocation_research_time x = ResearchLocation_research_time y) by (apply (f_equal (get "research_time")) in E; apply (f_equal (fun o => match o with Some t => t | None => TNull end)) in E; refine ((_ : injective TInt) _ _ E); eauto with dump).
  assert (F2 : ResearchLocation_button_id x = ResearchLocation_button_id y) by (apply (f_equal (get "button_id")) in E; apply (f_equal (fun o => match o with Some t => t | None => TNull end)) in E; refine ((_ : injective TInt) _ _ E); eauto with dump).
  assert (F3 : ResearchLocation_hot_key_id x = ResearchLocation_hot_key_id y) by (apply (f_equal (get "hot_key_id")) in E; apply (f_equal (fun o => match o with Some t => t | None => TNull end)) in E; refine ((_ : injective TInt) _ _ E); eauto with dump).
  clear E. destruct x, y. cbn in F0, F1, F2, F3. subst. reflexivity.
Qed.
Lemma solid_ResearchLocation : solid ResearchLocation_asdict. Proof. discriminate. Qed.
#[local] Hint Resolve C34_ResearchLocation solid_ResearchLocation : dump.

Theorem C34_Tech_fields : forall x,
  keys (Tech_asdict x) = ["required_techs"; "resource_costs"; "required_tech_count"; "civ"; "full_tech_mode"; "language_dll_name"; "language_dll_description"; "effect_id"; "type"; "icon_id"; "language_dll_help"; "language_dll_tech_tree"; "name"; "repeatable"; "research_locations"] /\
  get "required_techs" (Tech_asdict x) = Some (TList (map TInt (Tech_required_techs x))) /\
  get "resource_costs" (Tech_asdict x) = Some (TList (map ResearchResourceCost_asdict (Tech_resource_costs x))) /\
  get "required_tech_count" (Tech_asdict x) = Some (TInt (Tech_required_tech_count x)) /\
  get "civ" (Tech_asdict x) = Some (TInt (Tech_civ x)) /\
  get "full_tech_mode" (Tech_asdict x) = Some (TInt (Tech_full_tech_mode x)) /\
  get "language_dll_name" (Tech_asdict x) = Some (TInt (Tech_language_dll_name x)) /\
  get "language_dll_description" (Tech_asdict x) = Some (TInt (Tech_language_dll_description x)) /\
  get "effect_id" (Tech_asdict x) = Some (TInt (Tech_effect_id x)) /\
  get "type" (Tech_asdict x) = Some (TInt (Tech_type x)) /\
  get "icon_id" (Tech_asdict x) = Some (TInt (Tech_icon_id x)) /\
  get "language_dll_help" (Tech_asdict x) = Some (TInt (Tech_language_dll_help x)) /\
  get "language_dll_tech_tree" (Tech_asdict x) = Some (TInt (Tech_language_dll_tech_tree x)) /\
  get "name" (Tech_asdict x) = Some (TText (Tech_name x)) /\
  get "repeatable" (Tech_asdict x) = Some (TInt (Tech_repeatable x)) /\
  get "research_locations" (Tech_asdict x) = Some (TList (map ResearchLocation_asdict (Tech_research_locations x))).
Proof. intros x. repeat match goal with |- _ /\ _ => split end; reflexivity. Qed.
Theorem C34_Tech : injective Tech_asdict.
Proof.
  intros x y E.
  assert (F0 : Tech_required_techs x = Tech_required_techs y) by (apply (f_equal (get "required_techs")) in E; apply (f_equal (fun o => match o with Some t => t | None => TNull end)) in E; refine ((_ : injective (fun l => TList (map TInt l))) _ _ E); eauto with dump).
  assert (F1 : Tech_resource_costs x = Tech_resource_costs y) by (apply (f_equal (get "resource_costs")) in E; apply (f_equal (fun o => match o with Some t => t | None => TNull end)) in E; refine ((_ : injective (fun l => TList (map ResearchResourceCost_asdict l))) _ _ E); eauto with dump).
  assert (F2 : Tech_required_tech_count x = Tech_required_tech_count y) by (apply (f_equal (get "required_tech_count")) in E; apply (f_equal (fun o => match o with Some t => t | None => TNull end)) in E; refine ((_ : injective TInt) _ _ E); eauto with dump).
  assert (F3 : Tech_civ x = Tech_civ y) by (apply (f_equal (get "civ")) in E; apply (f_equal (fun o => match o with Some t => t | None => TNull end)) in E; refine ((_ : injective TInt) _ _ E); eauto with dump).
  assert (F4 : Tech_full_tech_mode x = Tech_full_tech_mode y) by (apply (f_equal (get "full_tech_mode")) in E; apply (f_equal (fun o => match o with Some t => t | None => TNull end)) in E; refine ((_ : injective TInt) _ _ E); eauto with dump).
  assert (F5 : Tech_language_dll_name x = Tech_language_dll_name y) by (apply (f_equal (get "language_dll_name")) in E; apply (f_equal (fun o => match o with Some t => t | None => TNull end)) in E; refine ((_ : injective TInt) _ _ E); eauto with dump).
  assert (F6 : Tech_language_dll_description x = Tech_language_dll_description y) by (apply (f_equal (get "language_dll_description")) in E; apply (f_equal (fun o => match o with Some t => t | None => TNull end)) in E; refine ((_ : injective TInt) _ _ E); eauto with dump).
  assert (F7 : Tech_effect_id x = Tech_effect_id y) by (apply (f_equal (get "effect_id")) in E; apply (f_equal (fun o => match o with Some t => t | None => TNull end)) in E; refine ((_ : injective TInt) _ _ E); eauto with dump).
  assert (F8 : Tech_type x = Tech_type y) by (apply (f_equal (get "type")) in E; apply (f_equal (fun o => match o with Some t => t | None => TNull end)) in E; refine ((_ : injective TInt) _ _ E); eauto with dump).
  assert (F9 : Tech_icon_id x = Tech_icon_id y) by (apply (f_equal (get "icon_id")) in E; apply (f_equal (fun o => match o with Some t => t | None => TNull end)) in E; refine ((_ : injective TInt) _ _ E); eauto with dump).
  assert (F10 : Tech_language_dll_help x = Tech_language_dll_help y) by (apply (f_equal (get "language_dll_help")) in E; apply (f_equal (fun o => match o with Some t => t | None => TNull end)) in E; refine ((_ : injective TInt) _ _ E); eauto with dump).
  assert (F11 : Tech_language_dll_tech_tree x = Tech_language_dll_tech_tree y) by (apply (f_equal (get "language_dll_tech_tree")) in E; apply (f_equal (fun o => match o with Some t => t | None => TNull end)) in E; refine ((_ : injective TInt) _ _ E); eauto with dump).
  assert (F12 : Tech_name x = Tech_name y) by (apply (f_equal (get "name")) in E; apply (f_equal (fun o => match o with Some t => t | None => TNull end)) in E; refine ((_ : injective TText) _ _ E); eauto with dump).
  assert (F13 : Tech_repeatable x = Tech_repeatable y) by (apply (f_equal (get "repeatable")) in E; apply (f_equal (fun o => match o with Some t => t | None => TNull end)) in E; refine ((_ : injective TInt) _ _ E); eauto with dump).
  assert (F14 : Tech_research_locations x = Tech_research_locations y) by (apply (f_equal (get "research_locations")) in E; apply (f_equal (fun o => match o with Some t => t | None => TNull end)) in E; refine ((_ : injective (fun l => TList (map ResearchLocation_asdict l))) _ _ E); eauto with dump).
  clear E. destruct x, y. cbn in F0, F1, F2, F3, F4, F5, F6, F7, F8, F9, F10, F11, F12, F13, F14. subst. reflexivity.
Qed.
Lemma solid_Tech : solid Tech_asdict. Proof. discriminate. Qed.
#[local] Hint Resolve C34_Tech solid_Tech : dump.

Theorem C34_Common_fields : forall x,
  keys (Common_asdict x) = ["slots_used"; "unit_research"; "mode"] /\
  get "slots_used" (Common_asdict x) = Some (TInt (Common_slots_used x)) /\
  get "unit_research" (Common_asdict x) = Some (TList (map TInt (Common_unit_research x))) /\
  get "mode" (Common_asdict x) = Some (TList (map TInt (Common_mode x))).
Proof. intros x. repeat match goal with |- _ /\ _ => split end; reflexivity. Qed.
Theorem C34_Common : injective Common_asdict.
Proof.
  intros x y E.
  assert (F0 : Common_slots_used x = Common_slots_used y) by (apply (f_equal (get "slots_used")) in E; apply (f_equal (fun o => match o with Some t => t | None => TNull end)) in E; refine ((_ : injective TInt) _ _ E); eauto with dump).
  assert (F1 : Common_unit_research x = Common_unit_research y) by (apply (f_equal (get "unit_research")) in E; apply (f_equal (fun o => match o with Some t => t | None => TNull end)) in E; refine ((_ : injective (fun l => TList (map TInt l))) _ _ E); eauto with dump).
  assert (F2 : Common_mode x = Common_mode y) by (apply (f_equal (get "mode")) in E; apply (f_equal (fun o => match o with Some t => t | None => TNull end)) in E; refine ((_ : injective (fun l => TList (map TInt l))) _ _ E); eauto with dump).
  clear E. destruct x, y. cbn in F0, F1, F2. subst. reflexivity.
Qed.
Lemma solid_Common : solid Common_asdict. Proof. discriminate. Qed.
#[local] Hint Resolve C34_Common solid_Common : dump.

Theorem C34_TechTreeAge_fields : forall x,
  keys (TechTreeAge_asdict x) = ["id"; "status"; "buildings"; "units"; "techs"; "common"; "num_building_levels"; "buildings_per_zone"; "group_length_per_zone"; "max_age_length"; "line_mode"] /\
  get "id" (TechTreeAge_asdict x) = Some (TInt (TechTreeAge_id x)) /\
  get "status" (TechTreeAge_asdict x) = Some (TInt (TechTreeAge_status x)) /\
  get "buildings" (TechTreeAge_asdict x) = Some (TList (map TInt (TechTreeAge_buildings x))) /\
  get "units" (TechTreeAge_asdict x) = Some (TList (map TInt (TechTreeAge_units x))) /\
  get "techs" (TechTreeAge_asdict x) = Some (TList (map TInt (TechTreeAge_techs x))) /\
  get "common" (TechTreeAge_asdict x) = Some (Common_asdict (TechTreeAge_common x)) /\
  get "num_building_levels" (TechTreeAge_asdict x) = Some (TInt (TechTreeAge_num_building_levels x)) /\
  get "buildings_per_zone" (TechTreeAge_asdict x) = Some (TList (map TInt (TechTreeAge_buildings_per_zone x))) /\
  get "group_length_per_zone" (TechTreeAge_asdict x) = Some (TList (map TInt (TechTreeAge_group_length_per_zone x))) /\
  get "max_age_length" (TechTreeAge_asdict x) = Some (TInt (TechTreeAge_max_age_length x)) /\
  get "line_mode" (TechTreeAge_asdict x) = Some (TInt (TechTreeAge_line_mode x)).
Proof. intros x. repeat match goal with |- _ /\ _ => split end; reflexivity. Qed.
Theorem C34_TechTreeAge : injective TechTreeAge_asdict.
Proof.
  intros x y E.
  assert (F0 : TechTreeAge_id x = TechTreeAge_id y) by (apply (f_equal (get "id")) in E; apply (f_equal (fun o => match o with Some t => t | None => TNull end)) in E; refine ((_ : injective TInt) _ _ E); eauto with dump).
  assert (F1 : TechTreeAge_status x = TechTreeAge_status y) by (apply (f_equal (get "status")) in E; apply (f_equal (fun o => match o with Some t => t | None => TNull end)) in E; refine ((_ : injective TInt) _ _ E); eauto with dump).
  assert (F2 : TechTreeAge_buildings x = TechTreeAge_buildings y) by (apply (f_equal (get "buildings")) in E; apply (f_equal (fun o => match o with Some t => t | None => TNull end)) in E; refine ((_ : injective (fun l => TList (map TInt l))) _ _ E); eauto with dump).
  assert (F3 : TechTreeAge_units x = TechTreeAge_units y) by (apply (f_equal (get "units")) in E; apply (f_equal (fun o => match o with Some t => t | None => TNull end)) in E; refine ((_ : injective (fun l => TList (map TInt l))) _ _ E); eauto with dump).
  assert (F4 : TechTreeAge_techs x = TechTreeAge_techs y) by (apply (f_equal (get "techs")) in E; apply (f_equal (fun o => match o with Some t => t | None => TNull end)) in E; refine ((_ : injective (fun l => TList (map TInt l))) _ _ E); eauto with dump).
  assert (F5 : TechTreeAge_common x = TechTreeAge_common y) by (apply (f_equal (get "common")) in E; apply (f_equal (fun o => match o with Some t => t | None => TNull end)) in E; refine ((_ : injective Common_asdict) _ _ E); eauto with dump).
  assert (F6 : TechTreeAge_num_building_levels x = TechTreeAge_num_building_levels y) by (apply (f_equal (get "num_building_levels")) in E; apply (f_equal (fun o => match o with Some t => t | None => TNull end)) in E; refine ((_ : injective TInt) _ _ E); eauto with dump).
  assert (F7 : TechTreeAge_buildings_per_zone x = TechTreeAge_buildings_per_zone y) by (apply (f_equal (get "buildings_per_zone")) in E; apply (f_equal (fun o => match o with Some t => t | None => TNull end)) in E; refine ((_ : injective (fun l => TList (map TInt l))) _ _ E); eauto with dump).
  assert (F8 : TechTreeAge_group_length_per_zone x = TechTreeAge_group_length_per_zone y) by (apply (f_equal (get "group_length_per_zone")) in E; apply (f_equal (fun o => match o with Some t => t | None => TNull end)) in E; refine ((_ : injective (fun l => TList (map TInt l))) _ _ E); eauto with dump).
  assert (F9 : TechTreeAge_max_age_length x = TechTreeAge_max_age_length y) by (apply (f_equal (get "max_age_length")) in E; apply (f_equal (fun o => match o with Some t => t | None => TNull end)) in E; refine ((_ : injective TInt) _ _ E); eauto with dump).
  assert (F10 : TechTreeAge_line_mode x = TechTreeAge_line_mode y) by (apply (f_equal (get "line_mode")) in E; apply (f_equal (fun o => match o with Some t => t | None => TNull end)) in E; refine ((_ : injective TInt) _ _ E); eauto with dump).
  clear E. destruct x, y. cbn in F0, F1, F2, F3, F4, F5, F6, F7, F8, F9, F10. subst. reflexivity.
Qed.
Lemma solid_TechTreeAge : solid TechTreeAge_asdict. Proof. discriminate. Qed.
#[local] Hint Resolve C34_TechTreeAge solid_TechTreeAge : dump.

Theorem C34_BuildingConnection_fields : forall x,
  keys (BuildingConnection_asdict x) = ["id"; "status"; "buildings"; "units"; "techs"; "common"; "location_in_age"; "units_techs_total"; "units_techs_first"; "line_mode"; "enabling_research"] /\
  get "id" (BuildingConnection_asdict x) = Some (TInt (BuildingConnection_id x)) /\
  get "status" (BuildingConnection_asdict x) = Some (TInt (BuildingConnection_status x)) /\
  get "buildings" (BuildingConnection_asdict x) = Some (TList (map TInt (BuildingConnection_buildings x))) /\
  get "units" (BuildingConnection_asdict x) = Some (TList (map TInt (BuildingConnection_units x))) /\
  get "techs" (BuildingConnection_asdict x) = Some (TList (map TInt (BuildingConnection_techs x))) /\
  get "common" (BuildingConnection_asdict x) = Some (Common_asdict (BuildingConnection_common x)) /\
  get "location_in_age" (BuildingConnection_asdict x) = Some (TInt (BuildingConnection_location_in_age x)) /\
  get "units_techs_total" (BuildingConnection_asdict x) = Some (TList (map TInt (BuildingConnection_units_techs_total x))) /\
  get "units_techs_first" (BuildingConnection_asdict x) = Some (TList (map TInt (BuildingConnection_units_techs_first x))) /\
  get "line_mode" (BuildingConnection_asdict x) = Some (TInt (BuildingConnection_line_mode x)) /\
  get "enabling_research" (BuildingConnection_asdict x) = Some (TInt (BuildingConnection_enabling_research x)).
Proof. intros x. repeat match goal with |- _ /\ _ => split end; reflexivity. Qed.
Theorem C34_BuildingConnection : injective BuildingConnection_asdict.
Proof.
  intros x y E.
  assert (F0 : BuildingConnection_id x = BuildingConnection_id y) by (apply (f_equal (get "id")) in E; apply (f_equal (fun o => match o with Some t => t | None => TNull end)) in E; refine ((_ : injective TInt) _ _ E); eauto with dump).
  assert (F1 : BuildingConnection_status x = BuildingConnection_status y) by (apply (f_equal (get "status")) in E; apply (f_equal (fun o => match o with Some t => t | None => TNull end)) in E; refine ((_ : injective TInt) _ _ E); eauto with dump).
  assert (F2 : BuildingConnection_buildings x = BuildingConnection_buildings y) by (apply (f_equal (get "buildings")) in E; apply (f_equal (fun o => match o with Some t => t | None => TNull end)) in E; refine ((_ : injective (fun l => TList (map TInt l))) _ _ E); eauto with dump).
  assert (F3 : BuildingConnection_units x = BuildingConnection_units y) by (apply (f_equal (get "units")) in E; apply (f_equal (fun o => match o with Some t => t | None => TNull end)) in E; refine ((_ : injective (fun l => TList (map TInt l))) _ _ E); eauto with dump).
  assert (F4 : BuildingConnection_techs x = BuildingConnection_techs y) by (apply (f_equal (get "techs")) in E; apply (f_equal (fun o => match o with Some t => t | None => TNull end)) in E; refine ((_ : injective (fun l => TList (map TInt l))) _ _ E); eauto with dump).
  assert (F5 : BuildingConnection_common x = BuildingConnection_common y) by (apply (f_equal (get "common")) in E; apply (f_equal (fun o => match o with Some t => t | None => TNull end)) in E; refine ((_ : injective Common_asdict) _ _ E); eauto with dump).
  assert (F6 : BuildingConnection_location_in_age x = BuildingConnection_location_in_age y) by (apply (f_equal (get "location_in_age")) in E; apply (f_equal (fun o => match o with Some t => t | None => TNull end)) in E; refine ((_ : injective TInt) _ _ E); eauto with dump).
  assert (F7 : BuildingConnection_units_techs_total x = BuildingConnection_units_techs_total y) by (apply (f_equal (get "units_techs_total")) in E; apply (f_equal (fun o => match o with Some t => t | None => TNull end)) in E; refine ((_ : injective (fun l => TList (map TInt l))) _ _ E); eauto with dump).
  assert (F8 : BuildingConnection_units_techs_first x = BuildingConnection_units_techs_first y) by (apply (f_equal (get "units_techs_first")) in E; apply (f_equal (fun o => match o with Some t => t | None => TNull end)) in E; refine ((_ : injective (fun l => TList (map TInt l))) _ _ E); eauto with dump).
  assert (F9 : BuildingConnection_line_mode x = BuildingConnection_line_mode y) by (apply (f_equal (get "line_mode")) in E; apply (f_equal (fun o => match o with Some t => t | None => TNull end)) in E; refine ((_ : injective TInt) _ _ E); eauto with dump).
  assert (F10 : BuildingConnection_enabling_research x = BuildingConnection_enabling_research y) by (apply (f_equal (get "enabling_research")) in E; apply (f_equal (fun o => match o with Some t => t | None => TNull end)) in E; refine ((_ : injective TInt) _ _ E); eauto with dump).
  clear E. destruct x, y. cbn in F0, F1, F2, F3, F4, F5, F6, F7, F8, F9, F10. subst. reflexivity.
Qed.
Lemma solid_BuildingConnection : solid BuildingConnection_asdict. Proof. discriminate. Qed.
#[local] Hint Resolve C34_BuildingConnection solid_BuildingConnection : dump.

Theorem C34_UnitConnection_fields : forall x,
  keys (UnitConnection_asdict x) = ["id"; "status"; "upper_building"; "common"; "vertical_line"; "units"; "location_in_age"; "required_research"; "line_mode"; "enabling_research"] /\
  get "id" (UnitConnection_asdict x) = Some (TInt (UnitConnection_id x)) /\
  get "status" (UnitConnection_asdict x) = Some (TInt (UnitConnection_status x)) /\
  get "upper_building" (UnitConnection_asdict x) = Some (TInt (UnitConnection_upper_building x)) /\
  get "common" (UnitConnection_asdict x) = Some (Common_asdict (UnitConnection_common x)) /\
  get "vertical_line" (UnitConnection_asdict x) = Some (TInt (UnitConnection_vertical_line x)) /\
  get "units" (UnitConnection_asdict x) = Some (TList (map TInt (UnitConnection_units x))) /\
  get "location_in_age" (UnitConnection_asdict x) = Some (TInt (UnitConnection_location_in_age x)) /\
  get "required_research" (UnitConnection_asdict x) = Some (TInt (UnitConnection_required_research x)) /\
  get "line_mode" (UnitConnection_asdict x) = Some (TInt (UnitConnection_line_mode x)) /\
  get "enabling_research" (UnitConnection_asdict x) = Some (TInt (UnitConnection_enabling_research x)).
Proof. intros x. repeat match goal with |- _ /\ _ => split end; reflexivity. Qed.
Theorem C34_UnitConnection : injective UnitConnection_asdict.
Proof.
  intros x y E.
  assert (F0 : UnitConnection_id x = UnitConnection_id y) by (apply (f_equal (get "id")) in E; apply (f_equal (fun o => match o with Some t => t | None => TNull end)) in E; refine ((_ : injective TInt) _ _ E); eauto with dump).
  assert (F1 : UnitConnection_status x = UnitConnection_status y) by (apply (f_equal (get "status")) in E; apply (f_equal (fun o => match o with Some t => t | None => TNull end)) in E; refine ((_ : injective TInt) _ _ E); eauto with dump).
  assert (F2 : UnitConnection_upper_building x = UnitConnection_upper_building y) by (apply (f_equal (get "upper_building")) in E; apply (f_equal (fun o => match o with Some t => t | None => TNull end)) in E; refine ((_ : injective TInt) _ _ E); eauto with dump).
  assert (F3 : UnitConnection_common x = UnitConnection_common y) by (apply (f_equal (get "common")) in E; apply (f_equal (fun o => match o with Some t => t | None => TNull end)) in E; refine ((_ : injective Common_asdict) _ _ E); eauto with dump).
  assert (F4 : UnitConnection_vertical_line x = UnitConnection_vertical_line y) by (apply (f_equal (get "vertical_line")) in E; apply (f_equal (fun o => match o with Some t => t | None => TNull end)) in E; refine ((_ : injective TInt) _ _ E); eauto with dump).
  assert (F5 : UnitConnection_units x = UnitConnection_units y) by (apply (f_equal (get "units")) in E; apply (f_equal (fun o => match o with Some t => t | None => TNull end)) in E; refine ((_ : injective (fun l => TList (map TInt l))) _ _ E); eauto with dump).
  assert (F6 : UnitConnection_location_in_age x = UnitConnection_location_in_age y) by (apply (f_equal (get "location_in_age")) in E; apply (f_equal (fun o => match o with Some t => t | None => TNull end)) in E; refine ((_ : injective TInt) _ _ E); eauto with dump).
  assert (F7 : UnitConnection_required_research x = UnitConnection_required_research y) by (apply (f_equal (get "required_research")) in E; apply (f_equal (fun o => match o with Some t => t | None => TNull end)) in E; refine ((_ : injective TInt) _ _ E); eauto with dump).
  assert (F8 : UnitConnection_line_mode x = UnitConnection_line_mode y) by (apply (f_equal (get "line_mode")) in E; apply (f_equal (fun o => match o with Some t => t | None => TNull end)) in E; refine ((_ : injective TInt) _ _ E); eauto with dump).
  assert (F9 : UnitConnection_enabling_research x = UnitConnection_enabling_research y) by (apply (f_equal (get "enabling_research")) in E; apply (f_equal (fun o => match o with Some t => t | None => TNull end)) in E; refine ((_ : injective TInt) _ _ E); eauto with dump).
  clear E. destruct x, y. cbn in F0, F1, F2, F3, F4, F5, F6, F7, F8, F9. subst. reflexivity.
Qed.
Lemma solid_UnitConnection : solid UnitConnection_asdict. Proof. discriminate. Qed.
#[local] Hint Resolve C34_UnitConnection solid_UnitConnection : dump.

Theorem C34_ResearchConnection_fields : forall x,
  keys (ResearchConnection_asdict x) = ["id"; "status"; "upper_building"; "buildings"; "units"; "techs"; "common"; "vertical_line"; "location_in_age"; "line_mode"] /\
  get "id" (ResearchConnection_asdict x) = Some (TInt (ResearchConnection_id x)) /\
  get "status" (ResearchConnection_asdict x) = Some (TInt (ResearchConnection_status x)) /\
  get "upper_building" (ResearchConnection_asdict x) = Some (TInt (ResearchConnection_upper_building x)) /\
  get "buildings" (ResearchConnection_asdict x) = Some (TList (map TInt (ResearchConnection_buildings x))) /\
  get "units" (ResearchConnection_asdict x) = Some (TList (map TInt (ResearchConnection_units x))) /\
  get "techs" (ResearchConnection_asdict x) = Some (TList (map TInt (ResearchConnection_techs x))) /\
  get "common" (ResearchConnection_asdict x) = Some (Common_asdict (ResearchConnection_common x)) /\
  get "vertical_line" (ResearchConnection_asdict x) = Some (TInt (ResearchConnection_vertical_line x)) /\
  get "location_in_age" (ResearchConnection_asdict x) = Some (TInt (ResearchConnection_location_in_age x)) /\
  get "line_mode" (ResearchConnection_asdict x) = Some (TInt (ResearchConnection_line_mode x)).
Proof. intros x. repeat match goal with |- _ /\ _ => split end; reflexivity. Qed.
Theorem C34_ResearchConnection : injective ResearchConnection_asdict.
Proof.
  intros x y E.
  assert (F0 : ResearchConnection_id x = ResearchConnection_id y) by (apply (f_equal (get "id")) in E; apply (f_equal (fun o => match o with Some t => t | None => TNull end)) in E; refine ((_ : injective TInt) _ _ E); eauto with dump).
  assert (F1 : ResearchConnection_status x = ResearchConnection_status y) by (apply (f_equal (get "status")) in E; apply (f_equal (fun o => match o with Some t => t | None => TNull end)) in E; refine ((_ : injective TInt) _ _ E); eauto with dump).
  assert (F2 : ResearchConnection_upper_building x = ResearchConnection_upper_building y) by (apply (f_equal (get "upper_building")) in E; apply (f_equal (fun o => match o with Some t => t | None => TNull end)) in E; refine ((_ : injective TInt) _ _ E); eauto with dump).
  assert (F3 : ResearchConnection_buildings x = ResearchConnection_buildings y) by (apply (f_equal (get "buildings")) in E; apply (f_equal (fun o => match o with Some t => t | None => TNull end)) in E; refine ((_ : injective (fun l => TList (map TInt l))) _ _ E); eauto with dump).
  assert (F4 : ResearchConnection_units x = ResearchConnection_units y) by (apply (f_equal (get "units")) in E; apply (f_equal (fun o => match o with Some t => t | None => TNull end)) in E; refine ((_ : injective (fun l => TList (map TInt l))) _ _ E); eauto with dump).
  assert (F5 : ResearchConnection_techs x = ResearchConnection_techs y) by (apply (f_equal (get "techs")) in E; apply (f_equal (fun o => match o with Some t => t | None => TNull end)) in E; refine ((_ : injective (fun l => TList (map TInt l))) _ _ E); eauto with dump).
  assert (F6 : ResearchConnection_common x = ResearchConnection_common y) by (apply (f_equal (get "common")) in E; apply (f_equal (fun o => match o with Some t => t | None => TNull end)) in E; refine ((_ : injective Common_asdict) _ _ E); eauto with dump).
  assert (F7 : ResearchConnection_vertical_line x = ResearchConnection_vertical_line y) by (apply (f_equal (get "vertical_line")) in E; apply (f_equal (fun o => match o with Some t => t | None => TNull end)) in E; refine ((_ : injective TInt) _ _ E); eauto with dump).
  assert (F8 : ResearchConnection_location_in_age x = ResearchConnection_location_in_age y) by (apply (f_equal (get "location_in_age")) in E; apply (f_equal (fun o => match o with Some t => t | None => TNull end)) in E; refine ((_ : injective TInt) _ _ E); eauto with dump).
  assert (F9 : ResearchConnection_line_mode x = ResearchConnection_line_mode y) by (apply (f_equal (get "line_mode")) in E; apply (f_equal (fun o => match o with Some t => t | None => TNull end)) in E; refine ((_ : injective TInt) _ _ E); eauto with dump).
  clear E. destruct x, y. cbn in F0, F1, F2, F3, F4, F5, F6, F7, F8, F9. subst. reflexivity.
Qed.
Lemma solid_ResearchConnection : solid ResearchConnection_asdict. Proof. discriminate. Qed.
#[local] Hint Resolve C34_ResearchConnection solid_ResearchConnection : dump.

Theorem C34_TechTree_fields : forall x,
  keys (TechTree_asdict x) = ["total_unit_tech_groups"; "tech_tree_ages"; "building_connections"; "unit_connections"; "research_connections"] /\
  get "total_unit_tech_groups" (TechTree_asdict x) = Some (TInt (TechTree_total_unit_tech_groups x)) /\
  get "tech_tree_ages" (TechTree_asdict x) = Some (TList (map TechTreeAge_asdict (TechTree_tech_tree_ages x))) /\
  get "building_connections" (TechTree_asdict x) = Some (TList (map BuildingConnection_asdict (TechTree_building_connections x))) /\
  get "unit_connections" (TechTree_asdict x) = Some (TList (map UnitConnection_asdict (TechTree_unit_connections x))) /\
  get "research_connections" (TechTree_asdict x) = Some (TList (map ResearchConnection_asdict (TechTree_research_connections x))).
Proof. intros x. repeat match goal with |- _ /\ _ => split end; reflexivity. Qed.
Theorem C34_TechTree : injective TechTree_asdict.
Proof.
  intros x y E.
  assert (F0 : TechTree_total_unit_tech_groups x = TechTree_total_unit_tech_groups y) by (apply (f_equal (get "total_unit_tech_groups")) in E; apply (f_equal (fun o => match o with Some t => t | None => TNull end)) in E; refine ((_ : injective TInt) _ _ E); eauto with dump).
  assert (F1 : TechTree_tech_tree_ages x = TechTree_tech_tree_ages y) by (apply (f_equal (get "tech_tree_ages")) in E; apply (f_equal (fun o => match o with Some t => t | None => TNull end)) in E; refine ((_ : injective (fun l => TList (map TechTreeAge_asdict l))) _ _ E); eauto with dump).
  assert (F2 : TechTree_building_connections x = TechTree_building_connections y) by (apply (f_equal (get "building_connections")) in E; apply (f_equal (fun o => match o with Some t => t | None => TNull end)) in E; refine ((_ : injective (fun l => TList (map BuildingConnection_asdict l))) _ _ E); eauto with dump).
  assert (F3 : TechTree_unit_connections x = TechTree_unit_connections y) by (apply (f_equal (get "unit_connections")) in E; apply (f_equal (fun o => match o with Some t => t | None => TNull end)) in E; refine ((_ : injective (fun l => TList (map UnitConnection_asdict l))) _ _ E); eauto with dump).
  assert (F4 : TechTree_research_connections x = TechTree_research_connections y) by (apply (f_equal (get "research_connections")) in E; apply (f_equal (fun o => match o with Some t => t | None => TNull end)) in E; refine ((_ : injective (fun l => TList (map ResearchConnection_asdict l))) _ _ E); eauto with dump).
  clear E. destruct x, y. cbn in F0, F1, F2, F3, F4. subst. reflexivity.
Qed.
Lemma solid_TechTree : solid TechTree_asdict. Proof. discriminate. Qed.
#[local] Hint Resolve C34_TechTree solid_TechTree : dump.

Theorem C34_DatFile_fields : forall x,
  keys (DatFile_asdict x) = ["version"; "float_ptr_terrain_tables"; "terrain_pass_graphic_pointers"; "terrain_restrictions"; "player_colours"; "sounds"; "graphics"; "terrain_block"; "random_maps"; "effects"; "unit_headers"; "civs"; "techs"; "time_slice"; "unit_kill_rate"; "unit_kill_total"; "unit_hit_point_rate"; "unit_hit_point_total"; "razing_kill_rate"; "razing_kill_total"; "tech_tree"] /\
  get "version" (DatFile_asdict x) = Some (TText (DatFile_version x)) /\
  get "float_ptr_terrain_tables" (DatFile_asdict x) = Some (TList (map TInt (DatFile_float_ptr_terrain_tables x))) /\
  get "terrain_pass_graphic_pointers" (DatFile_asdict x) = Some (TList (map TInt (DatFile_terrain_pass_graphic_pointers x))) /\
  get "terrain_restrictions" (DatFile_asdict x) = Some (TList (map TerrainRestriction_asdict (DatFile_terrain_restrictions x))) /\
  get "player_colours" (DatFile_asdict x) = Some (TList (map PlayerColour_asdict (DatFile_player_colours x))) /\
  get "sounds" (DatFile_asdict x) = Some (TList (map Sound_asdict (DatFile_sounds x))) /\
  get "graphics" (DatFile_asdict x) = Some (TList (map (of_option Graphic_asdict) (DatFile_graphics x))) /\
  get "terrain_block" (DatFile_asdict x) = Some (TerrainBlock_asdict (DatFile_terrain_block x)) /\
  get "random_maps" (DatFile_asdict x) = Some (RandomMaps_asdict (DatFile_random_maps x)) /\
  get "effects" (DatFile_asdict x) = Some (TList (map Effect_asdict (DatFile_effects x))) /\
  get "unit_headers" (DatFile_asdict x) = Some (TList (map UnitHeaders_asdict (DatFile_unit_headers x))) /\
  get "civs" (DatFile_asdict x) = Some (TList (map Civ_asdict (DatFile_civs x))) /\
  get "techs" (DatFile_asdict x) = Some (TList (map Tech_asdict (DatFile_techs x))) /\
  get "time_slice" (DatFile_asdict x) = Some (TInt (DatFile_time_slice x)) /\
  get "unit_kill_rate" (DatFile_asdict x) = Some (TInt (DatFile_unit_kill_rate x)) /\
  get "unit_kill_total" (DatFile_asdict x) = Some (TInt (DatFile_unit_kill_total x)) /\
  get "unit_hit_point_rate" (DatFile_asdict x) = Some (TInt (DatFile_unit_hit_point_rate x)) /\
  get "unit_hit_point_total" (DatFile_asdict x) = Some (TInt (DatFile_unit_hit_point_total x)) /\
  get "razing_kill_rate" (DatFile_asdict x) = Some (TInt (DatFile_razing_kill_rate x)) /\
  get "razing_kill_total" (DatFile_asdict x) = Some (TInt (DatFile_razing_kill_total x)) /\
  get "tech_tree" (DatFile_asdict x) = Some (TechTree_asdict (DatFile_tech_tree x)).
Proof. intros x. repeat match goal with |- _ /\ _ => split end; reflexivity. Qed.
Theorem C34_DatFile : injective DatFile_asdict.
Proof.
  intros x y E.
  assert (F0 : DatFile_version x = DatFile_version y) by (apply (f_equal (get "version")) in E; apply (f_equal (fun o => match o with Some t => t | None => TNull end)) in E; refine ((_ : injective TText) _ _ E); eauto with dump).
  assert (F1 : DatFile_float_ptr_terrain_tables x = DatFile_float_ptr_terrain_tables y) by (apply (f_equal (get "float_ptr_terrain_tables")) in E; apply (f_equal (fun o => match o with Some t => t | None => TNull end)) in E; refine ((_ : injective (fun l => TList (map TInt l))) _ _ E); eauto with dump).
  assert (F2 : DatFile_terrain_pass_graphic_pointers x = DatFile_terrain_pass_graphic_pointers y) by (apply (f_equal (get "terrain_pass_graphic_pointers")) in E; apply (f_equal (fun o => match o with Some t => t | None => TNull end)) in E; refine ((_ : injective (fun l => TList (map TInt l))) _ _ E); eauto with dump).
  assert (F3 : DatFile_terrain_restrictions x = DatFile_terrain_restrictions y) by (apply (f_equal (get "terrain_restrictions")) in E; apply (f_equal (fun o => match o with Some t => t | None => TNull end)) in E; refine ((_ : injective (fun l => TList (map TerrainRestriction_asdict l))) _ _ E); eauto with dump).
  assert (F4 : DatFile_player_colours x = DatFile_player_colours y) by (apply (f_equal (get "player_colours")) in E; apply (f_equal (fun o => match o with Some t => t | None => TNull end)) in E; refine ((_ : injective (fun l => TList (map PlayerColour_asdict l))) _ _ E); eauto with dump).
  assert (F5 : DatFile_sounds x = DatFile_sounds y) by (apply (f_equal (get "sounds")) in E; apply (f_equal (fun o => match o with Some t => t | None => TNull end)) in E; refine ((_ : injective (fun l => TList (map Sound_asdict l))) _ _ E); eauto with dump).
  assert (F6 : DatFile_graphics x = DatFile_graphics y) by (apply (f_equal (get "graphics")) in E; apply (f_equal (fun o => match o with Some t => t | None => TNull end)) in E; refine ((_ : injective (fun l => TList (map (of_option Graphic_asdict) l))) _ _ E); eauto with dump).
  assert (F7 : DatFile_terrain_block x = DatFile_terrain_block y) by (apply (f_equal (get "terrain_block")) in E; apply (f_equal (fun o => match o with Some t => t | None => TNull end)) in E; refine ((_ : injective TerrainBlock_asdict) _ _ E); eauto with dump).
  assert (F8 : DatFile_random_maps x = DatFile_random_maps y) by (apply (f_equal (get "random_maps")) in E; apply (f_equal (fun o => match o with Some t => t | None => TNull end)) in E; refine ((_ : injective RandomMaps_asdict) _ _ E); eauto with dump).
  assert (F9 : DatFile_effects x = DatFile_effects y) by (apply (f_equal (get "effects")) in E; apply (f_equal (fun o => match o with Some t => t | None => TNull end)) in E; refine ((_ : injective (fun l => TList (map Effect_asdict l))) _ _ E); eauto with dump).
  assert (F10 : DatFile_unit_headers x = DatFile_unit_headers y) by (apply (f_equal (get "unit_headers")) in E; apply (f_equal (fun o => match o with Some t => t | None => TNull end)) in E; refine ((_ : injective (fun l => TList (map UnitHeaders_asdict l))) _ _ E); eauto with dump).
  assert (F11 : DatFile_civs x = DatFile_civs y) by (apply (f_equal (get "civs")) in E; apply (f_equal (fun o => match o with Some t => t | None => TNull end)) in E; refine ((_ : injective (fun l => TList (map Civ_asdict l))) _ _ E); eauto with dump).
  assert (F12 : DatFile_techs x = DatFile_techs y) by (apply (f_equal (get "techs")) in E; apply (f_equal (fun o => match o with Some t => t | None => TNull end)) in E; refine ((_ : injective (fun l => TList (map Tech_asdict l))) _ _ E); eauto with dump).
  assert (F13 : DatFile_time_slice x = DatFile_time_slice y) by (apply (f_equal (get "time_slice")) in E; apply (f_equal (fun o => match o with Some t => t | None => TNull end)) in E; refine ((_ : injective TInt) _ _ E); eauto with dump).
  assert (F14 : DatFile_unit_kill_rate x = DatFile_unit_kill_rate y) by (apply (f_equal (get "unit_kill_rate")) in E; apply (f_equal (fun o => match o with Some t => t | None => TNull end)) in E; refine ((_ : injective TInt) _ _ E); eauto with dump).
  assert (F15 : DatFile_unit_kill_total x = DatFile_unit_kill_total y) by (apply (f_equal (get "unit_kill_total")) in E; apply (f_equal (fun o => match o with Some t => t | None => TNull end)) in E; refine ((_ : injective TInt) _ _ E); eauto with dump).
  assert (F16 : DatFile_unit_hit_point_rate x = DatFile_unit_hit_point_rate y) by (apply (f_equal (get "unit_hit_point_rate")) in E; apply (f_equal (fun o => match o with Some t => t | None => TNull end)) in E; refine ((_ : injective TInt) _ _ E); eauto with dump).
  assert (F17 : DatFile_unit_hit_point_total x = DatFile_unit_hit_point_total y) by (apply (f_equal (get "unit_hit_point_total")) in E; apply (f_equal (fun o => match o with Some t => t | None => TNull end)) in E; refine ((_ : injective TInt) _ _ E); eauto with dump).
  assert (F18 : DatFile_razing_kill_rate x = DatFile_razing_kill_rate y) by (apply (f_equal (get "razing_kill_rate")) in E; apply (f_equal (fun o => match o with Some t => t | None => TNull end)) in E; refine ((_ : injective TInt) _ _ E); eauto with dump).
  assert (F19 : DatFile_razing_kill_total x = DatFile_razing_kill_total y) by (apply (f_equal (get "razing_kill_total")) in E; apply (f_equal (fun o => match o with Some t => t | None => TNull end)) in E; refine ((_ : injective TInt) _ _ E); eauto with dump).
  assert (F20 : DatFile_tech_tree x = DatFile_tech_tree y) by (apply (f_equal (get "tech_tree")) in E; apply (f_equal (fun o => match o with Some t => t | None => TNull end)) in E; refine ((_ : injective TechTree_asdict) _ _ E); eauto with dump).
  clear E. destruct x, y. cbn in F0, F1, F2, F3, F4, F5, F6, F7, F8, F9, F10, F11, F12, F13, F14, F15, F16, F17, F18, F19, F20. subst. reflexivity.
Qed.
Lemma solid_DatFile : solid DatFile_asdict. Proof. discriminate. Qed.
#[local] Hint Resolve C34_DatFile solid_DatFile : dump.

(** What the tool dumps of a loaded file ([shown]): from 8.4 on the dictionary of its fields; before, the
    same with the int 0 for each [invulnerability_level], which was 0.0. *)
Theorem C34_new : forall x v, file_version (DatFile_version x) = Some v -> since 84 v = true -> shown x = DatFile_asdict x.
Proof. intros x v F N. rewrite (shown_at x v F), N. reflexivity. Qed.
Theorem C34_old : forall x v, DatFile_wf x -> file_version (DatFile_version x) = Some v -> since 84 v = false ->
  shown x = int_levels (DatFile_asdict x) /\ float_levels (shown x) = DatFile_asdict x.
Proof.
  intros x v W F O. rewrite (shown_at x v F), O. split; [reflexivity|]. destruct (shown_wf x W) as (v' & F' & S). assert (v' = v) by congruence. subst v'. apply (settled_DatFile v x O S).
Qed.
(** It determines the loaded object ... *)
Theorem C34_shown : forall x y, DatFile_wf x -> DatFile_wf y -> shown x = shown y -> x = y.
Proof. intros x y Wx Wy E. apply C34_DatFile, (shown_asdict x y Wx Wy E). Qed.
Lemma parse_wf inflate f p x : parse inflate f p = Ok x -> DatFile_wf x.
Proof. unfold parse. destruct (f p) as [c|]; [|discriminate]. destruct (inflate c) as [d|]; [|discriminate]. apply from_bytes_wf. Qed.
Theorem C34_dump : forall inflate f g p q t, dat_to_json inflate f p = Ok t -> dat_to_json inflate g q = Ok t ->
  exists x, parse inflate f p = Ok x /\ parse inflate g q = Ok x /\ t = shown x.
Proof.
  intros inflate f g p q t H K. unfold dat_to_json in *.
  destruct (parse inflate f p) as [x|] eqn:P; [|discriminate]. destruct (parse inflate g q) as [y|] eqn:Q; [|discriminate].
  cbn [rbind] in *. assert (Hx : t = shown x) by congruence. assert (Hy : t = shown y) by congruence.
  exists x. split; [reflexivity|]. split; [|exact Hx]. rewrite (C34_shown x y (parse_wf _ _ _ _ P) (parse_wf _ _ _ _ Q)) by congruence. reflexivity.
Qed.
(** ... and, for files that load without loss and without rest, the uncompressed file itself. *)
Theorem C34_bytes : forall bs cs x y h k, DatFile_from_bytes (new_handler bs) = Ok (x, h) -> DatFile_from_bytes (new_handler cs) = Ok (y, k) ->
  h_losses h = [] -> h_offset h = List.length bs -> h_losses k = [] -> h_offset k = List.length cs ->
  shown x = shown y -> bs = cs.
Proof.
  intros bs cs x y h k Ex Ey L1 O1 L2 O2 E. apply C34_shown in E; [|apply (from_bytes_wf bs); unfold from_bytes; rewrite Ex; reflexivity|apply (from_bytes_wf cs); unfold from_bytes; rewrite Ey; reflexivity]. subst y.
  pose proof (proj1 (C04_byte_exact_whole _ _ _ Ex) (conj L1 O1)). pose proof (proj1 (C04_byte_exact_whole _ _ _ Ey) (conj L2 O2)). congruence.
Qed.
(** The tool fails exactly as loading does. *)
Theorem C34_errors : forall inflate f p e, dat_to_json inflate f p = Err e <-> parse inflate f p = Err e.
Proof. intros inflate f p e. unfold dat_to_json. destruct (parse inflate f p); cbn [rbind]; split; congruence. Qed.
Lemma get_time_slice x : get "time_slice" (shown x) = Some (TInt (DatFile_time_slice x)).
Proof. unfold shown. destruct (version_lookup (DatFile_version x)) as [v|]; [destruct (version_ge v VER_84)|]; reflexivity. Qed.
Example C34_case : forall v f p, v <> UNDEFINED -> exists f' t, saved store (sample v) p f f' /\ dat_to_json unstore f' p = Ok t
  /\ get "time_slice" t = Some (TInt (DatFile_time_slice (sample v))).
Proof.
  intros v f p H. destruct (C27_case v f p H) as (f' & S & P). exists f', (shown (sample v)). split; [exact S|].
  split; [unfold dat_to_json; rewrite P; reflexivity|]. apply get_time_slice.
Qed.
(** The two differ: the sample of 7.8 has a unit with this section. *)
Example C34_case_old : int_levels (DatFile_asdict (sample VER_78)) <> DatFile_asdict (sample VER_78) /\ since 84 VER_78 = false /\ file_version (DatFile_version (sample VER_78)) = Some VER_78.
Proof.
  split; [|split; reflexivity]. intros E. apply (f_equal (fun t => match get "civs" t with Some (TList (c :: _)) => match get "units" c with
    Some (TList l) => map (fun u => match get "creatable" u with Some c => get "invulnerability_level" c | None => None end) l | _ => [] end | _ => [] end)) in E. vm_compute in E. discriminate E.
Qed.
Definition all_of_this_file := (C34_SoundItem_fields, C34_SoundItem, C34_Sound_fields, C34_Sound, C34_PlayerColour_fields, C34_PlayerColour, C34_EffectCommand_fields, C34_EffectCommand, C34_Effect_fields, C34_Effect, C34_TerrainPassGraphic_fields, C34_TerrainPassGraphic, C34_TerrainRestriction_fields, C34_TerrainRestriction, C34_GraphicDelta_fields, C34_GraphicDelta, C34_GraphicAngleSound_fields, C34_GraphicAngleSound, C34_Graphic_fields, C34_Graphic, C34_FrameData_fields, C34_FrameData, C34_Terrain_fields, C34_Terrain, C34_TileSize_fields, C34_TileSize, C34_TerrainBlock_fields, C34_TerrainBlock, C34_MapUnit_fields, C34_MapUnit, C34_MapTerrain_fields, C34_MapTerrain, C34_MapLand_fields, C34_MapLand, C34_MapElevation_fields, C34_MapElevation, C34_MapInfo_fields, C34_MapInfo, C34_RandomMaps_fields, C34_RandomMaps, C34_Task_fields, C34_Task, C34_UnitHeaders_fields, C34_UnitHeaders, C34_ResourceStorage_fields, C34_ResourceStorage, C34_DamageGraphic_fields, C34_DamageGraphic, C34_DeadFish_fields, C34_DeadFish, C34_Bird_fields, C34_Bird, C34_AttackOrArmor_fields, C34_AttackOrArmor, C34_Type50_fields, C34_Type50, C34_Projectile_fields, C34_Projectile, C34_ResourceCost_fields, C34_ResourceCost, C34_TrainLocation_fields, C34_TrainLocation, C34_Creatable_fields, C34_Creatable, C34_BuildingAnnex_fields, C34_BuildingAnnex, C34_Building_fields, C34_Building, C34_Unit_fields, C34_Unit, C34_Civ_fields, C34_Civ, C34_ResearchResourceCost_fields, C34_ResearchResourceCost, C34_ResearchLocation_fields, C34_ResearchLocation, C34_Tech_fields, C34_Tech, C34_Common_fields, C34_Common, C34_TechTreeAge_fields, C34_TechTreeAge, C34_BuildingConnection_fields, C34_BuildingConnection, C34_UnitConnection_fields, C34_UnitConnection, C34_ResearchConnection_fields, C34_ResearchConnection, C34_TechTree_fields, C34_TechTree, C34_DatFile_fields, C34_DatFile, C34_new, C34_old, C34_shown, C34_dump, C34_bytes, C34_errors, C34_case).
Print Assumptions all_of_this_file.
