(** * The comparison [==] of two objects: the [__eq__] that [@dataclass(slots=True)] generates.

    Generated by tools/gen_equal.py from the dataclass declarations in /repo.  The generated
    method compares the fields in the order of declaration as tuples: integers and texts by
    value, floats by IEEE 754 [==], lists item by item after their lengths, [None] with [None]
    only.  Simplifications: both operands have the field types that loading gives (a list against
    a tuple is unequal in Python); Python takes two references to one and the same object as
    equal without comparing, which matters for NaN only: [struct.unpack] makes a new float object
    each time, so two loads never share one.  [x == x] on one and the same Python object is True
    always and is not what is modelled here. *)
From Verif Require Import Base PyFloat PyStr.
From Verif Require Import M_Sound M_PlayerColour M_Effect M_TerrainRestriction M_Graphic
  M_TerrainBlock M_RandomMaps M_Task M_UnitHeaders M_Unit M_Civ M_Tech M_TechTree M_DatFile.
Open Scope Z_scope.
Local Open Scope list_scope.

(** [int == int] *)
Definition int_eq (a b : Z) : bool := a =? b.
(** [float == float]: a NaN is unequal to everything, the two zeros are equal, all else is equal
    only to itself. *)
Definition is_nan (x : f64) : bool := (f64_exp (f64_bits x) =? 2047) && negb (f64_man (f64_bits x) =? 0).
Definition is_zero (x : f64) : bool := (f64_exp (f64_bits x) =? 0) && (f64_man (f64_bits x) =? 0).
Definition float_eq (x y : f64) : bool :=
  negb (is_nan x) && negb (is_nan y) && (f64_eqb x y || (is_zero x && is_zero y)).
(** [tuple == tuple]: the results for the items *)
Definition tuple_eq (l : list bool) : bool := fold_right andb true l.
(** [str == str], [list == list], [Optional] *)
Fixpoint list_eq {A} (f : A -> A -> bool) (l m : list A) : bool :=
  match l, m with
  | [], [] => true
  | a :: l, b :: m => f a b && list_eq f l m
  | _, _ => false
  end.
Definition str_eq (a b : pystr) : bool := list_eq Z.eqb a b.
Definition option_eq {A} (f : A -> A -> bool) (a b : option A) : bool :=
  match a, b with Some a, Some b => f a b | None, None => true | _, _ => false end.

(** sound.py:9-13 *)
Definition SoundItem_eq (x y : SoundItem) : bool := tuple_eq [
  str_eq (SoundItem_filename x) (SoundItem_filename y);
  int_eq (SoundItem_resource_id x) (SoundItem_resource_id y);
  int_eq (SoundItem_probability x) (SoundItem_probability y);
  int_eq (SoundItem_civilization x) (SoundItem_civilization y);
  int_eq (SoundItem_icon_set x) (SoundItem_icon_set y)].
(** sound.py:37-41 *)
Definition Sound_eq (x y : Sound) : bool := tuple_eq [
  int_eq (Sound_id x) (Sound_id y);
  int_eq (Sound_play_delay x) (Sound_play_delay y);
  int_eq (Sound_cache_time x) (Sound_cache_time y);
  int_eq (Sound_total_probability x) (Sound_total_probability y);
  list_eq SoundItem_eq (Sound_items x) (Sound_items y)].
(** playercolour.py:9-17 *)
Definition PlayerColour_eq (x y : PlayerColour) : bool := tuple_eq [
  int_eq (PlayerColour_id x) (PlayerColour_id y);
  int_eq (PlayerColour_player_color_base x) (PlayerColour_player_color_base y);
  int_eq (PlayerColour_unit_outline_color x) (PlayerColour_unit_outline_color y);
  int_eq (PlayerColour_unit_selection_color_1 x) (PlayerColour_unit_selection_color_1 y);
  int_eq (PlayerColour_unit_selection_color_2 x) (PlayerColour_unit_selection_color_2 y);
  int_eq (PlayerColour_minimap_color x) (PlayerColour_minimap_color y);
  int_eq (PlayerColour_minimap_color_2 x) (PlayerColour_minimap_color_2 y);
  int_eq (PlayerColour_minimap_color_3 x) (PlayerColour_minimap_color_3 y);
  int_eq (PlayerColour_statistics_text x) (PlayerColour_statistics_text y)].
(** effect.py:9-13 *)
Definition EffectCommand_eq (x y : EffectCommand) : bool := tuple_eq [
  int_eq (EffectCommand_type x) (EffectCommand_type y);
  int_eq (EffectCommand_a x) (EffectCommand_a y);
  int_eq (EffectCommand_b x) (EffectCommand_b y);
  int_eq (EffectCommand_c x) (EffectCommand_c y);
  float_eq (EffectCommand_d x) (EffectCommand_d y)].
(** effect.py:37-38 *)
Definition Effect_eq (x y : Effect) : bool := tuple_eq [
  str_eq (Effect_name x) (Effect_name y);
  list_eq EffectCommand_eq (Effect_effect_commands x) (Effect_effect_commands y)].
(** terrainrestriction.py:9-12 *)
Definition TerrainPassGraphic_eq (x y : TerrainPassGraphic) : bool := tuple_eq [
  int_eq (TerrainPassGraphic_exit_tile_sprite_id x) (TerrainPassGraphic_exit_tile_sprite_id y);
  int_eq (TerrainPassGraphic_enter_tile_sprite_id x) (TerrainPassGraphic_enter_tile_sprite_id y);
  int_eq (TerrainPassGraphic_walk_tile_sprite_id x) (TerrainPassGraphic_walk_tile_sprite_id y);
  int_eq (TerrainPassGraphic_walk_sprite_rate x) (TerrainPassGraphic_walk_sprite_rate y)].
(** terrainrestriction.py:34-35 *)
Definition TerrainRestriction_eq (x y : TerrainRestriction) : bool := tuple_eq [
  list_eq float_eq (TerrainRestriction_passable_buildable_dmg_multiplier x) (TerrainRestriction_passable_buildable_dmg_multiplier y);
  list_eq TerrainPassGraphic_eq (TerrainRestriction_terrain_pass_graphics x) (TerrainRestriction_terrain_pass_graphics y)].
(** graphic.py:9-15 *)
Definition GraphicDelta_eq (x y : GraphicDelta) : bool := tuple_eq [
  int_eq (GraphicDelta_graphic_id x) (GraphicDelta_graphic_id y);
  int_eq (GraphicDelta_padding_1 x) (GraphicDelta_padding_1 y);
  int_eq (GraphicDelta_sprite_ptr x) (GraphicDelta_sprite_ptr y);
  int_eq (GraphicDelta_offset_x x) (GraphicDelta_offset_x y);
  int_eq (GraphicDelta_offset_y x) (GraphicDelta_offset_y y);
  int_eq (GraphicDelta_display_angle x) (GraphicDelta_display_angle y);
  int_eq (GraphicDelta_padding_2 x) (GraphicDelta_padding_2 y)].
(** graphic.py:43-51 *)
Definition GraphicAngleSound_eq (x y : GraphicAngleSound) : bool := tuple_eq [
  int_eq (GraphicAngleSound_frame_num x) (GraphicAngleSound_frame_num y);
  int_eq (GraphicAngleSound_sound_id x) (GraphicAngleSound_sound_id y);
  int_eq (GraphicAngleSound_wwise_sound_id x) (GraphicAngleSound_wwise_sound_id y);
  int_eq (GraphicAngleSound_frame_num_2 x) (GraphicAngleSound_frame_num_2 y);
  int_eq (GraphicAngleSound_sound_id_2 x) (GraphicAngleSound_sound_id_2 y);
  int_eq (GraphicAngleSound_wwise_sound_id_2 x) (GraphicAngleSound_wwise_sound_id_2 y);
  int_eq (GraphicAngleSound_frame_num_3 x) (GraphicAngleSound_frame_num_3 y);
  int_eq (GraphicAngleSound_sound_id_3 x) (GraphicAngleSound_sound_id_3 y);
  int_eq (GraphicAngleSound_wwise_sound_id_3 x) (GraphicAngleSound_wwise_sound_id_3 y)].
(** graphic.py:83-106 *)
Definition Graphic_eq (x y : Graphic) : bool := tuple_eq [
  str_eq (Graphic_name x) (Graphic_name y);
  str_eq (Graphic_file_name x) (Graphic_file_name y);
  str_eq (Graphic_particle_effect_name x) (Graphic_particle_effect_name y);
  int_eq (Graphic_slp x) (Graphic_slp y);
  int_eq (Graphic_is_loaded x) (Graphic_is_loaded y);
  int_eq (Graphic_old_color_flag x) (Graphic_old_color_flag y);
  int_eq (Graphic_layer x) (Graphic_layer y);
  int_eq (Graphic_player_color x) (Graphic_player_color y);
  int_eq (Graphic_transparent_selection x) (Graphic_transparent_selection y);
  list_eq int_eq (Graphic_coordinates x) (Graphic_coordinates y);
  int_eq (Graphic_sound_id x) (Graphic_sound_id y);
  int_eq (Graphic_wwise_sound_id x) (Graphic_wwise_sound_id y);
  int_eq (Graphic_angle_sounds_used x) (Graphic_angle_sounds_used y);
  int_eq (Graphic_frame_count x) (Graphic_frame_count y);
  int_eq (Graphic_angle_count x) (Graphic_angle_count y);
  float_eq (Graphic_speed_multiplier x) (Graphic_speed_multiplier y);
  float_eq (Graphic_frame_duration x) (Graphic_frame_duration y);
  float_eq (Graphic_replay_delay x) (Graphic_replay_delay y);
  int_eq (Graphic_sequence_type x) (Graphic_sequence_type y);
  int_eq (Graphic_id x) (Graphic_id y);
  int_eq (Graphic_mirroring_mode x) (Graphic_mirroring_mode y);
  int_eq (Graphic_editor_flag x) (Graphic_editor_flag y);
  list_eq GraphicDelta_eq (Graphic_deltas x) (Graphic_deltas y);
  list_eq GraphicAngleSound_eq (Graphic_angle_sounds x) (Graphic_angle_sounds y)].
(** terrainblock.py:9-11 *)
Definition FrameData_eq (x y : FrameData) : bool := tuple_eq [
  int_eq (FrameData_frame_count x) (FrameData_frame_count y);
  int_eq (FrameData_angle_count x) (FrameData_angle_count y);
  int_eq (FrameData_shape_id x) (FrameData_shape_id y)].
(** terrainblock.py:31-68 *)
Definition Terrain_eq (x y : Terrain) : bool := tuple_eq [
  int_eq (Terrain_enabled x) (Terrain_enabled y);
  int_eq (Terrain_random x) (Terrain_random y);
  int_eq (Terrain_is_water x) (Terrain_is_water y);
  int_eq (Terrain_hide_in_editor x) (Terrain_hide_in_editor y);
  int_eq (Terrain_string_id x) (Terrain_string_id y);
  str_eq (Terrain_name x) (Terrain_name y);
  str_eq (Terrain_name_2 x) (Terrain_name_2 y);
  int_eq (Terrain_slp x) (Terrain_slp y);
  int_eq (Terrain_shape_ptr x) (Terrain_shape_ptr y);
  int_eq (Terrain_sound_id x) (Terrain_sound_id y);
  int_eq (Terrain_wwise_sound_id x) (Terrain_wwise_sound_id y);
  int_eq (Terrain_wwise_sound_stop_id x) (Terrain_wwise_sound_stop_id y);
  int_eq (Terrain_blend_priority x) (Terrain_blend_priority y);
  int_eq (Terrain_blend_type x) (Terrain_blend_type y);
  str_eq (Terrain_overlay_mask_name x) (Terrain_overlay_mask_name y);
  list_eq int_eq (Terrain_colors x) (Terrain_colors y);
  list_eq int_eq (Terrain_cliff_colors x) (Terrain_cliff_colors y);
  int_eq (Terrain_passable_terrain x) (Terrain_passable_terrain y);
  int_eq (Terrain_impassable_terrain x) (Terrain_impassable_terrain y);
  int_eq (Terrain_is_animated x) (Terrain_is_animated y);
  int_eq (Terrain_animation_frames x) (Terrain_animation_frames y);
  int_eq (Terrain_pause_frames x) (Terrain_pause_frames y);
  float_eq (Terrain_interval x) (Terrain_interval y);
  float_eq (Terrain_pause_between_loops x) (Terrain_pause_between_loops y);
  int_eq (Terrain_frame x) (Terrain_frame y);
  int_eq (Terrain_draw_frame x) (Terrain_draw_frame y);
  float_eq (Terrain_animate_last x) (Terrain_animate_last y);
  int_eq (Terrain_frame_changed x) (Terrain_frame_changed y);
  int_eq (Terrain_drawn x) (Terrain_drawn y);
  list_eq FrameData_eq (Terrain_frame_data x) (Terrain_frame_data y);
  int_eq (Terrain_terrain_to_draw x) (Terrain_terrain_to_draw y);
  list_eq int_eq (Terrain_terrain_dimensions x) (Terrain_terrain_dimensions y);
  list_eq int_eq (Terrain_terrain_unit_masked_density x) (Terrain_terrain_unit_masked_density y);
  list_eq int_eq (Terrain_terrain_unit_id x) (Terrain_terrain_unit_id y);
  list_eq int_eq (Terrain_terrain_unit_density x) (Terrain_terrain_unit_density y);
  list_eq int_eq (Terrain_terrain_unit_centering x) (Terrain_terrain_unit_centering y);
  int_eq (Terrain_number_of_terrain_units_used x) (Terrain_number_of_terrain_units_used y);
  int_eq (Terrain_phantom x) (Terrain_phantom y)].
(** terrainblock.py:158-160 *)
Definition TileSize_eq (x y : TileSize) : bool := tuple_eq [
  int_eq (TileSize_width x) (TileSize_width y);
  int_eq (TileSize_height x) (TileSize_height y);
  int_eq (TileSize_delta_y x) (TileSize_delta_y y)].
(** terrainblock.py:180-213 *)
Definition TerrainBlock_eq (x y : TerrainBlock) : bool := tuple_eq [
  int_eq (TerrainBlock_virtual_function_ptr x) (TerrainBlock_virtual_function_ptr y);
  int_eq (TerrainBlock_map_pointer x) (TerrainBlock_map_pointer y);
  int_eq (TerrainBlock_map_width x) (TerrainBlock_map_width y);
  int_eq (TerrainBlock_map_height x) (TerrainBlock_map_height y);
  int_eq (TerrainBlock_world_width x) (TerrainBlock_world_width y);
  int_eq (TerrainBlock_world_height x) (TerrainBlock_world_height y);
  list_eq TileSize_eq (TerrainBlock_tile_sizes x) (TerrainBlock_tile_sizes y);
  int_eq (TerrainBlock_padding_ts x) (TerrainBlock_padding_ts y);
  list_eq Terrain_eq (TerrainBlock_terrains x) (TerrainBlock_terrains y);
  float_eq (TerrainBlock_map_min_x x) (TerrainBlock_map_min_x y);
  float_eq (TerrainBlock_map_min_y x) (TerrainBlock_map_min_y y);
  float_eq (TerrainBlock_map_max_x x) (TerrainBlock_map_max_x y);
  float_eq (TerrainBlock_map_max_y x) (TerrainBlock_map_max_y y);
  float_eq (TerrainBlock_map_max_x_plus_1 x) (TerrainBlock_map_max_x_plus_1 y);
  float_eq (TerrainBlock_map_max_y_plus_1 x) (TerrainBlock_map_max_y_plus_1 y);
  int_eq (TerrainBlock_terrains_used_2 x) (TerrainBlock_terrains_used_2 y);
  int_eq (TerrainBlock_borders_used x) (TerrainBlock_borders_used y);
  int_eq (TerrainBlock_max_terrain x) (TerrainBlock_max_terrain y);
  int_eq (TerrainBlock_tile_width x) (TerrainBlock_tile_width y);
  int_eq (TerrainBlock_tile_height x) (TerrainBlock_tile_height y);
  int_eq (TerrainBlock_tile_half_height x) (TerrainBlock_tile_half_height y);
  int_eq (TerrainBlock_tile_half_width x) (TerrainBlock_tile_half_width y);
  int_eq (TerrainBlock_elev_height x) (TerrainBlock_elev_height y);
  int_eq (TerrainBlock_cur_row x) (TerrainBlock_cur_row y);
  int_eq (TerrainBlock_cur_col x) (TerrainBlock_cur_col y);
  int_eq (TerrainBlock_block_beg_row x) (TerrainBlock_block_beg_row y);
  int_eq (TerrainBlock_block_end_row x) (TerrainBlock_block_end_row y);
  int_eq (TerrainBlock_block_beg_col x) (TerrainBlock_block_beg_col y);
  int_eq (TerrainBlock_block_end_col x) (TerrainBlock_block_end_col y);
  int_eq (TerrainBlock_search_map_ptr x) (TerrainBlock_search_map_ptr y);
  int_eq (TerrainBlock_search_map_rows_ptr x) (TerrainBlock_search_map_rows_ptr y);
  int_eq (TerrainBlock_any_frame_change x) (TerrainBlock_any_frame_change y);
  int_eq (TerrainBlock_map_visible_flag x) (TerrainBlock_map_visible_flag y);
  int_eq (TerrainBlock_fog_flag x) (TerrainBlock_fog_flag y)].
(** randommaps.py:9-21 *)
Definition MapUnit_eq (x y : MapUnit) : bool := tuple_eq [
  int_eq (MapUnit_unit x) (MapUnit_unit y);
  int_eq (MapUnit_host_terrain x) (MapUnit_host_terrain y);
  int_eq (MapUnit_group_placing x) (MapUnit_group_placing y);
  int_eq (MapUnit_scale_flag x) (MapUnit_scale_flag y);
  int_eq (MapUnit_padding_1 x) (MapUnit_padding_1 y);
  int_eq (MapUnit_objects_per_group x) (MapUnit_objects_per_group y);
  int_eq (MapUnit_fluctuation x) (MapUnit_fluctuation y);
  int_eq (MapUnit_groups_per_player x) (MapUnit_groups_per_player y);
  int_eq (MapUnit_group_arena x) (MapUnit_group_arena y);
  int_eq (MapUnit_player_id x) (MapUnit_player_id y);
  int_eq (MapUnit_set_place_for_all_players x) (MapUnit_set_place_for_all_players y);
  int_eq (MapUnit_min_distance_to_players x) (MapUnit_min_distance_to_players y);
  int_eq (MapUnit_max_distance_to_players x) (MapUnit_max_distance_to_players y)].
(** randommaps.py:61-66 *)
Definition MapTerrain_eq (x y : MapTerrain) : bool := tuple_eq [
  int_eq (MapTerrain_proportion x) (MapTerrain_proportion y);
  int_eq (MapTerrain_terrain x) (MapTerrain_terrain y);
  int_eq (MapTerrain_clump_count x) (MapTerrain_clump_count y);
  int_eq (MapTerrain_edge_spacing x) (MapTerrain_edge_spacing y);
  int_eq (MapTerrain_placement_terrain x) (MapTerrain_placement_terrain y);
  int_eq (MapTerrain_clumpiness x) (MapTerrain_clumpiness y)].
(** randommaps.py:92-106 *)
Definition MapLand_eq (x y : MapLand) : bool := tuple_eq [
  int_eq (MapLand_land_id x) (MapLand_land_id y);
  int_eq (MapLand_terrain x) (MapLand_terrain y);
  int_eq (MapLand_land_spacing x) (MapLand_land_spacing y);
  int_eq (MapLand_base_size x) (MapLand_base_size y);
  int_eq (MapLand_zone x) (MapLand_zone y);
  int_eq (MapLand_placement_type x) (MapLand_placement_type y);
  int_eq (MapLand_padding_1 x) (MapLand_padding_1 y);
  int_eq (MapLand_base_x x) (MapLand_base_x y);
  int_eq (MapLand_base_y x) (MapLand_base_y y);
  int_eq (MapLand_land_proportion x) (MapLand_land_proportion y);
  int_eq (MapLand_by_player_flag x) (MapLand_by_player_flag y);
  int_eq (MapLand_padding_2 x) (MapLand_padding_2 y);
  int_eq (MapLand_start_area_radius x) (MapLand_start_area_radius y);
  int_eq (MapLand_terrain_edge_fade x) (MapLand_terrain_edge_fade y);
  int_eq (MapLand_clumpiness x) (MapLand_clumpiness y)].
(** randommaps.py:150-155 *)
Definition MapElevation_eq (x y : MapElevation) : bool := tuple_eq [
  int_eq (MapElevation_proportion x) (MapElevation_proportion y);
  int_eq (MapElevation_terrain x) (MapElevation_terrain y);
  int_eq (MapElevation_clump_count x) (MapElevation_clump_count y);
  int_eq (MapElevation_base_terrain x) (MapElevation_base_terrain y);
  int_eq (MapElevation_base_elevation x) (MapElevation_base_elevation y);
  int_eq (MapElevation_tile_spacing x) (MapElevation_tile_spacing y)].
(** randommaps.py:181-202 *)
Definition MapInfo_eq (x y : MapInfo) : bool := tuple_eq [
  int_eq (MapInfo_map_id x) (MapInfo_map_id y);
  int_eq (MapInfo_border_south_west x) (MapInfo_border_south_west y);
  int_eq (MapInfo_border_north_west x) (MapInfo_border_north_west y);
  int_eq (MapInfo_border_north_east x) (MapInfo_border_north_east y);
  int_eq (MapInfo_border_south_east x) (MapInfo_border_south_east y);
  int_eq (MapInfo_border_usage x) (MapInfo_border_usage y);
  int_eq (MapInfo_water_shape x) (MapInfo_water_shape y);
  int_eq (MapInfo_base_terrain x) (MapInfo_base_terrain y);
  int_eq (MapInfo_land_coverage x) (MapInfo_land_coverage y);
  int_eq (MapInfo_unused_id x) (MapInfo_unused_id y);
  int_eq (MapInfo_map_lands_size x) (MapInfo_map_lands_size y);
  int_eq (MapInfo_map_lands_ptr x) (MapInfo_map_lands_ptr y);
  list_eq MapLand_eq (MapInfo_map_lands x) (MapInfo_map_lands y);
  int_eq (MapInfo_map_terrains_size x) (MapInfo_map_terrains_size y);
  int_eq (MapInfo_map_terrains_ptr x) (MapInfo_map_terrains_ptr y);
  list_eq MapTerrain_eq (MapInfo_map_terrains x) (MapInfo_map_terrains y);
  int_eq (MapInfo_map_units_size x) (MapInfo_map_units_size y);
  int_eq (MapInfo_map_units_ptr x) (MapInfo_map_units_ptr y);
  list_eq MapUnit_eq (MapInfo_map_units x) (MapInfo_map_units y);
  int_eq (MapInfo_map_elevations_size x) (MapInfo_map_elevations_size y);
  int_eq (MapInfo_map_elevations_ptr x) (MapInfo_map_elevations_ptr y);
  list_eq MapElevation_eq (MapInfo_map_elevations x) (MapInfo_map_elevations y)].
(** randommaps.py:282-284 *)
Definition RandomMaps_eq (x y : RandomMaps) : bool := tuple_eq [
  int_eq (RandomMaps_random_maps_ptr x) (RandomMaps_random_maps_ptr y);
  list_eq MapInfo_eq (RandomMaps_map_info_1 x) (RandomMaps_map_info_1 y);
  list_eq MapInfo_eq (RandomMaps_map_info_2 x) (RandomMaps_map_info_2 y)].
(** task.py:16-47 *)
Definition Task_eq (x y : Task) : bool := tuple_eq [
  int_eq (Task_task_type x) (Task_task_type y);
  int_eq (Task_id x) (Task_id y);
  int_eq (Task_is_default x) (Task_is_default y);
  int_eq (Task_action_type x) (Task_action_type y);
  int_eq (Task_class_id x) (Task_class_id y);
  int_eq (Task_unit_id x) (Task_unit_id y);
  int_eq (Task_terrain_id x) (Task_terrain_id y);
  int_eq (Task_resource_in x) (Task_resource_in y);
  int_eq (Task_resource_multiplier x) (Task_resource_multiplier y);
  int_eq (Task_resource_out x) (Task_resource_out y);
  int_eq (Task_unused_resource x) (Task_unused_resource y);
  float_eq (Task_work_value_1 x) (Task_work_value_1 y);
  float_eq (Task_work_value_2 x) (Task_work_value_2 y);
  float_eq (Task_work_range x) (Task_work_range y);
  int_eq (Task_auto_search_targets x) (Task_auto_search_targets y);
  float_eq (Task_search_wait_time x) (Task_search_wait_time y);
  int_eq (Task_enable_targeting x) (Task_enable_targeting y);
  int_eq (Task_combat_level_flag x) (Task_combat_level_flag y);
  int_eq (Task_gather_type x) (Task_gather_type y);
  int_eq (Task_work_flag_2 x) (Task_work_flag_2 y);
  int_eq (Task_target_diplomacy x) (Task_target_diplomacy y);
  int_eq (Task_carry_check x) (Task_carry_check y);
  int_eq (Task_pick_for_construction x) (Task_pick_for_construction y);
  int_eq (Task_moving_graphic_id x) (Task_moving_graphic_id y);
  int_eq (Task_proceeding_graphic_id x) (Task_proceeding_graphic_id y);
  int_eq (Task_working_graphic_id x) (Task_working_graphic_id y);
  int_eq (Task_carrying_graphic_id x) (Task_carrying_graphic_id y);
  int_eq (Task_resource_gathering_sound_id x) (Task_resource_gathering_sound_id y);
  int_eq (Task_resource_deposit_sound_id x) (Task_resource_deposit_sound_id y);
  int_eq (Task_wwise_resource_gathering_sound_id x) (Task_wwise_resource_gathering_sound_id y);
  int_eq (Task_wwise_resource_deposit_sound_id x) (Task_wwise_resource_deposit_sound_id y);
  int_eq (Task_enabled x) (Task_enabled y)].
(** unitheaders.py:10-11 *)
Definition UnitHeaders_eq (x y : UnitHeaders) : bool := tuple_eq [
  int_eq (UnitHeaders_exists_ x) (UnitHeaders_exists_ y);
  option_eq (list_eq Task_eq) (UnitHeaders_task_list x) (UnitHeaders_task_list y)].
(** unit.py:14-16 *)
Definition ResourceStorage_eq (x y : ResourceStorage) : bool := tuple_eq [
  int_eq (ResourceStorage_type x) (ResourceStorage_type y);
  float_eq (ResourceStorage_amount x) (ResourceStorage_amount y);
  int_eq (ResourceStorage_flag x) (ResourceStorage_flag y)].
(** unit.py:38-40 *)
Definition DamageGraphic_eq (x y : DamageGraphic) : bool := tuple_eq [
  int_eq (DamageGraphic_graphic_id x) (DamageGraphic_graphic_id y);
  int_eq (DamageGraphic_damage_percent x) (DamageGraphic_damage_percent y);
  int_eq (DamageGraphic_apply_mode x) (DamageGraphic_apply_mode y)].
(** unit.py:63-76 *)
Definition DeadFish_eq (x y : DeadFish) : bool := tuple_eq [
  int_eq (DeadFish_walking_graphic x) (DeadFish_walking_graphic y);
  int_eq (DeadFish_running_graphic x) (DeadFish_running_graphic y);
  float_eq (DeadFish_rotation_speed x) (DeadFish_rotation_speed y);
  int_eq (DeadFish_old_size_class x) (DeadFish_old_size_class y);
  int_eq (DeadFish_tracking_unit x) (DeadFish_tracking_unit y);
  int_eq (DeadFish_tracking_unit_mode x) (DeadFish_tracking_unit_mode y);
  float_eq (DeadFish_tracking_unit_density x) (DeadFish_tracking_unit_density y);
  int_eq (DeadFish_old_move_algorithm x) (DeadFish_old_move_algorithm y);
  float_eq (DeadFish_turn_radius x) (DeadFish_turn_radius y);
  float_eq (DeadFish_turn_radius_speed x) (DeadFish_turn_radius_speed y);
  float_eq (DeadFish_max_yaw_per_second_moving x) (DeadFish_max_yaw_per_second_moving y);
  float_eq (DeadFish_stationary_yaw_revolution_time x) (DeadFish_stationary_yaw_revolution_time y);
  float_eq (DeadFish_max_yaw_per_second_stationary x) (DeadFish_max_yaw_per_second_stationary y);
  float_eq (DeadFish_min_collision_size_multiplier x) (DeadFish_min_collision_size_multiplier y)].
(** unit.py:133-143 *)
Definition Bird_eq (x y : Bird) : bool := tuple_eq [
  int_eq (Bird_default_task_id x) (Bird_default_task_id y);
  float_eq (Bird_search_radius x) (Bird_search_radius y);
  float_eq (Bird_work_rate x) (Bird_work_rate y);
  list_eq int_eq (Bird_drop_sites x) (Bird_drop_sites y);
  int_eq (Bird_task_swap_group x) (Bird_task_swap_group y);
  int_eq (Bird_attack_sound x) (Bird_attack_sound y);
  int_eq (Bird_move_sound x) (Bird_move_sound y);
  int_eq (Bird_wwise_attack_sound_id x) (Bird_wwise_attack_sound_id y);
  int_eq (Bird_wwise_move_sound_id x) (Bird_wwise_move_sound_id y);
  int_eq (Bird_run_pattern x) (Bird_run_pattern y);
  list_eq Task_eq (Bird_tasks x) (Bird_tasks y)].
(** unit.py:200-201 *)
Definition AttackOrArmor_eq (x y : AttackOrArmor) : bool := tuple_eq [
  int_eq (AttackOrArmor_class_ x) (AttackOrArmor_class_ y);
  int_eq (AttackOrArmor_amount x) (AttackOrArmor_amount y)].
(** unit.py:217-243 *)
Definition Type50_eq (x y : Type50) : bool := tuple_eq [
  int_eq (Type50_base_armor x) (Type50_base_armor y);
  list_eq AttackOrArmor_eq (Type50_attacks x) (Type50_attacks y);
  list_eq AttackOrArmor_eq (Type50_armours x) (Type50_armours y);
  int_eq (Type50_defense_terrain_bonus x) (Type50_defense_terrain_bonus y);
  float_eq (Type50_bonus_damage_resistance x) (Type50_bonus_damage_resistance y);
  float_eq (Type50_max_range x) (Type50_max_range y);
  float_eq (Type50_blast_width x) (Type50_blast_width y);
  float_eq (Type50_reload_time x) (Type50_reload_time y);
  int_eq (Type50_projectile_unit_id x) (Type50_projectile_unit_id y);
  int_eq (Type50_accuracy_percent x) (Type50_accuracy_percent y);
  int_eq (Type50_break_off_combat x) (Type50_break_off_combat y);
  int_eq (Type50_frame_delay x) (Type50_frame_delay y);
  list_eq float_eq (Type50_graphic_displacement x) (Type50_graphic_displacement y);
  int_eq (Type50_blast_attack_level x) (Type50_blast_attack_level y);
  float_eq (Type50_min_range x) (Type50_min_range y);
  float_eq (Type50_accuracy_dispersion x) (Type50_accuracy_dispersion y);
  int_eq (Type50_attack_graphic x) (Type50_attack_graphic y);
  int_eq (Type50_displayed_melee_armour x) (Type50_displayed_melee_armour y);
  int_eq (Type50_displayed_attack x) (Type50_displayed_attack y);
  float_eq (Type50_displayed_range x) (Type50_displayed_range y);
  float_eq (Type50_displayed_reload_time x) (Type50_displayed_reload_time y);
  float_eq (Type50_blast_damage x) (Type50_blast_damage y);
  float_eq (Type50_damage_reflection x) (Type50_damage_reflection y);
  float_eq (Type50_friendly_fire_damage x) (Type50_friendly_fire_damage y);
  int_eq (Type50_interrupt_frame x) (Type50_interrupt_frame y);
  float_eq (Type50_garrison_firepower x) (Type50_garrison_firepower y);
  int_eq (Type50_attack_graphic_2 x) (Type50_attack_graphic_2 y)].
(** unit.py:356-361 *)
Definition Projectile_eq (x y : Projectile) : bool := tuple_eq [
  int_eq (Projectile_projectile_type x) (Projectile_projectile_type y);
  int_eq (Projectile_smart_mode x) (Projectile_smart_mode y);
  int_eq (Projectile_hit_mode x) (Projectile_hit_mode y);
  int_eq (Projectile_vanish_mode x) (Projectile_vanish_mode y);
  int_eq (Projectile_area_effect_specials x) (Projectile_area_effect_specials y);
  float_eq (Projectile_projectile_arc x) (Projectile_projectile_arc y)].
(** unit.py:397-399 *)
Definition ResourceCost_eq (x y : ResourceCost) : bool := tuple_eq [
  int_eq (ResourceCost_type x) (ResourceCost_type y);
  int_eq (ResourceCost_amount x) (ResourceCost_amount y);
  int_eq (ResourceCost_flag x) (ResourceCost_flag y)].
(** unit.py:423-426 *)
Definition TrainLocation_eq (x y : TrainLocation) : bool := tuple_eq [
  int_eq (TrainLocation_train_time x) (TrainLocation_train_time y);
  int_eq (TrainLocation_unit_id x) (TrainLocation_unit_id y);
  int_eq (TrainLocation_button_id x) (TrainLocation_button_id y);
  int_eq (TrainLocation_hot_key_id x) (TrainLocation_hot_key_id y)].
(** unit.py:475-507 *)
Definition Creatable_eq (x y : Creatable) : bool := tuple_eq [
  list_eq ResourceCost_eq (Creatable_resource_costs x) (Creatable_resource_costs y);
  list_eq TrainLocation_eq (Creatable_train_locations x) (Creatable_train_locations y);
  float_eq (Creatable_rear_attack_modifier x) (Creatable_rear_attack_modifier y);
  float_eq (Creatable_flank_attack_modifier x) (Creatable_flank_attack_modifier y);
  int_eq (Creatable_creatable_type x) (Creatable_creatable_type y);
  int_eq (Creatable_hero_mode x) (Creatable_hero_mode y);
  int_eq (Creatable_garrison_graphic x) (Creatable_garrison_graphic y);
  int_eq (Creatable_spawning_graphic x) (Creatable_spawning_graphic y);
  int_eq (Creatable_upgrade_graphic x) (Creatable_upgrade_graphic y);
  int_eq (Creatable_hero_glow_graphic x) (Creatable_hero_glow_graphic y);
  int_eq (Creatable_idle_attack_graphic x) (Creatable_idle_attack_graphic y);
  float_eq (Creatable_max_charge x) (Creatable_max_charge y);
  float_eq (Creatable_recharge_rate x) (Creatable_recharge_rate y);
  int_eq (Creatable_charge_event x) (Creatable_charge_event y);
  int_eq (Creatable_charge_type x) (Creatable_charge_type y);
  int_eq (Creatable_charge_target x) (Creatable_charge_target y);
  int_eq (Creatable_charge_projectile_unit x) (Creatable_charge_projectile_unit y);
  int_eq (Creatable_attack_priority x) (Creatable_attack_priority y);
  float_eq (Creatable_invulnerability_level x) (Creatable_invulnerability_level y);
  int_eq (Creatable_button_icon_id x) (Creatable_button_icon_id y);
  int_eq (Creatable_button_short_tooltip_id x) (Creatable_button_short_tooltip_id y);
  int_eq (Creatable_button_extended_tooltip_id x) (Creatable_button_extended_tooltip_id y);
  int_eq (Creatable_button_hotkey_action x) (Creatable_button_hotkey_action y);
  float_eq (Creatable_min_conversion_time_mod x) (Creatable_min_conversion_time_mod y);
  float_eq (Creatable_max_conversion_time_mod x) (Creatable_max_conversion_time_mod y);
  float_eq (Creatable_conversion_chance_mod x) (Creatable_conversion_chance_mod y);
  float_eq (Creatable_total_projectiles x) (Creatable_total_projectiles y);
  int_eq (Creatable_max_total_projectiles x) (Creatable_max_total_projectiles y);
  list_eq float_eq (Creatable_projectile_spawning_area x) (Creatable_projectile_spawning_area y);
  int_eq (Creatable_secondary_projectile_unit x) (Creatable_secondary_projectile_unit y);
  int_eq (Creatable_special_graphic x) (Creatable_special_graphic y);
  int_eq (Creatable_special_ability x) (Creatable_special_ability y);
  int_eq (Creatable_displayed_pierce_armour x) (Creatable_displayed_pierce_armour y)].
(** unit.py:879-881 *)
Definition BuildingAnnex_eq (x y : BuildingAnnex) : bool := tuple_eq [
  int_eq (BuildingAnnex_unit_id x) (BuildingAnnex_unit_id y);
  float_eq (BuildingAnnex_misplacement_x x) (BuildingAnnex_misplacement_x y);
  float_eq (BuildingAnnex_misplacement_y x) (BuildingAnnex_misplacement_y y)].
(** unit.py:910-935 *)
Definition Building_eq (x y : Building) : bool := tuple_eq [
  int_eq (Building_construction_graphic_id x) (Building_construction_graphic_id y);
  int_eq (Building_snow_graphic_id x) (Building_snow_graphic_id y);
  int_eq (Building_destruction_graphic_id x) (Building_destruction_graphic_id y);
  int_eq (Building_destruction_rubble_graphic_id x) (Building_destruction_rubble_graphic_id y);
  int_eq (Building_researching_graphic x) (Building_researching_graphic y);
  int_eq (Building_research_completed_graphic x) (Building_research_completed_graphic y);
  int_eq (Building_adjacent_mode x) (Building_adjacent_mode y);
  int_eq (Building_graphics_angle x) (Building_graphics_angle y);
  int_eq (Building_disappears_when_built x) (Building_disappears_when_built y);
  int_eq (Building_stack_unit_id x) (Building_stack_unit_id y);
  int_eq (Building_foundation_terrain_id x) (Building_foundation_terrain_id y);
  int_eq (Building_old_overlap_id x) (Building_old_overlap_id y);
  int_eq (Building_tech_id x) (Building_tech_id y);
  int_eq (Building_can_burn x) (Building_can_burn y);
  list_eq BuildingAnnex_eq (Building_annexes x) (Building_annexes y);
  int_eq (Building_head_unit x) (Building_head_unit y);
  int_eq (Building_transform_unit x) (Building_transform_unit y);
  int_eq (Building_transform_sound x) (Building_transform_sound y);
  int_eq (Building_construction_sound x) (Building_construction_sound y);
  int_eq (Building_wwise_transform_sound_id x) (Building_wwise_transform_sound_id y);
  int_eq (Building_wwise_construction_sound_id x) (Building_wwise_construction_sound_id y);
  int_eq (Building_garrison_type x) (Building_garrison_type y);
  float_eq (Building_garrison_heal_rate x) (Building_garrison_heal_rate y);
  float_eq (Building_garrison_repair_rate x) (Building_garrison_repair_rate y);
  int_eq (Building_pile_unit x) (Building_pile_unit y);
  list_eq int_eq (Building_looting_table x) (Building_looting_table y)].
(** unit.py:1052-1133 *)
Definition Unit_eq (x y : Unit) : bool := tuple_eq [
  int_eq (Unit_type x) (Unit_type y);
  int_eq (Unit_id x) (Unit_id y);
  int_eq (Unit_language_dll_name x) (Unit_language_dll_name y);
  int_eq (Unit_language_dll_creation x) (Unit_language_dll_creation y);
  int_eq (Unit_class_ x) (Unit_class_ y);
  list_eq int_eq (Unit_standing_graphic x) (Unit_standing_graphic y);
  int_eq (Unit_dying_graphic x) (Unit_dying_graphic y);
  int_eq (Unit_undead_graphic x) (Unit_undead_graphic y);
  int_eq (Unit_undead_mode x) (Unit_undead_mode y);
  int_eq (Unit_hit_points x) (Unit_hit_points y);
  float_eq (Unit_line_of_sight x) (Unit_line_of_sight y);
  int_eq (Unit_garrison_capacity x) (Unit_garrison_capacity y);
  float_eq (Unit_collision_size_x x) (Unit_collision_size_x y);
  float_eq (Unit_collision_size_y x) (Unit_collision_size_y y);
  float_eq (Unit_collision_size_z x) (Unit_collision_size_z y);
  int_eq (Unit_train_sound x) (Unit_train_sound y);
  int_eq (Unit_damage_sound x) (Unit_damage_sound y);
  int_eq (Unit_dead_unit_id x) (Unit_dead_unit_id y);
  int_eq (Unit_blood_unit_id x) (Unit_blood_unit_id y);
  int_eq (Unit_sort_number x) (Unit_sort_number y);
  int_eq (Unit_can_be_built_on x) (Unit_can_be_built_on y);
  int_eq (Unit_icon_id x) (Unit_icon_id y);
  int_eq (Unit_hide_in_editor x) (Unit_hide_in_editor y);
  int_eq (Unit_old_portrait_pict x) (Unit_old_portrait_pict y);
  int_eq (Unit_enabled x) (Unit_enabled y);
  int_eq (Unit_disabled x) (Unit_disabled y);
  list_eq int_eq (Unit_placement_side_terrain x) (Unit_placement_side_terrain y);
  list_eq int_eq (Unit_placement_terrain x) (Unit_placement_terrain y);
  list_eq float_eq (Unit_clearance_size x) (Unit_clearance_size y);
  int_eq (Unit_hill_mode x) (Unit_hill_mode y);
  int_eq (Unit_fog_visibility x) (Unit_fog_visibility y);
  int_eq (Unit_terrain_restriction x) (Unit_terrain_restriction y);
  int_eq (Unit_fly_mode x) (Unit_fly_mode y);
  int_eq (Unit_resource_capacity x) (Unit_resource_capacity y);
  float_eq (Unit_resource_decay x) (Unit_resource_decay y);
  int_eq (Unit_blast_defense_level x) (Unit_blast_defense_level y);
  int_eq (Unit_combat_level x) (Unit_combat_level y);
  int_eq (Unit_interaction_mode x) (Unit_interaction_mode y);
  int_eq (Unit_minimap_mode x) (Unit_minimap_mode y);
  int_eq (Unit_interface_kind x) (Unit_interface_kind y);
  float_eq (Unit_multiple_attribute_mode x) (Unit_multiple_attribute_mode y);
  int_eq (Unit_minimap_color x) (Unit_minimap_color y);
  int_eq (Unit_language_dll_help x) (Unit_language_dll_help y);
  int_eq (Unit_language_dll_hotkey_text x) (Unit_language_dll_hotkey_text y);
  int_eq (Unit_hot_key x) (Unit_hot_key y);
  int_eq (Unit_recyclable x) (Unit_recyclable y);
  int_eq (Unit_enable_auto_gather x) (Unit_enable_auto_gather y);
  int_eq (Unit_create_doppelganger_on_death x) (Unit_create_doppelganger_on_death y);
  int_eq (Unit_resource_gather_group x) (Unit_resource_gather_group y);
  int_eq (Unit_occlusion_mode x) (Unit_occlusion_mode y);
  int_eq (Unit_obstruction_type x) (Unit_obstruction_type y);
  int_eq (Unit_obstruction_class x) (Unit_obstruction_class y);
  int_eq (Unit_trait x) (Unit_trait y);
  int_eq (Unit_civilization x) (Unit_civilization y);
  int_eq (Unit_nothing x) (Unit_nothing y);
  int_eq (Unit_selection_effect x) (Unit_selection_effect y);
  int_eq (Unit_editor_selection_colour x) (Unit_editor_selection_colour y);
  float_eq (Unit_outline_size_x x) (Unit_outline_size_x y);
  float_eq (Unit_outline_size_y x) (Unit_outline_size_y y);
  float_eq (Unit_outline_size_z x) (Unit_outline_size_z y);
  int_eq (Unit_scenario_triggers_1 x) (Unit_scenario_triggers_1 y);
  int_eq (Unit_scenario_triggers_2 x) (Unit_scenario_triggers_2 y);
  list_eq ResourceStorage_eq (Unit_resource_storages x) (Unit_resource_storages y);
  list_eq DamageGraphic_eq (Unit_damage_graphics x) (Unit_damage_graphics y);
  int_eq (Unit_selection_sound x) (Unit_selection_sound y);
  int_eq (Unit_dying_sound x) (Unit_dying_sound y);
  int_eq (Unit_wwise_train_sound_id x) (Unit_wwise_train_sound_id y);
  int_eq (Unit_wwise_damage_sound_id x) (Unit_wwise_damage_sound_id y);
  int_eq (Unit_wwise_selection_sound_id x) (Unit_wwise_selection_sound_id y);
  int_eq (Unit_wwise_dying_sound_id x) (Unit_wwise_dying_sound_id y);
  int_eq (Unit_old_attack_reaction x) (Unit_old_attack_reaction y);
  int_eq (Unit_convert_terrain x) (Unit_convert_terrain y);
  str_eq (Unit_name x) (Unit_name y);
  int_eq (Unit_copy_id x) (Unit_copy_id y);
  int_eq (Unit_base_id x) (Unit_base_id y);
  option_eq float_eq (Unit_speed x) (Unit_speed y);
  option_eq DeadFish_eq (Unit_dead_fish x) (Unit_dead_fish y);
  option_eq Bird_eq (Unit_bird x) (Unit_bird y);
  option_eq Type50_eq (Unit_type_50 x) (Unit_type_50 y);
  option_eq Projectile_eq (Unit_projectile x) (Unit_projectile y);
  option_eq Creatable_eq (Unit_creatable x) (Unit_creatable y);
  option_eq Building_eq (Unit_building x) (Unit_building y)].
(** civ.py:10-16 *)
Definition Civ_eq (x y : Civ) : bool := tuple_eq [
  int_eq (Civ_player_type x) (Civ_player_type y);
  str_eq (Civ_name x) (Civ_name y);
  int_eq (Civ_tech_tree_id x) (Civ_tech_tree_id y);
  int_eq (Civ_team_bonus_id x) (Civ_team_bonus_id y);
  list_eq float_eq (Civ_resources x) (Civ_resources y);
  int_eq (Civ_icon_set x) (Civ_icon_set y);
  list_eq (option_eq Unit_eq) (Civ_units x) (Civ_units y)].
(** tech.py:9-11 *)
Definition ResearchResourceCost_eq (x y : ResearchResourceCost) : bool := tuple_eq [
  int_eq (ResearchResourceCost_type x) (ResearchResourceCost_type y);
  int_eq (ResearchResourceCost_amount x) (ResearchResourceCost_amount y);
  int_eq (ResearchResourceCost_flag x) (ResearchResourceCost_flag y)].
(** tech.py:31-34 *)
Definition ResearchLocation_eq (x y : ResearchLocation) : bool := tuple_eq [
  int_eq (ResearchLocation_location_id x) (ResearchLocation_location_id y);
  int_eq (ResearchLocation_research_time x) (ResearchLocation_research_time y);
  int_eq (ResearchLocation_button_id x) (ResearchLocation_button_id y);
  int_eq (ResearchLocation_hot_key_id x) (ResearchLocation_hot_key_id y)].
(** tech.py:56-70 *)
Definition Tech_eq (x y : Tech) : bool := tuple_eq [
  list_eq int_eq (Tech_required_techs x) (Tech_required_techs y);
  list_eq ResearchResourceCost_eq (Tech_resource_costs x) (Tech_resource_costs y);
  int_eq (Tech_required_tech_count x) (Tech_required_tech_count y);
  int_eq (Tech_civ x) (Tech_civ y);
  int_eq (Tech_full_tech_mode x) (Tech_full_tech_mode y);
  int_eq (Tech_language_dll_name x) (Tech_language_dll_name y);
  int_eq (Tech_language_dll_description x) (Tech_language_dll_description y);
  int_eq (Tech_effect_id x) (Tech_effect_id y);
  int_eq (Tech_type x) (Tech_type y);
  int_eq (Tech_icon_id x) (Tech_icon_id y);
  int_eq (Tech_language_dll_help x) (Tech_language_dll_help y);
  int_eq (Tech_language_dll_tech_tree x) (Tech_language_dll_tech_tree y);
  str_eq (Tech_name x) (Tech_name y);
  int_eq (Tech_repeatable x) (Tech_repeatable y);
  list_eq ResearchLocation_eq (Tech_research_locations x) (Tech_research_locations y)].
(** techtree.py:9-11 *)
Definition Common_eq (x y : Common) : bool := tuple_eq [
  int_eq (Common_slots_used x) (Common_slots_used y);
  list_eq int_eq (Common_unit_research x) (Common_unit_research y);
  list_eq int_eq (Common_mode x) (Common_mode y)].
(** techtree.py:31-41 *)
Definition TechTreeAge_eq (x y : TechTreeAge) : bool := tuple_eq [
  int_eq (TechTreeAge_id x) (TechTreeAge_id y);
  int_eq (TechTreeAge_status x) (TechTreeAge_status y);
  list_eq int_eq (TechTreeAge_buildings x) (TechTreeAge_buildings y);
  list_eq int_eq (TechTreeAge_units x) (TechTreeAge_units y);
  list_eq int_eq (TechTreeAge_techs x) (TechTreeAge_techs y);
  Common_eq (TechTreeAge_common x) (TechTreeAge_common y);
  int_eq (TechTreeAge_num_building_levels x) (TechTreeAge_num_building_levels y);
  list_eq int_eq (TechTreeAge_buildings_per_zone x) (TechTreeAge_buildings_per_zone y);
  list_eq int_eq (TechTreeAge_group_length_per_zone x) (TechTreeAge_group_length_per_zone y);
  int_eq (TechTreeAge_max_age_length x) (TechTreeAge_max_age_length y);
  int_eq (TechTreeAge_line_mode x) (TechTreeAge_line_mode y)].
(** techtree.py:94-104 *)
Definition BuildingConnection_eq (x y : BuildingConnection) : bool := tuple_eq [
  int_eq (BuildingConnection_id x) (BuildingConnection_id y);
  int_eq (BuildingConnection_status x) (BuildingConnection_status y);
  list_eq int_eq (BuildingConnection_buildings x) (BuildingConnection_buildings y);
  list_eq int_eq (BuildingConnection_units x) (BuildingConnection_units y);
  list_eq int_eq (BuildingConnection_techs x) (BuildingConnection_techs y);
  Common_eq (BuildingConnection_common x) (BuildingConnection_common y);
  int_eq (BuildingConnection_location_in_age x) (BuildingConnection_location_in_age y);
  list_eq int_eq (BuildingConnection_units_techs_total x) (BuildingConnection_units_techs_total y);
  list_eq int_eq (BuildingConnection_units_techs_first x) (BuildingConnection_units_techs_first y);
  int_eq (BuildingConnection_line_mode x) (BuildingConnection_line_mode y);
  int_eq (BuildingConnection_enabling_research x) (BuildingConnection_enabling_research y)].
(** techtree.py:157-166 *)
Definition UnitConnection_eq (x y : UnitConnection) : bool := tuple_eq [
  int_eq (UnitConnection_id x) (UnitConnection_id y);
  int_eq (UnitConnection_status x) (UnitConnection_status y);
  int_eq (UnitConnection_upper_building x) (UnitConnection_upper_building y);
  Common_eq (UnitConnection_common x) (UnitConnection_common y);
  int_eq (UnitConnection_vertical_line x) (UnitConnection_vertical_line y);
  list_eq int_eq (UnitConnection_units x) (UnitConnection_units y);
  int_eq (UnitConnection_location_in_age x) (UnitConnection_location_in_age y);
  int_eq (UnitConnection_required_research x) (UnitConnection_required_research y);
  int_eq (UnitConnection_line_mode x) (UnitConnection_line_mode y);
  int_eq (UnitConnection_enabling_research x) (UnitConnection_enabling_research y)].
(** techtree.py:212-221 *)
Definition ResearchConnection_eq (x y : ResearchConnection) : bool := tuple_eq [
  int_eq (ResearchConnection_id x) (ResearchConnection_id y);
  int_eq (ResearchConnection_status x) (ResearchConnection_status y);
  int_eq (ResearchConnection_upper_building x) (ResearchConnection_upper_building y);
  list_eq int_eq (ResearchConnection_buildings x) (ResearchConnection_buildings y);
  list_eq int_eq (ResearchConnection_units x) (ResearchConnection_units y);
  list_eq int_eq (ResearchConnection_techs x) (ResearchConnection_techs y);
  Common_eq (ResearchConnection_common x) (ResearchConnection_common y);
  int_eq (ResearchConnection_vertical_line x) (ResearchConnection_vertical_line y);
  int_eq (ResearchConnection_location_in_age x) (ResearchConnection_location_in_age y);
  int_eq (ResearchConnection_line_mode x) (ResearchConnection_line_mode y)].
(** techtree.py:271-275 *)
Definition TechTree_eq (x y : TechTree) : bool := tuple_eq [
  int_eq (TechTree_total_unit_tech_groups x) (TechTree_total_unit_tech_groups y);
  list_eq TechTreeAge_eq (TechTree_tech_tree_ages x) (TechTree_tech_tree_ages y);
  list_eq BuildingConnection_eq (TechTree_building_connections x) (TechTree_building_connections y);
  list_eq UnitConnection_eq (TechTree_unit_connections x) (TechTree_unit_connections y);
  list_eq ResearchConnection_eq (TechTree_research_connections x) (TechTree_research_connections y)].
(** datfile.py:23-43 *)
Definition DatFile_eq (x y : DatFile) : bool := tuple_eq [
  str_eq (DatFile_version x) (DatFile_version y);
  list_eq int_eq (DatFile_float_ptr_terrain_tables x) (DatFile_float_ptr_terrain_tables y);
  list_eq int_eq (DatFile_terrain_pass_graphic_pointers x) (DatFile_terrain_pass_graphic_pointers y);
  list_eq TerrainRestriction_eq (DatFile_terrain_restrictions x) (DatFile_terrain_restrictions y);
  list_eq PlayerColour_eq (DatFile_player_colours x) (DatFile_player_colours y);
  list_eq Sound_eq (DatFile_sounds x) (DatFile_sounds y);
  list_eq (option_eq Graphic_eq) (DatFile_graphics x) (DatFile_graphics y);
  TerrainBlock_eq (DatFile_terrain_block x) (DatFile_terrain_block y);
  RandomMaps_eq (DatFile_random_maps x) (DatFile_random_maps y);
  list_eq Effect_eq (DatFile_effects x) (DatFile_effects y);
  list_eq UnitHeaders_eq (DatFile_unit_headers x) (DatFile_unit_headers y);
  list_eq Civ_eq (DatFile_civs x) (DatFile_civs y);
  list_eq Tech_eq (DatFile_techs x) (DatFile_techs y);
  int_eq (DatFile_time_slice x) (DatFile_time_slice y);
  int_eq (DatFile_unit_kill_rate x) (DatFile_unit_kill_rate y);
  int_eq (DatFile_unit_kill_total x) (DatFile_unit_kill_total y);
  int_eq (DatFile_unit_hit_point_rate x) (DatFile_unit_hit_point_rate y);
  int_eq (DatFile_unit_hit_point_total x) (DatFile_unit_hit_point_total y);
  int_eq (DatFile_razing_kill_rate x) (DatFile_razing_kill_rate y);
  int_eq (DatFile_razing_kill_total x) (DatFile_razing_kill_total y);
  TechTree_eq (DatFile_tech_tree x) (DatFile_tech_tree y)].
