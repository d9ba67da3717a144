(** * What [dat-to-json] prints: [dataclasses.asdict] of a loaded file (/repo/src/genieutils/scripts.py:10-19).

    Generated by tools/gen_dump.py from the dataclass declarations in /repo.  [asdict] makes a
    dictionary of the fields of a dataclass in the order of declaration, goes into lists and
    tuples and copies everything else.  The text that [json.dumps] makes of the tree is in Json.v.
    Simplification: argument parsing is not modelled. *)
From Verif Require Import Base PyFloat PyStr Versions FS Spec.
From Verif Require Import M_Sound M_PlayerColour M_Effect M_TerrainRestriction M_Graphic
  M_TerrainBlock M_RandomMaps M_Task M_UnitHeaders M_Unit M_Civ M_Tech M_TechTree M_DatFile.
From Coq Require Import String.
Open Scope Z_scope.
Local Open Scope list_scope.
Local Open Scope string_scope.

Inductive tree : Type :=
| TNull
| TInt (z : Z)
| TFloat (x : f64)
| TText (s : pystr)
| TList (l : list tree)
| TDict (l : list (string * tree)).
(** [None] stays [None] (null in JSON). *)
Definition of_option {A} (f : A -> tree) (o : option A) : tree := match o with Some a => f a | None => TNull end.

(** sound.py:9-13 *)
Definition SoundItem_asdict (x : SoundItem) : tree := TDict [
  ("filename", TText (SoundItem_filename x));
  ("resource_id", TInt (SoundItem_resource_id x));
  ("probability", TInt (SoundItem_probability x));
  ("civilization", TInt (SoundItem_civilization x));
  ("icon_set", TInt (SoundItem_icon_set x))].

(** sound.py:37-41 *)
Definition Sound_asdict (x : Sound) : tree := TDict [
  ("id", TInt (Sound_id x));
  ("play_delay", TInt (Sound_play_delay x));
  ("cache_time", TInt (Sound_cache_time x));
  ("total_probability", TInt (Sound_total_probability x));
  ("items", TList (map SoundItem_asdict (Sound_items x)))].

(** playercolour.py:9-17 *)
Definition PlayerColour_asdict (x : PlayerColour) : tree := TDict [
  ("id", TInt (PlayerColour_id x));
  ("player_color_base", TInt (PlayerColour_player_color_base x));
  ("unit_outline_color", TInt (PlayerColour_unit_outline_color x));
  ("unit_selection_color_1", TInt (PlayerColour_unit_selection_color_1 x));
  ("unit_selection_color_2", TInt (PlayerColour_unit_selection_color_2 x));
  ("minimap_color", TInt (PlayerColour_minimap_color x));
  ("minimap_color_2", TInt (PlayerColour_minimap_color_2 x));
  ("minimap_color_3", TInt (PlayerColour_minimap_color_3 x));
  ("statistics_text", TInt (PlayerColour_statistics_text x))].

(** effect.py:9-13 *)
Definition EffectCommand_asdict (x : EffectCommand) : tree := TDict [
  ("type", TInt (EffectCommand_type x));
  ("a", TInt (EffectCommand_a x));
  ("b", TInt (EffectCommand_b x));
  ("c", TInt (EffectCommand_c x));
  ("d", TFloat (EffectCommand_d x))].

(** effect.py:37-38 *)
Definition Effect_asdict (x : Effect) : tree := TDict [
  ("name", TText (Effect_name x));
  ("effect_commands", TList (map EffectCommand_asdict (Effect_effect_commands x)))].

(** terrainrestriction.py:9-12 *)
Definition TerrainPassGraphic_asdict (x : TerrainPassGraphic) : tree := TDict [
  ("exit_tile_sprite_id", TInt (TerrainPassGraphic_exit_tile_sprite_id x));
  ("enter_tile_sprite_id", TInt (TerrainPassGraphic_enter_tile_sprite_id x));
  ("walk_tile_sprite_id", TInt (TerrainPassGraphic_walk_tile_sprite_id x));
  ("walk_sprite_rate", TInt (TerrainPassGraphic_walk_sprite_rate x))].

(** terrainrestriction.py:34-35 *)
Definition TerrainRestriction_asdict (x : TerrainRestriction) : tree := TDict [
  ("passable_buildable_dmg_multiplier", TList (map TFloat (TerrainRestriction_passable_buildable_dmg_multiplier x)));
  ("terrain_pass_graphics", TList (map TerrainPassGraphic_asdict (TerrainRestriction_terrain_pass_graphics x)))].

(** graphic.py:9-15 *)
Definition GraphicDelta_asdict (x : GraphicDelta) : tree := TDict [
  ("graphic_id", TInt (GraphicDelta_graphic_id x));
  ("padding_1", TInt (GraphicDelta_padding_1 x));
  ("sprite_ptr", TInt (GraphicDelta_sprite_ptr x));
  ("offset_x", TInt (GraphicDelta_offset_x x));
  ("offset_y", TInt (GraphicDelta_offset_y x));
  ("display_angle", TInt (GraphicDelta_display_angle x));
  ("padding_2", TInt (GraphicDelta_padding_2 x))].

(** graphic.py:43-51 *)
Definition GraphicAngleSound_asdict (x : GraphicAngleSound) : tree := TDict [
  ("frame_num", TInt (GraphicAngleSound_frame_num x));
  ("sound_id", TInt (GraphicAngleSound_sound_id x));
  ("wwise_sound_id", TInt (GraphicAngleSound_wwise_sound_id x));
  ("frame_num_2", TInt (GraphicAngleSound_frame_num_2 x));
  ("sound_id_2", TInt (GraphicAngleSound_sound_id_2 x));
  ("wwise_sound_id_2", TInt (GraphicAngleSound_wwise_sound_id_2 x));
  ("frame_num_3", TInt (GraphicAngleSound_frame_num_3 x));
  ("sound_id_3", TInt (GraphicAngleSound_sound_id_3 x));
  ("wwise_sound_id_3", TInt (GraphicAngleSound_wwise_sound_id_3 x))].

(** graphic.py:83-106 *)
Definition Graphic_asdict (x : Graphic) : tree := TDict [
  ("name", TText (Graphic_name x));
  ("file_name", TText (Graphic_file_name x));
  ("particle_effect_name", TText (Graphic_particle_effect_name x));
  ("slp", TInt (Graphic_slp x));
  ("is_loaded", TInt (Graphic_is_loaded x));
  ("old_color_flag", TInt (Graphic_old_color_flag x));
  ("layer", TInt (Graphic_layer x));
  ("player_color", TInt (Graphic_player_color x));
  ("transparent_selection", TInt (Graphic_transparent_selection x));
  ("coordinates", TList (map TInt (Graphic_coordinates x)));
  ("sound_id", TInt (Graphic_sound_id x));
  ("wwise_sound_id", TInt (Graphic_wwise_sound_id x));
  ("angle_sounds_used", TInt (Graphic_angle_sounds_used x));
  ("frame_count", TInt (Graphic_frame_count x));
  ("angle_count", TInt (Graphic_angle_count x));
  ("speed_multiplier", TFloat (Graphic_speed_multiplier x));
  ("frame_duration", TFloat (Graphic_frame_duration x));
  ("replay_delay", TFloat (Graphic_replay_delay x));
  ("sequence_type", TInt (Graphic_sequence_type x));
  ("id", TInt (Graphic_id x));
  ("mirroring_mode", TInt (Graphic_mirroring_mode x));
  ("editor_flag", TInt (Graphic_editor_flag x));
  ("deltas", TList (map GraphicDelta_asdict (Graphic_deltas x)));
  ("angle_sounds", TList (map GraphicAngleSound_asdict (Graphic_angle_sounds x)))].

(** terrainblock.py:9-11 *)
Definition FrameData_asdict (x : FrameData) : tree := TDict [
  ("frame_count", TInt (FrameData_frame_count x));
  ("angle_count", TInt (FrameData_angle_count x));
  ("shape_id", TInt (FrameData_shape_id x))].

(** terrainblock.py:31-68 *)
Definition Terrain_asdict (x : Terrain) : tree := TDict [
  ("enabled", TInt (Terrain_enabled x));
  ("random", TInt (Terrain_random x));
  ("is_water", TInt (Terrain_is_water x));
  ("hide_in_editor", TInt (Terrain_hide_in_editor x));
  ("string_id", TInt (Terrain_string_id x));
  ("name", TText (Terrain_name x));
  ("name_2", TText (Terrain_name_2 x));
  ("slp", TInt (Terrain_slp x));
  ("shape_ptr", TInt (Terrain_shape_ptr x));
  ("sound_id", TInt (Terrain_sound_id x));
  ("wwise_sound_id", TInt (Terrain_wwise_sound_id x));
  ("wwise_sound_stop_id", TInt (Terrain_wwise_sound_stop_id x));
  ("blend_priority", TInt (Terrain_blend_priority x));
  ("blend_type", TInt (Terrain_blend_type x));
  ("overlay_mask_name", TText (Terrain_overlay_mask_name x));
  ("colors", TList (map TInt (Terrain_colors x)));
  ("cliff_colors", TList (map TInt (Terrain_cliff_colors x)));
  ("passable_terrain", TInt (Terrain_passable_terrain x));
  ("impassable_terrain", TInt (Terrain_impassable_terrain x));
  ("is_animated", TInt (Terrain_is_animated x));
  ("animation_frames", TInt (Terrain_animation_frames x));
  ("pause_frames", TInt (Terrain_pause_frames x));
  ("interval", TFloat (Terrain_interval x));
  ("pause_between_loops", TFloat (Terrain_pause_between_loops x));
  ("frame", TInt (Terrain_frame x));
  ("draw_frame", TInt (Terrain_draw_frame x));
  ("animate_last", TFloat (Terrain_animate_last x));
  ("frame_changed", TInt (Terrain_frame_changed x));
  ("drawn", TInt (Terrain_drawn x));
  ("frame_data", TList (map FrameData_asdict (Terrain_frame_data x)));
  ("terrain_to_draw", TInt (Terrain_terrain_to_draw x));
  ("terrain_dimensions", TList (map TInt (Terrain_terrain_dimensions x)));
  ("terrain_unit_masked_density", TList (map TInt (Terrain_terrain_unit_masked_density x)));
  ("terrain_unit_id", TList (map TInt (Terrain_terrain_unit_id x)));
  ("terrain_unit_density", TList (map TInt (Terrain_terrain_unit_density x)));
  ("terrain_unit_centering", TList (map TInt (Terrain_terrain_unit_centering x)));
  ("number_of_terrain_units_used", TInt (Terrain_number_of_terrain_units_used x));
  ("phantom", TInt (Terrain_phantom x))].

(** terrainblock.py:158-160 *)
Definition TileSize_asdict (x : TileSize) : tree := TDict [
  ("width", TInt (TileSize_width x));
  ("height", TInt (TileSize_height x));
  ("delta_y", TInt (TileSize_delta_y x))].

(** terrainblock.py:180-213 *)
Definition TerrainBlock_asdict (x : TerrainBlock) : tree := TDict [
  ("virtual_function_ptr", TInt (TerrainBlock_virtual_function_ptr x));
  ("map_pointer", TInt (TerrainBlock_map_pointer x));
  ("map_width", TInt (TerrainBlock_map_width x));
  ("map_height", TInt (TerrainBlock_map_height x));
  ("world_width", TInt (TerrainBlock_world_width x));
  ("world_height", TInt (TerrainBlock_world_height x));
  ("tile_sizes", TList (map TileSize_asdict (TerrainBlock_tile_sizes x)));
  ("padding_ts", TInt (TerrainBlock_padding_ts x));
  ("terrains", TList (map Terrain_asdict (TerrainBlock_terrains x)));
  ("map_min_x", TFloat (TerrainBlock_map_min_x x));
  ("map_min_y", TFloat (TerrainBlock_map_min_y x));
  ("map_max_x", TFloat (TerrainBlock_map_max_x x));
  ("map_max_y", TFloat (TerrainBlock_map_max_y x));
  ("map_max_x_plus_1", TFloat (TerrainBlock_map_max_x_plus_1 x));
  ("map_max_y_plus_1", TFloat (TerrainBlock_map_max_y_plus_1 x));
  ("terrains_used_2", TInt (TerrainBlock_terrains_used_2 x));
  ("borders_used", TInt (TerrainBlock_borders_used x));
  ("max_terrain", TInt (TerrainBlock_max_terrain x));
  ("tile_width", TInt (TerrainBlock_tile_width x));
  ("tile_height", TInt (TerrainBlock_tile_height x));
  ("tile_half_height", TInt (TerrainBlock_tile_half_height x));
  ("tile_half_width", TInt (TerrainBlock_tile_half_width x));
  ("elev_height", TInt (TerrainBlock_elev_height x));
  ("cur_row", TInt (TerrainBlock_cur_row x));
  ("cur_col", TInt (TerrainBlock_cur_col x));
  ("block_beg_row", TInt (TerrainBlock_block_beg_row x));
  ("block_end_row", TInt (TerrainBlock_block_end_row x));
  ("block_beg_col", TInt (TerrainBlock_block_beg_col x));
  ("block_end_col", TInt (TerrainBlock_block_end_col x));
  ("search_map_ptr", TInt (TerrainBlock_search_map_ptr x));
  ("search_map_rows_ptr", TInt (TerrainBlock_search_map_rows_ptr x));
  ("any_frame_change", TInt (TerrainBlock_any_frame_change x));
  ("map_visible_flag", TInt (TerrainBlock_map_visible_flag x));
  ("fog_flag", TInt (TerrainBlock_fog_flag x))].

(** randommaps.py:9-21 *)
Definition MapUnit_asdict (x : MapUnit) : tree := TDict [
  ("unit", TInt (MapUnit_unit x));
  ("host_terrain", TInt (MapUnit_host_terrain x));
  ("group_placing", TInt (MapUnit_group_placing x));
  ("scale_flag", TInt (MapUnit_scale_flag x));
  ("padding_1", TInt (MapUnit_padding_1 x));
  ("objects_per_group", TInt (MapUnit_objects_per_group x));
  ("fluctuation", TInt (MapUnit_fluctuation x));
  ("groups_per_player", TInt (MapUnit_groups_per_player x));
  ("group_arena", TInt (MapUnit_group_arena x));
  ("player_id", TInt (MapUnit_player_id x));
  ("set_place_for_all_players", TInt (MapUnit_set_place_for_all_players x));
  ("min_distance_to_players", TInt (MapUnit_min_distance_to_players x));
  ("max_distance_to_players", TInt (MapUnit_max_distance_to_players x))].

(** randommaps.py:61-66 *)
Definition MapTerrain_asdict (x : MapTerrain) : tree := TDict [
  ("proportion", TInt (MapTerrain_proportion x));
  ("terrain", TInt (MapTerrain_terrain x));
  ("clump_count", TInt (MapTerrain_clump_count x));
  ("edge_spacing", TInt (MapTerrain_edge_spacing x));
  ("placement_terrain", TInt (MapTerrain_placement_terrain x));
  ("clumpiness", TInt (MapTerrain_clumpiness x))].

(** randommaps.py:92-106 *)
Definition MapLand_asdict (x : MapLand) : tree := TDict [
  ("land_id", TInt (MapLand_land_id x));
  ("terrain", TInt (MapLand_terrain x));
  ("land_spacing", TInt (MapLand_land_spacing x));
  ("base_size", TInt (MapLand_base_size x));
  ("zone", TInt (MapLand_zone x));
  ("placement_type", TInt (MapLand_placement_type x));
  ("padding_1", TInt (MapLand_padding_1 x));
  ("base_x", TInt (MapLand_base_x x));
  ("base_y", TInt (MapLand_base_y x));
  ("land_proportion", TInt (MapLand_land_proportion x));
  ("by_player_flag", TInt (MapLand_by_player_flag x));
  ("padding_2", TInt (MapLand_padding_2 x));
  ("start_area_radius", TInt (MapLand_start_area_radius x));
  ("terrain_edge_fade", TInt (MapLand_terrain_edge_fade x));
  ("clumpiness", TInt (MapLand_clumpiness x))].

(** randommaps.py:150-155 *)
Definition MapElevation_asdict (x : MapElevation) : tree := TDict [
  ("proportion", TInt (MapElevation_proportion x));
  ("terrain", TInt (MapElevation_terrain x));
  ("clump_count", TInt (MapElevation_clump_count x));
  ("base_terrain", TInt (MapElevation_base_terrain x));
  ("base_elevation", TInt (MapElevation_base_elevation x));
  ("tile_spacing", TInt (MapElevation_tile_spacing x))].

(** randommaps.py:181-202 *)
Definition MapInfo_asdict (x : MapInfo) : tree := TDict [
  ("map_id", TInt (MapInfo_map_id x));
  ("border_south_west", TInt (MapInfo_border_south_west x));
  ("border_north_west", TInt (MapInfo_border_north_west x));
  ("border_north_east", TInt (MapInfo_border_north_east x));
  ("border_south_east", TInt (MapInfo_border_south_east x));
  ("border_usage", TInt (MapInfo_border_usage x));
  ("water_shape", TInt (MapInfo_water_shape x));
  ("base_terrain", TInt (MapInfo_base_terrain x));
  ("land_coverage", TInt (MapInfo_land_coverage x));
  ("unused_id", TInt (MapInfo_unused_id x));
  ("map_lands_size", TInt (MapInfo_map_lands_size x));
  ("map_lands_ptr", TInt (MapInfo_map_lands_ptr x));
  ("map_lands", TList (map MapLand_asdict (MapInfo_map_lands x)));
  ("map_terrains_size", TInt (MapInfo_map_terrains_size x));
  ("map_terrains_ptr", TInt (MapInfo_map_terrains_ptr x));
  ("map_terrains", TList (map MapTerrain_asdict (MapInfo_map_terrains x)));
  ("map_units_size", TInt (MapInfo_map_units_size x));
  ("map_units_ptr", TInt (MapInfo_map_units_ptr x));
  ("map_units", TList (map MapUnit_asdict (MapInfo_map_units x)));
  ("map_elevations_size", TInt (MapInfo_map_elevations_size x));
  ("map_elevations_ptr", TInt (MapInfo_map_elevations_ptr x));
  ("map_elevations", TList (map MapElevation_asdict (MapInfo_map_elevations x)))].

(** randommaps.py:282-284 *)
Definition RandomMaps_asdict (x : RandomMaps) : tree := TDict [
  ("random_maps_ptr", TInt (RandomMaps_random_maps_ptr x));
  ("map_info_1", TList (map MapInfo_asdict (RandomMaps_map_info_1 x)));
  ("map_info_2", TList (map MapInfo_asdict (RandomMaps_map_info_2 x)))].

(** task.py:16-47 *)
Definition Task_asdict (x : Task) : tree := TDict [
  ("task_type", TInt (Task_task_type x));
  ("id", TInt (Task_id x));
  ("is_default", TInt (Task_is_default x));
  ("action_type", TInt (Task_action_type x));
  ("class_id", TInt (Task_class_id x));
  ("unit_id", TInt (Task_unit_id x));
  ("terrain_id", TInt (Task_terrain_id x));
  ("resource_in", TInt (Task_resource_in x));
  ("resource_multiplier", TInt (Task_resource_multiplier x));
  ("resource_out", TInt (Task_resource_out x));
  ("unused_resource", TInt (Task_unused_resource x));
  ("work_value_1", TFloat (Task_work_value_1 x));
  ("work_value_2", TFloat (Task_work_value_2 x));
  ("work_range", TFloat (Task_work_range x));
  ("auto_search_targets", TInt (Task_auto_search_targets x));
  ("search_wait_time", TFloat (Task_search_wait_time x));
  ("enable_targeting", TInt (Task_enable_targeting x));
  ("combat_level_flag", TInt (Task_combat_level_flag x));
  ("gather_type", TInt (Task_gather_type x));
  ("work_flag_2", TInt (Task_work_flag_2 x));
  ("target_diplomacy", TInt (Task_target_diplomacy x));
  ("carry_check", TInt (Task_carry_check x));
  ("pick_for_construction", TInt (Task_pick_for_construction x));
  ("moving_graphic_id", TInt (Task_moving_graphic_id x));
  ("proceeding_graphic_id", TInt (Task_proceeding_graphic_id x));
  ("working_graphic_id", TInt (Task_working_graphic_id x));
  ("carrying_graphic_id", TInt (Task_carrying_graphic_id x));
  ("resource_gathering_sound_id", TInt (Task_resource_gathering_sound_id x));
  ("resource_deposit_sound_id", TInt (Task_resource_deposit_sound_id x));
  ("wwise_resource_gathering_sound_id", TInt (Task_wwise_resource_gathering_sound_id x));
  ("wwise_resource_deposit_sound_id", TInt (Task_wwise_resource_deposit_sound_id x));
  ("enabled", TInt (Task_enabled x))].

(** unitheaders.py:10-11 *)
Definition UnitHeaders_asdict (x : UnitHeaders) : tree := TDict [
  ("exists", TInt (UnitHeaders_exists_ x));
  ("task_list", of_option (fun l => TList (map Task_asdict l)) (UnitHeaders_task_list x))].

(** unit.py:14-16 *)
Definition ResourceStorage_asdict (x : ResourceStorage) : tree := TDict [
  ("type", TInt (ResourceStorage_type x));
  ("amount", TFloat (ResourceStorage_amount x));
  ("flag", TInt (ResourceStorage_flag x))].

(** unit.py:38-40 *)
Definition DamageGraphic_asdict (x : DamageGraphic) : tree := TDict [
  ("graphic_id", TInt (DamageGraphic_graphic_id x));
  ("damage_percent", TInt (DamageGraphic_damage_percent x));
  ("apply_mode", TInt (DamageGraphic_apply_mode x))].

(** unit.py:63-76 *)
Definition DeadFish_asdict (x : DeadFish) : tree := TDict [
  ("walking_graphic", TInt (DeadFish_walking_graphic x));
  ("running_graphic", TInt (DeadFish_running_graphic x));
  ("rotation_speed", TFloat (DeadFish_rotation_speed x));
  ("old_size_class", TInt (DeadFish_old_size_class x));
  ("tracking_unit", TInt (DeadFish_tracking_unit x));
  ("tracking_unit_mode", TInt (DeadFish_tracking_unit_mode x));
  ("tracking_unit_density", TFloat (DeadFish_tracking_unit_density x));
  ("old_move_algorithm", TInt (DeadFish_old_move_algorithm x));
  ("turn_radius", TFloat (DeadFish_turn_radius x));
  ("turn_radius_speed", TFloat (DeadFish_turn_radius_speed x));
  ("max_yaw_per_second_moving", TFloat (DeadFish_max_yaw_per_second_moving x));
  ("stationary_yaw_revolution_time", TFloat (DeadFish_stationary_yaw_revolution_time x));
  ("max_yaw_per_second_stationary", TFloat (DeadFish_max_yaw_per_second_stationary x));
  ("min_collision_size_multiplier", TFloat (DeadFish_min_collision_size_multiplier x))].

(** unit.py:133-143 *)
Definition Bird_asdict (x : Bird) : tree := TDict [
  ("default_task_id", TInt (Bird_default_task_id x));
  ("search_radius", TFloat (Bird_search_radius x));
  ("work_rate", TFloat (Bird_work_rate x));
  ("drop_sites", TList (map TInt (Bird_drop_sites x)));
  ("task_swap_group", TInt (Bird_task_swap_group x));
  ("attack_sound", TInt (Bird_attack_sound x));
  ("move_sound", TInt (Bird_move_sound x));
  ("wwise_attack_sound_id", TInt (Bird_wwise_attack_sound_id x));
  ("wwise_move_sound_id", TInt (Bird_wwise_move_sound_id x));
  ("run_pattern", TInt (Bird_run_pattern x));
  ("tasks", TList (map Task_asdict (Bird_tasks x)))].

(** unit.py:200-201 *)
Definition AttackOrArmor_asdict (x : AttackOrArmor) : tree := TDict [
  ("class_", TInt (AttackOrArmor_class_ x));
  ("amount", TInt (AttackOrArmor_amount x))].

(** unit.py:217-243 *)
Definition Type50_asdict (x : Type50) : tree := TDict [
  ("base_armor", TInt (Type50_base_armor x));
  ("attacks", TList (map AttackOrArmor_asdict (Type50_attacks x)));
  ("armours", TList (map AttackOrArmor_asdict (Type50_armours x)));
  ("defense_terrain_bonus", TInt (Type50_defense_terrain_bonus x));
  ("bonus_damage_resistance", TFloat (Type50_bonus_damage_resistance x));
  ("max_range", TFloat (Type50_max_range x));
  ("blast_width", TFloat (Type50_blast_width x));
  ("reload_time", TFloat (Type50_reload_time x));
  ("projectile_unit_id", TInt (Type50_projectile_unit_id x));
  ("accuracy_percent", TInt (Type50_accuracy_percent x));
  ("break_off_combat", TInt (Type50_break_off_combat x));
  ("frame_delay", TInt (Type50_frame_delay x));
  ("graphic_displacement", TList (map TFloat (Type50_graphic_displacement x)));
  ("blast_attack_level", TInt (Type50_blast_attack_level x));
  ("min_range", TFloat (Type50_min_range x));
  ("accuracy_dispersion", TFloat (Type50_accuracy_dispersion x));
  ("attack_graphic", TInt (Type50_attack_graphic x));
  ("displayed_melee_armour", TInt (Type50_displayed_melee_armour x));
  ("displayed_attack", TInt (Type50_displayed_attack x));
  ("displayed_range", TFloat (Type50_displayed_range x));
  ("displayed_reload_time", TFloat (Type50_displayed_reload_time x));
  ("blast_damage", TFloat (Type50_blast_damage x));
  ("damage_reflection", TFloat (Type50_damage_reflection x));
  ("friendly_fire_damage", TFloat (Type50_friendly_fire_damage x));
  ("interrupt_frame", TInt (Type50_interrupt_frame x));
  ("garrison_firepower", TFloat (Type50_garrison_firepower x));
  ("attack_graphic_2", TInt (Type50_attack_graphic_2 x))].

(** unit.py:356-361 *)
Definition Projectile_asdict (x : Projectile) : tree := TDict [
  ("projectile_type", TInt (Projectile_projectile_type x));
  ("smart_mode", TInt (Projectile_smart_mode x));
  ("hit_mode", TInt (Projectile_hit_mode x));
  ("vanish_mode", TInt (Projectile_vanish_mode x));
  ("area_effect_specials", TInt (Projectile_area_effect_specials x));
  ("projectile_arc", TFloat (Projectile_projectile_arc x))].

(** unit.py:397-399 *)
Definition ResourceCost_asdict (x : ResourceCost) : tree := TDict [
  ("type", TInt (ResourceCost_type x));
  ("amount", TInt (ResourceCost_amount x));
  ("flag", TInt (ResourceCost_flag x))].

(** unit.py:423-426 *)
Definition TrainLocation_asdict (x : TrainLocation) : tree := TDict [
  ("train_time", TInt (TrainLocation_train_time x));
  ("unit_id", TInt (TrainLocation_unit_id x));
  ("button_id", TInt (TrainLocation_button_id x));
  ("hot_key_id", TInt (TrainLocation_hot_key_id x))].

(** unit.py:475-507 *)
Definition Creatable_asdict (x : Creatable) : tree := TDict [
  ("resource_costs", TList (map ResourceCost_asdict (Creatable_resource_costs x)));
  ("train_locations", TList (map TrainLocation_asdict (Creatable_train_locations x)));
  ("rear_attack_modifier", TFloat (Creatable_rear_attack_modifier x));
  ("flank_attack_modifier", TFloat (Creatable_flank_attack_modifier x));
  ("creatable_type", TInt (Creatable_creatable_type x));
  ("hero_mode", TInt (Creatable_hero_mode x));
  ("garrison_graphic", TInt (Creatable_garrison_graphic x));
  ("spawning_graphic", TInt (Creatable_spawning_graphic x));
  ("upgrade_graphic", TInt (Creatable_upgrade_graphic x));
  ("hero_glow_graphic", TInt (Creatable_hero_glow_graphic x));
  ("idle_attack_graphic", TInt (Creatable_idle_attack_graphic x));
  ("max_charge", TFloat (Creatable_max_charge x));
  ("recharge_rate", TFloat (Creatable_recharge_rate x));
  ("charge_event", TInt (Creatable_charge_event x));
  ("charge_type", TInt (Creatable_charge_type x));
  ("charge_target", TInt (Creatable_charge_target x));
  ("charge_projectile_unit", TInt (Creatable_charge_projectile_unit x));
  ("attack_priority", TInt (Creatable_attack_priority x));
  ("invulnerability_level", TFloat (Creatable_invulnerability_level x));
  ("button_icon_id", TInt (Creatable_button_icon_id x));
  ("button_short_tooltip_id", TInt (Creatable_button_short_tooltip_id x));
  ("button_extended_tooltip_id", TInt (Creatable_button_extended_tooltip_id x));
  ("button_hotkey_action", TInt (Creatable_button_hotkey_action x));
  ("min_conversion_time_mod", TFloat (Creatable_min_conversion_time_mod x));
  ("max_conversion_time_mod", TFloat (Creatable_max_conversion_time_mod x));
  ("conversion_chance_mod", TFloat (Creatable_conversion_chance_mod x));
  ("total_projectiles", TFloat (Creatable_total_projectiles x));
  ("max_total_projectiles", TInt (Creatable_max_total_projectiles x));
  ("projectile_spawning_area", TList (map TFloat (Creatable_projectile_spawning_area x)));
  ("secondary_projectile_unit", TInt (Creatable_secondary_projectile_unit x));
  ("special_graphic", TInt (Creatable_special_graphic x));
  ("special_ability", TInt (Creatable_special_ability x));
  ("displayed_pierce_armour", TInt (Creatable_displayed_pierce_armour x))].

(** unit.py:879-881 *)
Definition BuildingAnnex_asdict (x : BuildingAnnex) : tree := TDict [
  ("unit_id", TInt (BuildingAnnex_unit_id x));
  ("misplacement_x", TFloat (BuildingAnnex_misplacement_x x));
  ("misplacement_y", TFloat (BuildingAnnex_misplacement_y x))].

(** unit.py:910-935 *)
Definition Building_asdict (x : Building) : tree := TDict [
  ("construction_graphic_id", TInt (Building_construction_graphic_id x));
  ("snow_graphic_id", TInt (Building_snow_graphic_id x));
  ("destruction_graphic_id", TInt (Building_destruction_graphic_id x));
  ("destruction_rubble_graphic_id", TInt (Building_destruction_rubble_graphic_id x));
  ("researching_graphic", TInt (Building_researching_graphic x));
  ("research_completed_graphic", TInt (Building_research_completed_graphic x));
  ("adjacent_mode", TInt (Building_adjacent_mode x));
  ("graphics_angle", TInt (Building_graphics_angle x));
  ("disappears_when_built", TInt (Building_disappears_when_built x));
  ("stack_unit_id", TInt (Building_stack_unit_id x));
  ("foundation_terrain_id", TInt (Building_foundation_terrain_id x));
  ("old_overlap_id", TInt (Building_old_overlap_id x));
  ("tech_id", TInt (Building_tech_id x));
  ("can_burn", TInt (Building_can_burn x));
  ("annexes", TList (map BuildingAnnex_asdict (Building_annexes x)));
  ("head_unit", TInt (Building_head_unit x));
  ("transform_unit", TInt (Building_transform_unit x));
  ("transform_sound", TInt (Building_transform_sound x));
  ("construction_sound", TInt (Building_construction_sound x));
  ("wwise_transform_sound_id", TInt (Building_wwise_transform_sound_id x));
  ("wwise_construction_sound_id", TInt (Building_wwise_construction_sound_id x));
  ("garrison_type", TInt (Building_garrison_type x));
  ("garrison_heal_rate", TFloat (Building_garrison_heal_rate x));
  ("garrison_repair_rate", TFloat (Building_garrison_repair_rate x));
  ("pile_unit", TInt (Building_pile_unit x));
  ("looting_table", TList (map TInt (Building_looting_table x)))].

(** unit.py:1052-1133 *)
Definition Unit_asdict (x : Unit) : tree := TDict [
  ("type", TInt (Unit_type x));
  ("id", TInt (Unit_id x));
  ("language_dll_name", TInt (Unit_language_dll_name x));
  ("language_dll_creation", TInt (Unit_language_dll_creation x));
  ("class_", TInt (Unit_class_ x));
  ("standing_graphic", TList (map TInt (Unit_standing_graphic x)));
  ("dying_graphic", TInt (Unit_dying_graphic x));
  ("undead_graphic", TInt (Unit_undead_graphic x));
  ("undead_mode", TInt (Unit_undead_mode x));
  ("hit_points", TInt (Unit_hit_points x));
  ("line_of_sight", TFloat (Unit_line_of_sight x));
  ("garrison_capacity", TInt (Unit_garrison_capacity x));
  ("collision_size_x", TFloat (Unit_collision_size_x x));
  ("collision_size_y", TFloat (Unit_collision_size_y x));
  ("collision_size_z", TFloat (Unit_collision_size_z x));
  ("train_sound", TInt (Unit_train_sound x));
  ("damage_sound", TInt (Unit_damage_sound x));
  ("dead_unit_id", TInt (Unit_dead_unit_id x));
  ("blood_unit_id", TInt (Unit_blood_unit_id x));
  ("sort_number", TInt (Unit_sort_number x));
  ("can_be_built_on", TInt (Unit_can_be_built_on x));
  ("icon_id", TInt (Unit_icon_id x));
  ("hide_in_editor", TInt (Unit_hide_in_editor x));
  ("old_portrait_pict", TInt (Unit_old_portrait_pict x));
  ("enabled", TInt (Unit_enabled x));
  ("disabled", TInt (Unit_disabled x));
  ("placement_side_terrain", TList (map TInt (Unit_placement_side_terrain x)));
  ("placement_terrain", TList (map TInt (Unit_placement_terrain x)));
  ("clearance_size", TList (map TFloat (Unit_clearance_size x)));
  ("hill_mode", TInt (Unit_hill_mode x));
  ("fog_visibility", TInt (Unit_fog_visibility x));
  ("terrain_restriction", TInt (Unit_terrain_restriction x));
  ("fly_mode", TInt (Unit_fly_mode x));
  ("resource_capacity", TInt (Unit_resource_capacity x));
  ("resource_decay", TFloat (Unit_resource_decay x));
  ("blast_defense_level", TInt (Unit_blast_defense_level x));
  ("combat_level", TInt (Unit_combat_level x));
  ("interaction_mode", TInt (Unit_interaction_mode x));
  ("minimap_mode", TInt (Unit_minimap_mode x));
  ("interface_kind", TInt (Unit_interface_kind x));
  ("multiple_attribute_mode", TFloat (Unit_multiple_attribute_mode x));
  ("minimap_color", TInt (Unit_minimap_color x));
  ("language_dll_help", TInt (Unit_language_dll_help x));
  ("language_dll_hotkey_text", TInt (Unit_language_dll_hotkey_text x));
  ("hot_key", TInt (Unit_hot_key x));
  ("recyclable", TInt (Unit_recyclable x));
  ("enable_auto_gather", TInt (Unit_enable_auto_gather x));
  ("create_doppelganger_on_death", TInt (Unit_create_doppelganger_on_death x));
  ("resource_gather_group", TInt (Unit_resource_gather_group x));
  ("occlusion_mode", TInt (Unit_occlusion_mode x));
  ("obstruction_type", TInt (Unit_obstruction_type x));
  ("obstruction_class", TInt (Unit_obstruction_class x));
  ("trait", TInt (Unit_trait x));
  ("civilization", TInt (Unit_civilization x));
  ("nothing", TInt (Unit_nothing x));
  ("selection_effect", TInt (Unit_selection_effect x));
  ("editor_selection_colour", TInt (Unit_editor_selection_colour x));
  ("outline_size_x", TFloat (Unit_outline_size_x x));
  ("outline_size_y", TFloat (Unit_outline_size_y x));
  ("outline_size_z", TFloat (Unit_outline_size_z x));
  ("scenario_triggers_1", TInt (Unit_scenario_triggers_1 x));
  ("scenario_triggers_2", TInt (Unit_scenario_triggers_2 x));
  ("resource_storages", TList (map ResourceStorage_asdict (Unit_resource_storages x)));
  ("damage_graphics", TList (map DamageGraphic_asdict (Unit_damage_graphics x)));
  ("selection_sound", TInt (Unit_selection_sound x));
  ("dying_sound", TInt (Unit_dying_sound x));
  ("wwise_train_sound_id", TInt (Unit_wwise_train_sound_id x));
  ("wwise_damage_sound_id", TInt (Unit_wwise_damage_sound_id x));
  ("wwise_selection_sound_id", TInt (Unit_wwise_selection_sound_id x));
  ("wwise_dying_sound_id", TInt (Unit_wwise_dying_sound_id x));
  ("old_attack_reaction", TInt (Unit_old_attack_reaction x));
  ("convert_terrain", TInt (Unit_convert_terrain x));
  ("name", TText (Unit_name x));
  ("copy_id", TInt (Unit_copy_id x));
  ("base_id", TInt (Unit_base_id x));
  ("speed", of_option TFloat (Unit_speed x));
  ("dead_fish", of_option DeadFish_asdict (Unit_dead_fish x));
  ("bird", of_option Bird_asdict (Unit_bird x));
  ("type_50", of_option Type50_asdict (Unit_type_50 x));
  ("projectile", of_option Projectile_asdict (Unit_projectile x));
  ("creatable", of_option Creatable_asdict (Unit_creatable x));
  ("building", of_option Building_asdict (Unit_building x))].

(** civ.py:10-16 *)
Definition Civ_asdict (x : Civ) : tree := TDict [
  ("player_type", TInt (Civ_player_type x));
  ("name", TText (Civ_name x));
  ("tech_tree_id", TInt (Civ_tech_tree_id x));
  ("team_bonus_id", TInt (Civ_team_bonus_id x));
  ("resources", TList (map TFloat (Civ_resources x)));
  ("icon_set", TInt (Civ_icon_set x));
  ("units", TList (map (of_option Unit_asdict) (Civ_units x)))].

(** tech.py:9-11 *)
Definition ResearchResourceCost_asdict (x : ResearchResourceCost) : tree := TDict [
  ("type", TInt (ResearchResourceCost_type x));
  ("amount", TInt (ResearchResourceCost_amount x));
  ("flag", TInt (ResearchResourceCost_flag x))].

(** tech.py:31-34 *)
Definition ResearchLocation_asdict (x : ResearchLocation) : tree := TDict [
  ("location_id", TInt (ResearchLocation_location_id x));
  ("research_time", TInt (ResearchLocation_research_time x));
  ("button_id", TInt (ResearchLocation_button_id x));
  ("hot_key_id", TInt (ResearchLocation_hot_key_id x))].

(** tech.py:56-70 *)
Definition Tech_asdict (x : Tech) : tree := TDict [
  ("required_techs", TList (map TInt (Tech_required_techs x)));
  ("resource_costs", TList (map ResearchResourceCost_asdict (Tech_resource_costs x)));
  ("required_tech_count", TInt (Tech_required_tech_count x));
  ("civ", TInt (Tech_civ x));
  ("full_tech_mode", TInt (Tech_full_tech_mode x));
  ("language_dll_name", TInt (Tech_language_dll_name x));
  ("language_dll_description", TInt (Tech_language_dll_description x));
  ("effect_id", TInt (Tech_effect_id x));
  ("type", TInt (Tech_type x));
  ("icon_id", TInt (Tech_icon_id x));
  ("language_dll_help", TInt (Tech_language_dll_help x));
  ("language_dll_tech_tree", TInt (Tech_language_dll_tech_tree x));
  ("name", TText (Tech_name x));
  ("repeatable", TInt (Tech_repeatable x));
  ("research_locations", TList (map ResearchLocation_asdict (Tech_research_locations x)))].

(** techtree.py:9-11 *)
Definition Common_asdict (x : Common) : tree := TDict [
  ("slots_used", TInt (Common_slots_used x));
  ("unit_research", TList (map TInt (Common_unit_research x)));
  ("mode", TList (map TInt (Common_mode x)))].

(** techtree.py:31-41 *)
Definition TechTreeAge_asdict (x : TechTreeAge) : tree := TDict [
  ("id", TInt (TechTreeAge_id x));
  ("status", TInt (TechTreeAge_status x));
  ("buildings", TList (map TInt (TechTreeAge_buildings x)));
  ("units", TList (map TInt (TechTreeAge_units x)));
  ("techs", TList (map TInt (TechTreeAge_techs x)));
  ("common", Common_asdict (TechTreeAge_common x));
  ("num_building_levels", TInt (TechTreeAge_num_building_levels x));
  ("buildings_per_zone", TList (map TInt (TechTreeAge_buildings_per_zone x)));
  ("group_length_per_zone", TList (map TInt (TechTreeAge_group_length_per_zone x)));
  ("max_age_length", TInt (TechTreeAge_max_age_length x));
  ("line_mode", TInt (TechTreeAge_line_mode x))].

(** techtree.py:94-104 *)
Definition BuildingConnection_asdict (x : BuildingConnection) : tree := TDict [
  ("id", TInt (BuildingConnection_id x));
  ("status", TInt (BuildingConnection_status x));
  ("buildings", TList (map TInt (BuildingConnection_buildings x)));
  ("units", TList (map TInt (BuildingConnection_units x)));
  ("techs", TList (map TInt (BuildingConnection_techs x)));
  ("common", Common_asdict (BuildingConnection_common x));
  ("location_in_age", TInt (BuildingConnection_location_in_age x));
  ("units_techs_total", TList (map TInt (BuildingConnection_units_techs_total x)));
  ("units_techs_first", TList (map TInt (BuildingConnection_units_techs_first x)));
  ("line_mode", TInt (BuildingConnection_line_mode x));
  ("enabling_research", TInt (BuildingConnection_enabling_research x))].

(** techtree.py:157-166 *)
Definition UnitConnection_asdict (x : UnitConnection) : tree := TDict [
  ("id", TInt (UnitConnection_id x));
  ("status", TInt (UnitConnection_status x));
  ("upper_building", TInt (UnitConnection_upper_building x));
  ("common", Common_asdict (UnitConnection_common x));
  ("vertical_line", TInt (UnitConnection_vertical_line x));
  ("units", TList (map TInt (UnitConnection_units x)));
  ("location_in_age", TInt (UnitConnection_location_in_age x));
  ("required_research", TInt (UnitConnection_required_research x));
  ("line_mode", TInt (UnitConnection_line_mode x));
  ("enabling_research", TInt (UnitConnection_enabling_research x))].

(** techtree.py:212-221 *)
Definition ResearchConnection_asdict (x : ResearchConnection) : tree := TDict [
  ("id", TInt (ResearchConnection_id x));
  ("status", TInt (ResearchConnection_status x));
  ("upper_building", TInt (ResearchConnection_upper_building x));
  ("buildings", TList (map TInt (ResearchConnection_buildings x)));
  ("units", TList (map TInt (ResearchConnection_units x)));
  ("techs", TList (map TInt (ResearchConnection_techs x)));
  ("common", Common_asdict (ResearchConnection_common x));
  ("vertical_line", TInt (ResearchConnection_vertical_line x));
  ("location_in_age", TInt (ResearchConnection_location_in_age x));
  ("line_mode", TInt (ResearchConnection_line_mode x))].

(** techtree.py:271-275 *)
Definition TechTree_asdict (x : TechTree) : tree := TDict [
  ("total_unit_tech_groups", TInt (TechTree_total_unit_tech_groups x));
  ("tech_tree_ages", TList (map TechTreeAge_asdict (TechTree_tech_tree_ages x)));
  ("building_connections", TList (map BuildingConnection_asdict (TechTree_building_connections x)));
  ("unit_connections", TList (map UnitConnection_asdict (TechTree_unit_connections x)));
  ("research_connections", TList (map ResearchConnection_asdict (TechTree_research_connections x)))].

(** datfile.py:23-43 *)
Definition DatFile_asdict (x : DatFile) : tree := TDict [
  ("version", TText (DatFile_version x));
  ("float_ptr_terrain_tables", TList (map TInt (DatFile_float_ptr_terrain_tables x)));
  ("terrain_pass_graphic_pointers", TList (map TInt (DatFile_terrain_pass_graphic_pointers x)));
  ("terrain_restrictions", TList (map TerrainRestriction_asdict (DatFile_terrain_restrictions x)));
  ("player_colours", TList (map PlayerColour_asdict (DatFile_player_colours x)));
  ("sounds", TList (map Sound_asdict (DatFile_sounds x)));
  ("graphics", TList (map (of_option Graphic_asdict) (DatFile_graphics x)));
  ("terrain_block", TerrainBlock_asdict (DatFile_terrain_block x));
  ("random_maps", RandomMaps_asdict (DatFile_random_maps x));
  ("effects", TList (map Effect_asdict (DatFile_effects x)));
  ("unit_headers", TList (map UnitHeaders_asdict (DatFile_unit_headers x)));
  ("civs", TList (map Civ_asdict (DatFile_civs x)));
  ("techs", TList (map Tech_asdict (DatFile_techs x)));
  ("time_slice", TInt (DatFile_time_slice x));
  ("unit_kill_rate", TInt (DatFile_unit_kill_rate x));
  ("unit_kill_total", TInt (DatFile_unit_kill_total x));
  ("unit_hit_point_rate", TInt (DatFile_unit_hit_point_rate x));
  ("unit_hit_point_total", TInt (DatFile_unit_hit_point_total x));
  ("razing_kill_rate", TInt (DatFile_razing_kill_rate x));
  ("razing_kill_total", TInt (DatFile_razing_kill_total x));
  ("tech_tree", TechTree_asdict (DatFile_tech_tree x))].

(** Before 8.4 the reader sets [invulnerability_level = 0] (unit.py:551): an int, for which the record of
    the model has the float 0.0 (they are equal in Python, but printed differently). *)
Fixpoint int_levels (t : tree) : tree :=
  match t with
  | TList l => TList (map int_levels l)
  | TDict l => TDict (map (fun kt => if String.eqb (fst kt) "invulnerability_level" then (fst kt, TInt 0) else (fst kt, int_levels (snd kt))) l)
  | t => t
  end.
(** [dataclasses.asdict] of a file as it was loaded. *)
Definition shown (x : DatFile) : tree :=
  match version_lookup (DatFile_version x) with
  | Ok v => if version_ge v VER_84 then DatFile_asdict x else int_levels (DatFile_asdict x)
  | Err _ => DatFile_asdict x
  end.
(** scripts.py:18-19: [DatFile.parse(args.filename)], then the dump. *)
Definition dat_to_json (inflate : bytes -> res bytes) (f : fs) (p : path) : res tree :=
  rbind (parse inflate f p) (fun x => Ok (shown x)).
