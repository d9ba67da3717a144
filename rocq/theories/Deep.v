(** * The records of the typed model as Python objects

    Generated by tools/gen_deep.py from the dataclass declarations in /repo: the class, and the
    fields in the order of declaration with their contents. *)
From Verif Require Import Base PyInt PyFloat PyStr Versions Py PyRep.
From Verif Require Import M_Sound M_PlayerColour M_Effect M_TerrainRestriction M_Graphic
  M_TerrainBlock M_RandomMaps M_Task M_UnitHeaders M_Unit M_Civ M_Tech M_TechTree M_DatFile.
From Coq Require Import String.
Open Scope Z_scope.
Local Open Scope list_scope.
Local Open Scope string_scope.


(** sound.py:9-13 *)
Definition SoundItem_deep (x : SoundItem) : deep := DObj "SoundItem" [
  ("filename", DStr (SoundItem_filename x));
  ("resource_id", DInt (SoundItem_resource_id x));
  ("probability", DInt (SoundItem_probability x));
  ("civilization", DInt (SoundItem_civilization x));
  ("icon_set", DInt (SoundItem_icon_set x))].

(** sound.py:37-41 *)
Definition Sound_deep (x : Sound) : deep := DObj "Sound" [
  ("id", DInt (Sound_id x));
  ("play_delay", DInt (Sound_play_delay x));
  ("cache_time", DInt (Sound_cache_time x));
  ("total_probability", DInt (Sound_total_probability x));
  ("items", DList (map SoundItem_deep (Sound_items x)))].

(** playercolour.py:9-17 *)
Definition PlayerColour_deep (x : PlayerColour) : deep := DObj "PlayerColour" [
  ("id", DInt (PlayerColour_id x));
  ("player_color_base", DInt (PlayerColour_player_color_base x));
  ("unit_outline_color", DInt (PlayerColour_unit_outline_color x));
  ("unit_selection_color_1", DInt (PlayerColour_unit_selection_color_1 x));
  ("unit_selection_color_2", DInt (PlayerColour_unit_selection_color_2 x));
  ("minimap_color", DInt (PlayerColour_minimap_color x));
  ("minimap_color_2", DInt (PlayerColour_minimap_color_2 x));
  ("minimap_color_3", DInt (PlayerColour_minimap_color_3 x));
  ("statistics_text", DInt (PlayerColour_statistics_text x))].

(** effect.py:9-13 *)
Definition EffectCommand_deep (x : EffectCommand) : deep := DObj "EffectCommand" [
  ("type", DInt (EffectCommand_type x));
  ("a", DInt (EffectCommand_a x));
  ("b", DInt (EffectCommand_b x));
  ("c", DInt (EffectCommand_c x));
  ("d", DFloat (EffectCommand_d x))].

(** effect.py:37-38 *)
Definition Effect_deep (x : Effect) : deep := DObj "Effect" [
  ("name", DStr (Effect_name x));
  ("effect_commands", DList (map EffectCommand_deep (Effect_effect_commands x)))].

(** terrainrestriction.py:9-12 *)
Definition TerrainPassGraphic_deep (x : TerrainPassGraphic) : deep := DObj "TerrainPassGraphic" [
  ("exit_tile_sprite_id", DInt (TerrainPassGraphic_exit_tile_sprite_id x));
  ("enter_tile_sprite_id", DInt (TerrainPassGraphic_enter_tile_sprite_id x));
  ("walk_tile_sprite_id", DInt (TerrainPassGraphic_walk_tile_sprite_id x));
  ("walk_sprite_rate", DInt (TerrainPassGraphic_walk_sprite_rate x))].

(** terrainrestriction.py:34-35 *)
Definition TerrainRestriction_deep (x : TerrainRestriction) : deep := DObj "TerrainRestriction" [
  ("passable_buildable_dmg_multiplier", DList (map DFloat (TerrainRestriction_passable_buildable_dmg_multiplier x)));
  ("terrain_pass_graphics", DList (map TerrainPassGraphic_deep (TerrainRestriction_terrain_pass_graphics x)))].

(** graphic.py:9-15 *)
Definition GraphicDelta_deep (x : GraphicDelta) : deep := DObj "GraphicDelta" [
  ("graphic_id", DInt (GraphicDelta_graphic_id x));
  ("padding_1", DInt (GraphicDelta_padding_1 x));
  ("sprite_ptr", DInt (GraphicDelta_sprite_ptr x));
  ("offset_x", DInt (GraphicDelta_offset_x x));
  ("offset_y", DInt (GraphicDelta_offset_y x));
  ("display_angle", DInt (GraphicDelta_display_angle x));
  ("padding_2", DInt (GraphicDelta_padding_2 x))].

(** graphic.py:43-51 *)
Definition GraphicAngleSound_deep (x : GraphicAngleSound) : deep := DObj "GraphicAngleSound" [
  ("frame_num", DInt (GraphicAngleSound_frame_num x));
  ("sound_id", DInt (GraphicAngleSound_sound_id x));
  ("wwise_sound_id", DInt (GraphicAngleSound_wwise_sound_id x));
  ("frame_num_2", DInt (GraphicAngleSound_frame_num_2 x));
  ("sound_id_2", DInt (GraphicAngleSound_sound_id_2 x));
  ("wwise_sound_id_2", DInt (GraphicAngleSound_wwise_sound_id_2 x));
  ("frame_num_3", DInt (GraphicAngleSound_frame_num_3 x));
  ("sound_id_3", DInt (GraphicAngleSound_sound_id_3 x));
  ("wwise_sound_id_3", DInt (GraphicAngleSound_wwise_sound_id_3 x))].

(** graphic.py:83-106 *)
Definition Graphic_deep (x : Graphic) : deep := DObj "Graphic" [
  ("name", DStr (Graphic_name x));
  ("file_name", DStr (Graphic_file_name x));
  ("particle_effect_name", DStr (Graphic_particle_effect_name x));
  ("slp", DInt (Graphic_slp x));
  ("is_loaded", DInt (Graphic_is_loaded x));
  ("old_color_flag", DInt (Graphic_old_color_flag x));
  ("layer", DInt (Graphic_layer x));
  ("player_color", DInt (Graphic_player_color x));
  ("transparent_selection", DInt (Graphic_transparent_selection x));
  ("coordinates", DTuple (map DInt (Graphic_coordinates x)));
  ("sound_id", DInt (Graphic_sound_id x));
  ("wwise_sound_id", DInt (Graphic_wwise_sound_id x));
  ("angle_sounds_used", DInt (Graphic_angle_sounds_used x));
  ("frame_count", DInt (Graphic_frame_count x));
  ("angle_count", DInt (Graphic_angle_count x));
  ("speed_multiplier", DFloat (Graphic_speed_multiplier x));
  ("frame_duration", DFloat (Graphic_frame_duration x));
  ("replay_delay", DFloat (Graphic_replay_delay x));
  ("sequence_type", DInt (Graphic_sequence_type x));
  ("id", DInt (Graphic_id x));
  ("mirroring_mode", DInt (Graphic_mirroring_mode x));
  ("editor_flag", DInt (Graphic_editor_flag x));
  ("deltas", DList (map GraphicDelta_deep (Graphic_deltas x)));
  ("angle_sounds", DList (map GraphicAngleSound_deep (Graphic_angle_sounds x)))].

(** terrainblock.py:9-11 *)
Definition FrameData_deep (x : FrameData) : deep := DObj "FrameData" [
  ("frame_count", DInt (FrameData_frame_count x));
  ("angle_count", DInt (FrameData_angle_count x));
  ("shape_id", DInt (FrameData_shape_id x))].

(** terrainblock.py:31-68 *)
Definition Terrain_deep (x : Terrain) : deep := DObj "Terrain" [
  ("enabled", DInt (Terrain_enabled x));
  ("random", DInt (Terrain_random x));
  ("is_water", DInt (Terrain_is_water x));
  ("hide_in_editor", DInt (Terrain_hide_in_editor x));
  ("string_id", DInt (Terrain_string_id x));
  ("name", DStr (Terrain_name x));
  ("name_2", DStr (Terrain_name_2 x));
  ("slp", DInt (Terrain_slp x));
  ("shape_ptr", DInt (Terrain_shape_ptr x));
  ("sound_id", DInt (Terrain_sound_id x));
  ("wwise_sound_id", DInt (Terrain_wwise_sound_id x));
  ("wwise_sound_stop_id", DInt (Terrain_wwise_sound_stop_id x));
  ("blend_priority", DInt (Terrain_blend_priority x));
  ("blend_type", DInt (Terrain_blend_type x));
  ("overlay_mask_name", DStr (Terrain_overlay_mask_name x));
  ("colors", DTuple (map DInt (Terrain_colors x)));
  ("cliff_colors", DTuple (map DInt (Terrain_cliff_colors x)));
  ("passable_terrain", DInt (Terrain_passable_terrain x));
  ("impassable_terrain", DInt (Terrain_impassable_terrain x));
  ("is_animated", DInt (Terrain_is_animated x));
  ("animation_frames", DInt (Terrain_animation_frames x));
  ("pause_frames", DInt (Terrain_pause_frames x));
  ("interval", DFloat (Terrain_interval x));
  ("pause_between_loops", DFloat (Terrain_pause_between_loops x));
  ("frame", DInt (Terrain_frame x));
  ("draw_frame", DInt (Terrain_draw_frame x));
  ("animate_last", DFloat (Terrain_animate_last x));
  ("frame_changed", DInt (Terrain_frame_changed x));
  ("drawn", DInt (Terrain_drawn x));
  ("frame_data", DList (map FrameData_deep (Terrain_frame_data x)));
  ("terrain_to_draw", DInt (Terrain_terrain_to_draw x));
  ("terrain_dimensions", DTuple (map DInt (Terrain_terrain_dimensions x)));
  ("terrain_unit_masked_density", DList (map DInt (Terrain_terrain_unit_masked_density x)));
  ("terrain_unit_id", DList (map DInt (Terrain_terrain_unit_id x)));
  ("terrain_unit_density", DList (map DInt (Terrain_terrain_unit_density x)));
  ("terrain_unit_centering", DList (map DInt (Terrain_terrain_unit_centering x)));
  ("number_of_terrain_units_used", DInt (Terrain_number_of_terrain_units_used x));
  ("phantom", DInt (Terrain_phantom x))].

(** terrainblock.py:158-160 *)
Definition TileSize_deep (x : TileSize) : deep := DObj "TileSize" [
  ("width", DInt (TileSize_width x));
  ("height", DInt (TileSize_height x));
  ("delta_y", DInt (TileSize_delta_y x))].

(** terrainblock.py:180-213 *)
Definition TerrainBlock_deep (x : TerrainBlock) : deep := DObj "TerrainBlock" [
  ("virtual_function_ptr", DInt (TerrainBlock_virtual_function_ptr x));
  ("map_pointer", DInt (TerrainBlock_map_pointer x));
  ("map_width", DInt (TerrainBlock_map_width x));
  ("map_height", DInt (TerrainBlock_map_height x));
  ("world_width", DInt (TerrainBlock_world_width x));
  ("world_height", DInt (TerrainBlock_world_height x));
  ("tile_sizes", DList (map TileSize_deep (TerrainBlock_tile_sizes x)));
  ("padding_ts", DInt (TerrainBlock_padding_ts x));
  ("terrains", DList (map Terrain_deep (TerrainBlock_terrains x)));
  ("map_min_x", DFloat (TerrainBlock_map_min_x x));
  ("map_min_y", DFloat (TerrainBlock_map_min_y x));
  ("map_max_x", DFloat (TerrainBlock_map_max_x x));
  ("map_max_y", DFloat (TerrainBlock_map_max_y x));
  ("map_max_x_plus_1", DFloat (TerrainBlock_map_max_x_plus_1 x));
  ("map_max_y_plus_1", DFloat (TerrainBlock_map_max_y_plus_1 x));
  ("terrains_used_2", DInt (TerrainBlock_terrains_used_2 x));
  ("borders_used", DInt (TerrainBlock_borders_used x));
  ("max_terrain", DInt (TerrainBlock_max_terrain x));
  ("tile_width", DInt (TerrainBlock_tile_width x));
  ("tile_height", DInt (TerrainBlock_tile_height x));
  ("tile_half_height", DInt (TerrainBlock_tile_half_height x));
  ("tile_half_width", DInt (TerrainBlock_tile_half_width x));
  ("elev_height", DInt (TerrainBlock_elev_height x));
  ("cur_row", DInt (TerrainBlock_cur_row x));
  ("cur_col", DInt (TerrainBlock_cur_col x));
  ("block_beg_row", DInt (TerrainBlock_block_beg_row x));
  ("block_end_row", DInt (TerrainBlock_block_end_row x));
  ("block_beg_col", DInt (TerrainBlock_block_beg_col x));
  ("block_end_col", DInt (TerrainBlock_block_end_col x));
  ("search_map_ptr", DInt (TerrainBlock_search_map_ptr x));
  ("search_map_rows_ptr", DInt (TerrainBlock_search_map_rows_ptr x));
  ("any_frame_change", DInt (TerrainBlock_any_frame_change x));
  ("map_visible_flag", DInt (TerrainBlock_map_visible_flag x));
  ("fog_flag", DInt (TerrainBlock_fog_flag x))].

(** randommaps.py:9-21 *)
Definition MapUnit_deep (x : MapUnit) : deep := DObj "MapUnit" [
  ("unit", DInt (MapUnit_unit x));
  ("host_terrain", DInt (MapUnit_host_terrain x));
  ("group_placing", DInt (MapUnit_group_placing x));
  ("scale_flag", DInt (MapUnit_scale_flag x));
  ("padding_1", DInt (MapUnit_padding_1 x));
  ("objects_per_group", DInt (MapUnit_objects_per_group x));
  ("fluctuation", DInt (MapUnit_fluctuation x));
  ("groups_per_player", DInt (MapUnit_groups_per_player x));
  ("group_arena", DInt (MapUnit_group_arena x));
  ("player_id", DInt (MapUnit_player_id x));
  ("set_place_for_all_players", DInt (MapUnit_set_place_for_all_players x));
  ("min_distance_to_players", DInt (MapUnit_min_distance_to_players x));
  ("max_distance_to_players", DInt (MapUnit_max_distance_to_players x))].

(** randommaps.py:61-66 *)
Definition MapTerrain_deep (x : MapTerrain) : deep := DObj "MapTerrain" [
  ("proportion", DInt (MapTerrain_proportion x));
  ("terrain", DInt (MapTerrain_terrain x));
  ("clump_count", DInt (MapTerrain_clump_count x));
  ("edge_spacing", DInt (MapTerrain_edge_spacing x));
  ("placement_terrain", DInt (MapTerrain_placement_terrain x));
  ("clumpiness", DInt (MapTerrain_clumpiness x))].

(** randommaps.py:92-106 *)
Definition MapLand_deep (x : MapLand) : deep := DObj "MapLand" [
  ("land_id", DInt (MapLand_land_id x));
  ("terrain", DInt (MapLand_terrain x));
  ("land_spacing", DInt (MapLand_land_spacing x));
  ("base_size", DInt (MapLand_base_size x));
  ("zone", DInt (MapLand_zone x));
  ("placement_type", DInt (MapLand_placement_type x));
  ("padding_1", DInt (MapLand_padding_1 x));
  ("base_x", DInt (MapLand_base_x x));
  ("base_y", DInt (MapLand_base_y x));
  ("land_proportion", DInt (MapLand_land_proportion x));
  ("by_player_flag", DInt (MapLand_by_player_flag x));
  ("padding_2", DInt (MapLand_padding_2 x));
  ("start_area_radius", DInt (MapLand_start_area_radius x));
  ("terrain_edge_fade", DInt (MapLand_terrain_edge_fade x));
  ("clumpiness", DInt (MapLand_clumpiness x))].

(** randommaps.py:150-155 *)
Definition MapElevation_deep (x : MapElevation) : deep := DObj "MapElevation" [
  ("proportion", DInt (MapElevation_proportion x));
  ("terrain", DInt (MapElevation_terrain x));
  ("clump_count", DInt (MapElevation_clump_count x));
  ("base_terrain", DInt (MapElevation_base_terrain x));
  ("base_elevation", DInt (MapElevation_base_elevation x));
  ("tile_spacing", DInt (MapElevation_tile_spacing x))].

(** randommaps.py:181-202 *)
Definition MapInfo_deep (x : MapInfo) : deep := DObj "MapInfo" [
  ("map_id", DInt (MapInfo_map_id x));
  ("border_south_west", DInt (MapInfo_border_south_west x));
  ("border_north_west", DInt (MapInfo_border_north_west x));
  ("border_north_east", DInt (MapInfo_border_north_east x));
  ("border_south_east", DInt (MapInfo_border_south_east x));
  ("border_usage", DInt (MapInfo_border_usage x));
  ("water_shape", DInt (MapInfo_water_shape x));
  ("base_terrain", DInt (MapInfo_base_terrain x));
  ("land_coverage", DInt (MapInfo_land_coverage x));
  ("unused_id", DInt (MapInfo_unused_id x));
  ("map_lands_size", DInt (MapInfo_map_lands_size x));
  ("map_lands_ptr", DInt (MapInfo_map_lands_ptr x));
  ("map_lands", DList (map MapLand_deep (MapInfo_map_lands x)));
  ("map_terrains_size", DInt (MapInfo_map_terrains_size x));
  ("map_terrains_ptr", DInt (MapInfo_map_terrains_ptr x));
  ("map_terrains", DList (map MapTerrain_deep (MapInfo_map_terrains x)));
  ("map_units_size", DInt (MapInfo_map_units_size x));
  ("map_units_ptr", DInt (MapInfo_map_units_ptr x));
  ("map_units", DList (map MapUnit_deep (MapInfo_map_units x)));
  ("map_elevations_size", DInt (MapInfo_map_elevations_size x));
  ("map_elevations_ptr", DInt (MapInfo_map_elevations_ptr x));
  ("map_elevations", DList (map MapElevation_deep (MapInfo_map_elevations x)))].

(** randommaps.py:282-284 *)
Definition RandomMaps_deep (x : RandomMaps) : deep := DObj "RandomMaps" [
  ("random_maps_ptr", DInt (RandomMaps_random_maps_ptr x));
  ("map_info_1", DList (map MapInfo_deep (RandomMaps_map_info_1 x)));
  ("map_info_2", DList (map MapInfo_deep (RandomMaps_map_info_2 x)))].

(** task.py:16-47 *)
Definition Task_deep (x : Task) : deep := DObj "Task" [
  ("task_type", DInt (Task_task_type x));
  ("id", DInt (Task_id x));
  ("is_default", DInt (Task_is_default x));
  ("action_type", DInt (Task_action_type x));
  ("class_id", DInt (Task_class_id x));
  ("unit_id", DInt (Task_unit_id x));
  ("terrain_id", DInt (Task_terrain_id x));
  ("resource_in", DInt (Task_resource_in x));
  ("resource_multiplier", DInt (Task_resource_multiplier x));
  ("resource_out", DInt (Task_resource_out x));
  ("unused_resource", DInt (Task_unused_resource x));
  ("work_value_1", DFloat (Task_work_value_1 x));
  ("work_value_2", DFloat (Task_work_value_2 x));
  ("work_range", DFloat (Task_work_range x));
  ("auto_search_targets", DInt (Task_auto_search_targets x));
  ("search_wait_time", DFloat (Task_search_wait_time x));
  ("enable_targeting", DInt (Task_enable_targeting x));
  ("combat_level_flag", DInt (Task_combat_level_flag x));
  ("gather_type", DInt (Task_gather_type x));
  ("work_flag_2", DInt (Task_work_flag_2 x));
  ("target_diplomacy", DInt (Task_target_diplomacy x));
  ("carry_check", DInt (Task_carry_check x));
  ("pick_for_construction", DInt (Task_pick_for_construction x));
  ("moving_graphic_id", DInt (Task_moving_graphic_id x));
  ("proceeding_graphic_id", DInt (Task_proceeding_graphic_id x));
  ("working_graphic_id", DInt (Task_working_graphic_id x));
  ("carrying_graphic_id", DInt (Task_carrying_graphic_id x));
  ("resource_gathering_sound_id", DInt (Task_resource_gathering_sound_id x));
  ("resource_deposit_sound_id", DInt (Task_resource_deposit_sound_id x));
  ("wwise_resource_gathering_sound_id", DInt (Task_wwise_resource_gathering_sound_id x));
  ("wwise_resource_deposit_sound_id", DInt (Task_wwise_resource_deposit_sound_id x));
  ("enabled", DInt (Task_enabled x))].

(** unitheaders.py:10-11 *)
Definition UnitHeaders_deep (x : UnitHeaders) : deep := DObj "UnitHeaders" [
  ("exists", DInt (UnitHeaders_exists_ x));
  ("task_list", (emb_opt (fun l => DList (map Task_deep l))) (UnitHeaders_task_list x))].

(** unit.py:14-16 *)
Definition ResourceStorage_deep (x : ResourceStorage) : deep := DObj "ResourceStorage" [
  ("type", DInt (ResourceStorage_type x));
  ("amount", DFloat (ResourceStorage_amount x));
  ("flag", DInt (ResourceStorage_flag x))].

(** unit.py:38-40 *)
Definition DamageGraphic_deep (x : DamageGraphic) : deep := DObj "DamageGraphic" [
  ("graphic_id", DInt (DamageGraphic_graphic_id x));
  ("damage_percent", DInt (DamageGraphic_damage_percent x));
  ("apply_mode", DInt (DamageGraphic_apply_mode x))].

(** unit.py:63-76 *)
Definition DeadFish_deep (x : DeadFish) : deep := DObj "DeadFish" [
  ("walking_graphic", DInt (DeadFish_walking_graphic x));
  ("running_graphic", DInt (DeadFish_running_graphic x));
  ("rotation_speed", DFloat (DeadFish_rotation_speed x));
  ("old_size_class", DInt (DeadFish_old_size_class x));
  ("tracking_unit", DInt (DeadFish_tracking_unit x));
  ("tracking_unit_mode", DInt (DeadFish_tracking_unit_mode x));
  ("tracking_unit_density", DFloat (DeadFish_tracking_unit_density x));
  ("old_move_algorithm", DInt (DeadFish_old_move_algorithm x));
  ("turn_radius", DFloat (DeadFish_turn_radius x));
  ("turn_radius_speed", DFloat (DeadFish_turn_radius_speed x));
  ("max_yaw_per_second_moving", DFloat (DeadFish_max_yaw_per_second_moving x));
  ("stationary_yaw_revolution_time", DFloat (DeadFish_stationary_yaw_revolution_time x));
  ("max_yaw_per_second_stationary", DFloat (DeadFish_max_yaw_per_second_stationary x));
  ("min_collision_size_multiplier", DFloat (DeadFish_min_collision_size_multiplier x))].

(** unit.py:133-143 *)
Definition Bird_deep (x : Bird) : deep := DObj "Bird" [
  ("default_task_id", DInt (Bird_default_task_id x));
  ("search_radius", DFloat (Bird_search_radius x));
  ("work_rate", DFloat (Bird_work_rate x));
  ("drop_sites", DList (map DInt (Bird_drop_sites x)));
  ("task_swap_group", DInt (Bird_task_swap_group x));
  ("attack_sound", DInt (Bird_attack_sound x));
  ("move_sound", DInt (Bird_move_sound x));
  ("wwise_attack_sound_id", DInt (Bird_wwise_attack_sound_id x));
  ("wwise_move_sound_id", DInt (Bird_wwise_move_sound_id x));
  ("run_pattern", DInt (Bird_run_pattern x));
  ("tasks", DList (map Task_deep (Bird_tasks x)))].

(** unit.py:200-201 *)
Definition AttackOrArmor_deep (x : AttackOrArmor) : deep := DObj "AttackOrArmor" [
  ("class_", DInt (AttackOrArmor_class_ x));
  ("amount", DInt (AttackOrArmor_amount x))].

(** unit.py:217-243 *)
Definition Type50_deep (x : Type50) : deep := DObj "Type50" [
  ("base_armor", DInt (Type50_base_armor x));
  ("attacks", DList (map AttackOrArmor_deep (Type50_attacks x)));
  ("armours", DList (map AttackOrArmor_deep (Type50_armours x)));
  ("defense_terrain_bonus", DInt (Type50_defense_terrain_bonus x));
  ("bonus_damage_resistance", DFloat (Type50_bonus_damage_resistance x));
  ("max_range", DFloat (Type50_max_range x));
  ("blast_width", DFloat (Type50_blast_width x));
  ("reload_time", DFloat (Type50_reload_time x));
  ("projectile_unit_id", DInt (Type50_projectile_unit_id x));
  ("accuracy_percent", DInt (Type50_accuracy_percent x));
  ("break_off_combat", DInt (Type50_break_off_combat x));
  ("frame_delay", DInt (Type50_frame_delay x));
  ("graphic_displacement", DTuple (map DFloat (Type50_graphic_displacement x)));
  ("blast_attack_level", DInt (Type50_blast_attack_level x));
  ("min_range", DFloat (Type50_min_range x));
  ("accuracy_dispersion", DFloat (Type50_accuracy_dispersion x));
  ("attack_graphic", DInt (Type50_attack_graphic x));
  ("displayed_melee_armour", DInt (Type50_displayed_melee_armour x));
  ("displayed_attack", DInt (Type50_displayed_attack x));
  ("displayed_range", DFloat (Type50_displayed_range x));
  ("displayed_reload_time", DFloat (Type50_displayed_reload_time x));
  ("blast_damage", DFloat (Type50_blast_damage x));
  ("damage_reflection", DFloat (Type50_damage_reflection x));
  ("friendly_fire_damage", DFloat (Type50_friendly_fire_damage x));
  ("interrupt_frame", DInt (Type50_interrupt_frame x));
  ("garrison_firepower", DFloat (Type50_garrison_firepower x));
  ("attack_graphic_2", DInt (Type50_attack_graphic_2 x))].

(** unit.py:356-361 *)
Definition Projectile_deep (x : Projectile) : deep := DObj "Projectile" [
  ("projectile_type", DInt (Projectile_projectile_type x));
  ("smart_mode", DInt (Projectile_smart_mode x));
  ("hit_mode", DInt (Projectile_hit_mode x));
  ("vanish_mode", DInt (Projectile_vanish_mode x));
  ("area_effect_specials", DInt (Projectile_area_effect_specials x));
  ("projectile_arc", DFloat (Projectile_projectile_arc x))].

(** unit.py:397-399 *)
Definition ResourceCost_deep (x : ResourceCost) : deep := DObj "ResourceCost" [
  ("type", DInt (ResourceCost_type x));
  ("amount", DInt (ResourceCost_amount x));
  ("flag", DInt (ResourceCost_flag x))].

(** unit.py:423-426 *)
Definition TrainLocation_deep (x : TrainLocation) : deep := DObj "TrainLocation" [
  ("train_time", DInt (TrainLocation_train_time x));
  ("unit_id", DInt (TrainLocation_unit_id x));
  ("button_id", DInt (TrainLocation_button_id x));
  ("hot_key_id", DInt (TrainLocation_hot_key_id x))].

(** unit.py:475-507 *)
Definition Creatable_deep (x : Creatable) : deep := DObj "Creatable" [
  ("resource_costs", DTuple (map ResourceCost_deep (Creatable_resource_costs x)));
  ("train_locations", DList (map TrainLocation_deep (Creatable_train_locations x)));
  ("rear_attack_modifier", DFloat (Creatable_rear_attack_modifier x));
  ("flank_attack_modifier", DFloat (Creatable_flank_attack_modifier x));
  ("creatable_type", DInt (Creatable_creatable_type x));
  ("hero_mode", DInt (Creatable_hero_mode x));
  ("garrison_graphic", DInt (Creatable_garrison_graphic x));
  ("spawning_graphic", DInt (Creatable_spawning_graphic x));
  ("upgrade_graphic", DInt (Creatable_upgrade_graphic x));
  ("hero_glow_graphic", DInt (Creatable_hero_glow_graphic x));
  ("idle_attack_graphic", DInt (Creatable_idle_attack_graphic x));
  ("max_charge", DFloat (Creatable_max_charge x));
  ("recharge_rate", DFloat (Creatable_recharge_rate x));
  ("charge_event", DInt (Creatable_charge_event x));
  ("charge_type", DInt (Creatable_charge_type x));
  ("charge_target", DInt (Creatable_charge_target x));
  ("charge_projectile_unit", DInt (Creatable_charge_projectile_unit x));
  ("attack_priority", DInt (Creatable_attack_priority x));
  ("invulnerability_level", DNum (Creatable_invulnerability_level x));
  ("button_icon_id", DInt (Creatable_button_icon_id x));
  ("button_short_tooltip_id", DInt (Creatable_button_short_tooltip_id x));
  ("button_extended_tooltip_id", DInt (Creatable_button_extended_tooltip_id x));
  ("button_hotkey_action", DInt (Creatable_button_hotkey_action x));
  ("min_conversion_time_mod", DFloat (Creatable_min_conversion_time_mod x));
  ("max_conversion_time_mod", DFloat (Creatable_max_conversion_time_mod x));
  ("conversion_chance_mod", DFloat (Creatable_conversion_chance_mod x));
  ("total_projectiles", DFloat (Creatable_total_projectiles x));
  ("max_total_projectiles", DInt (Creatable_max_total_projectiles x));
  ("projectile_spawning_area", DTuple (map DFloat (Creatable_projectile_spawning_area x)));
  ("secondary_projectile_unit", DInt (Creatable_secondary_projectile_unit x));
  ("special_graphic", DInt (Creatable_special_graphic x));
  ("special_ability", DInt (Creatable_special_ability x));
  ("displayed_pierce_armour", DInt (Creatable_displayed_pierce_armour x))].

(** unit.py:879-881 *)
Definition BuildingAnnex_deep (x : BuildingAnnex) : deep := DObj "BuildingAnnex" [
  ("unit_id", DInt (BuildingAnnex_unit_id x));
  ("misplacement_x", DFloat (BuildingAnnex_misplacement_x x));
  ("misplacement_y", DFloat (BuildingAnnex_misplacement_y x))].

(** unit.py:910-935 *)
Definition Building_deep (x : Building) : deep := DObj "Building" [
  ("construction_graphic_id", DInt (Building_construction_graphic_id x));
  ("snow_graphic_id", DInt (Building_snow_graphic_id x));
  ("destruction_graphic_id", DInt (Building_destruction_graphic_id x));
  ("destruction_rubble_graphic_id", DInt (Building_destruction_rubble_graphic_id x));
  ("researching_graphic", DInt (Building_researching_graphic x));
  ("research_completed_graphic", DInt (Building_research_completed_graphic x));
  ("adjacent_mode", DInt (Building_adjacent_mode x));
  ("graphics_angle", DInt (Building_graphics_angle x));
  ("disappears_when_built", DInt (Building_disappears_when_built x));
  ("stack_unit_id", DInt (Building_stack_unit_id x));
  ("foundation_terrain_id", DInt (Building_foundation_terrain_id x));
  ("old_overlap_id", DInt (Building_old_overlap_id x));
  ("tech_id", DInt (Building_tech_id x));
  ("can_burn", DInt (Building_can_burn x));
  ("annexes", DTuple (map BuildingAnnex_deep (Building_annexes x)));
  ("head_unit", DInt (Building_head_unit x));
  ("transform_unit", DInt (Building_transform_unit x));
  ("transform_sound", DInt (Building_transform_sound x));
  ("construction_sound", DInt (Building_construction_sound x));
  ("wwise_transform_sound_id", DInt (Building_wwise_transform_sound_id x));
  ("wwise_construction_sound_id", DInt (Building_wwise_construction_sound_id x));
  ("garrison_type", DInt (Building_garrison_type x));
  ("garrison_heal_rate", DFloat (Building_garrison_heal_rate x));
  ("garrison_repair_rate", DFloat (Building_garrison_repair_rate x));
  ("pile_unit", DInt (Building_pile_unit x));
  ("looting_table", DTuple (map DInt (Building_looting_table x)))].

(** unit.py:1052-1133 *)
Definition Unit_deep (x : Unit) : deep := DObj "Unit" [
  ("type", DInt (Unit_type x));
  ("id", DInt (Unit_id x));
  ("language_dll_name", DInt (Unit_language_dll_name x));
  ("language_dll_creation", DInt (Unit_language_dll_creation x));
  ("class_", DInt (Unit_class_ x));
  ("standing_graphic", DTuple (map DInt (Unit_standing_graphic x)));
  ("dying_graphic", DInt (Unit_dying_graphic x));
  ("undead_graphic", DInt (Unit_undead_graphic x));
  ("undead_mode", DInt (Unit_undead_mode x));
  ("hit_points", DInt (Unit_hit_points x));
  ("line_of_sight", DFloat (Unit_line_of_sight x));
  ("garrison_capacity", DInt (Unit_garrison_capacity x));
  ("collision_size_x", DFloat (Unit_collision_size_x x));
  ("collision_size_y", DFloat (Unit_collision_size_y x));
  ("collision_size_z", DFloat (Unit_collision_size_z x));
  ("train_sound", DInt (Unit_train_sound x));
  ("damage_sound", DInt (Unit_damage_sound x));
  ("dead_unit_id", DInt (Unit_dead_unit_id x));
  ("blood_unit_id", DInt (Unit_blood_unit_id x));
  ("sort_number", DInt (Unit_sort_number x));
  ("can_be_built_on", DInt (Unit_can_be_built_on x));
  ("icon_id", DInt (Unit_icon_id x));
  ("hide_in_editor", DInt (Unit_hide_in_editor x));
  ("old_portrait_pict", DInt (Unit_old_portrait_pict x));
  ("enabled", DInt (Unit_enabled x));
  ("disabled", DInt (Unit_disabled x));
  ("placement_side_terrain", DTuple (map DInt (Unit_placement_side_terrain x)));
  ("placement_terrain", DTuple (map DInt (Unit_placement_terrain x)));
  ("clearance_size", DTuple (map DFloat (Unit_clearance_size x)));
  ("hill_mode", DInt (Unit_hill_mode x));
  ("fog_visibility", DInt (Unit_fog_visibility x));
  ("terrain_restriction", DInt (Unit_terrain_restriction x));
  ("fly_mode", DInt (Unit_fly_mode x));
  ("resource_capacity", DInt (Unit_resource_capacity x));
  ("resource_decay", DFloat (Unit_resource_decay x));
  ("blast_defense_level", DInt (Unit_blast_defense_level x));
  ("combat_level", DInt (Unit_combat_level x));
  ("interaction_mode", DInt (Unit_interaction_mode x));
  ("minimap_mode", DInt (Unit_minimap_mode x));
  ("interface_kind", DInt (Unit_interface_kind x));
  ("multiple_attribute_mode", DFloat (Unit_multiple_attribute_mode x));
  ("minimap_color", DInt (Unit_minimap_color x));
  ("language_dll_help", DInt (Unit_language_dll_help x));
  ("language_dll_hotkey_text", DInt (Unit_language_dll_hotkey_text x));
  ("hot_key", DInt (Unit_hot_key x));
  ("recyclable", DInt (Unit_recyclable x));
  ("enable_auto_gather", DInt (Unit_enable_auto_gather x));
  ("create_doppelganger_on_death", DInt (Unit_create_doppelganger_on_death x));
  ("resource_gather_group", DInt (Unit_resource_gather_group x));
  ("occlusion_mode", DInt (Unit_occlusion_mode x));
  ("obstruction_type", DInt (Unit_obstruction_type x));
  ("obstruction_class", DInt (Unit_obstruction_class x));
  ("trait", DInt (Unit_trait x));
  ("civilization", DInt (Unit_civilization x));
  ("nothing", DInt (Unit_nothing x));
  ("selection_effect", DInt (Unit_selection_effect x));
  ("editor_selection_colour", DInt (Unit_editor_selection_colour x));
  ("outline_size_x", DFloat (Unit_outline_size_x x));
  ("outline_size_y", DFloat (Unit_outline_size_y x));
  ("outline_size_z", DFloat (Unit_outline_size_z x));
  ("scenario_triggers_1", DInt (Unit_scenario_triggers_1 x));
  ("scenario_triggers_2", DInt (Unit_scenario_triggers_2 x));
  ("resource_storages", DTuple (map ResourceStorage_deep (Unit_resource_storages x)));
  ("damage_graphics", DList (map DamageGraphic_deep (Unit_damage_graphics x)));
  ("selection_sound", DInt (Unit_selection_sound x));
  ("dying_sound", DInt (Unit_dying_sound x));
  ("wwise_train_sound_id", DInt (Unit_wwise_train_sound_id x));
  ("wwise_damage_sound_id", DInt (Unit_wwise_damage_sound_id x));
  ("wwise_selection_sound_id", DInt (Unit_wwise_selection_sound_id x));
  ("wwise_dying_sound_id", DInt (Unit_wwise_dying_sound_id x));
  ("old_attack_reaction", DInt (Unit_old_attack_reaction x));
  ("convert_terrain", DInt (Unit_convert_terrain x));
  ("name", DStr (Unit_name x));
  ("copy_id", DInt (Unit_copy_id x));
  ("base_id", DInt (Unit_base_id x));
  ("speed", (emb_opt DFloat) (Unit_speed x));
  ("dead_fish", (emb_opt DeadFish_deep) (Unit_dead_fish x));
  ("bird", (emb_opt Bird_deep) (Unit_bird x));
  ("type_50", (emb_opt Type50_deep) (Unit_type_50 x));
  ("projectile", (emb_opt Projectile_deep) (Unit_projectile x));
  ("creatable", (emb_opt Creatable_deep) (Unit_creatable x));
  ("building", (emb_opt Building_deep) (Unit_building x))].

(** civ.py:10-16 *)
Definition Civ_deep (x : Civ) : deep := DObj "Civ" [
  ("player_type", DInt (Civ_player_type x));
  ("name", DStr (Civ_name x));
  ("tech_tree_id", DInt (Civ_tech_tree_id x));
  ("team_bonus_id", DInt (Civ_team_bonus_id x));
  ("resources", DList (map DFloat (Civ_resources x)));
  ("icon_set", DInt (Civ_icon_set x));
  ("units", DList (map (emb_opt Unit_deep) (Civ_units x)))].

(** tech.py:9-11 *)
Definition ResearchResourceCost_deep (x : ResearchResourceCost) : deep := DObj "ResearchResourceCost" [
  ("type", DInt (ResearchResourceCost_type x));
  ("amount", DInt (ResearchResourceCost_amount x));
  ("flag", DInt (ResearchResourceCost_flag x))].

(** tech.py:31-34 *)
Definition ResearchLocation_deep (x : ResearchLocation) : deep := DObj "ResearchLocation" [
  ("location_id", DInt (ResearchLocation_location_id x));
  ("research_time", DInt (ResearchLocation_research_time x));
  ("button_id", DInt (ResearchLocation_button_id x));
  ("hot_key_id", DInt (ResearchLocation_hot_key_id x))].

(** tech.py:56-70 *)
Definition Tech_deep (x : Tech) : deep := DObj "Tech" [
  ("required_techs", DTuple (map DInt (Tech_required_techs x)));
  ("resource_costs", DTuple (map ResearchResourceCost_deep (Tech_resource_costs x)));
  ("required_tech_count", DInt (Tech_required_tech_count x));
  ("civ", DInt (Tech_civ x));
  ("full_tech_mode", DInt (Tech_full_tech_mode x));
  ("language_dll_name", DInt (Tech_language_dll_name x));
  ("language_dll_description", DInt (Tech_language_dll_description x));
  ("effect_id", DInt (Tech_effect_id x));
  ("type", DInt (Tech_type x));
  ("icon_id", DInt (Tech_icon_id x));
  ("language_dll_help", DInt (Tech_language_dll_help x));
  ("language_dll_tech_tree", DInt (Tech_language_dll_tech_tree x));
  ("name", DStr (Tech_name x));
  ("repeatable", DInt (Tech_repeatable x));
  ("research_locations", DList (map ResearchLocation_deep (Tech_research_locations x)))].

(** techtree.py:9-11 *)
Definition Common_deep (x : Common) : deep := DObj "Common" [
  ("slots_used", DInt (Common_slots_used x));
  ("unit_research", DTuple (map DInt (Common_unit_research x)));
  ("mode", DTuple (map DInt (Common_mode x)))].

(** techtree.py:31-41 *)
Definition TechTreeAge_deep (x : TechTreeAge) : deep := DObj "TechTreeAge" [
  ("id", DInt (TechTreeAge_id x));
  ("status", DInt (TechTreeAge_status x));
  ("buildings", DList (map DInt (TechTreeAge_buildings x)));
  ("units", DList (map DInt (TechTreeAge_units x)));
  ("techs", DList (map DInt (TechTreeAge_techs x)));
  ("common", Common_deep (TechTreeAge_common x));
  ("num_building_levels", DInt (TechTreeAge_num_building_levels x));
  ("buildings_per_zone", DTuple (map DInt (TechTreeAge_buildings_per_zone x)));
  ("group_length_per_zone", DTuple (map DInt (TechTreeAge_group_length_per_zone x)));
  ("max_age_length", DInt (TechTreeAge_max_age_length x));
  ("line_mode", DInt (TechTreeAge_line_mode x))].

(** techtree.py:94-104 *)
Definition BuildingConnection_deep (x : BuildingConnection) : deep := DObj "BuildingConnection" [
  ("id", DInt (BuildingConnection_id x));
  ("status", DInt (BuildingConnection_status x));
  ("buildings", DList (map DInt (BuildingConnection_buildings x)));
  ("units", DList (map DInt (BuildingConnection_units x)));
  ("techs", DList (map DInt (BuildingConnection_techs x)));
  ("common", Common_deep (BuildingConnection_common x));
  ("location_in_age", DInt (BuildingConnection_location_in_age x));
  ("units_techs_total", DTuple (map DInt (BuildingConnection_units_techs_total x)));
  ("units_techs_first", DTuple (map DInt (BuildingConnection_units_techs_first x)));
  ("line_mode", DInt (BuildingConnection_line_mode x));
  ("enabling_research", DInt (BuildingConnection_enabling_research x))].

(** techtree.py:157-166 *)
Definition UnitConnection_deep (x : UnitConnection) : deep := DObj "UnitConnection" [
  ("id", DInt (UnitConnection_id x));
  ("status", DInt (UnitConnection_status x));
  ("upper_building", DInt (UnitConnection_upper_building x));
  ("common", Common_deep (UnitConnection_common x));
  ("vertical_line", DInt (UnitConnection_vertical_line x));
  ("units", DList (map DInt (UnitConnection_units x)));
  ("location_in_age", DInt (UnitConnection_location_in_age x));
  ("required_research", DInt (UnitConnection_required_research x));
  ("line_mode", DInt (UnitConnection_line_mode x));
  ("enabling_research", DInt (UnitConnection_enabling_research x))].

(** techtree.py:212-221 *)
Definition ResearchConnection_deep (x : ResearchConnection) : deep := DObj "ResearchConnection" [
  ("id", DInt (ResearchConnection_id x));
  ("status", DInt (ResearchConnection_status x));
  ("upper_building", DInt (ResearchConnection_upper_building x));
  ("buildings", DList (map DInt (ResearchConnection_buildings x)));
  ("units", DList (map DInt (ResearchConnection_units x)));
  ("techs", DList (map DInt (ResearchConnection_techs x)));
  ("common", Common_deep (ResearchConnection_common x));
  ("vertical_line", DInt (ResearchConnection_vertical_line x));
  ("location_in_age", DInt (ResearchConnection_location_in_age x));
  ("line_mode", DInt (ResearchConnection_line_mode x))].

(** techtree.py:271-275 *)
Definition TechTree_deep (x : TechTree) : deep := DObj "TechTree" [
  ("total_unit_tech_groups", DInt (TechTree_total_unit_tech_groups x));
  ("tech_tree_ages", DList (map TechTreeAge_deep (TechTree_tech_tree_ages x)));
  ("building_connections", DList (map BuildingConnection_deep (TechTree_building_connections x)));
  ("unit_connections", DList (map UnitConnection_deep (TechTree_unit_connections x)));
  ("research_connections", DList (map ResearchConnection_deep (TechTree_research_connections x)))].

(** datfile.py:23-43 *)
Definition DatFile_deep (x : DatFile) : deep := DObj "DatFile" [
  ("version", DStr (DatFile_version x));
  ("float_ptr_terrain_tables", DList (map DInt (DatFile_float_ptr_terrain_tables x)));
  ("terrain_pass_graphic_pointers", DList (map DInt (DatFile_terrain_pass_graphic_pointers x)));
  ("terrain_restrictions", DList (map TerrainRestriction_deep (DatFile_terrain_restrictions x)));
  ("player_colours", DList (map PlayerColour_deep (DatFile_player_colours x)));
  ("sounds", DList (map Sound_deep (DatFile_sounds x)));
  ("graphics", DList (map (emb_opt Graphic_deep) (DatFile_graphics x)));
  ("terrain_block", TerrainBlock_deep (DatFile_terrain_block x));
  ("random_maps", RandomMaps_deep (DatFile_random_maps x));
  ("effects", DList (map Effect_deep (DatFile_effects x)));
  ("unit_headers", DList (map UnitHeaders_deep (DatFile_unit_headers x)));
  ("civs", DList (map Civ_deep (DatFile_civs x)));
  ("techs", DList (map Tech_deep (DatFile_techs x)));
  ("time_slice", DInt (DatFile_time_slice x));
  ("unit_kill_rate", DInt (DatFile_unit_kill_rate x));
  ("unit_kill_total", DInt (DatFile_unit_kill_total x));
  ("unit_hit_point_rate", DInt (DatFile_unit_hit_point_rate x));
  ("unit_hit_point_total", DInt (DatFile_unit_hit_point_total x));
  ("razing_kill_rate", DInt (DatFile_razing_kill_rate x));
  ("razing_kill_total", DInt (DatFile_razing_kill_total x));
  ("tech_tree", TechTree_deep (DatFile_tech_tree x))].
