(** * Specification: an object with the function [g] applied to every float.

    Generated by tools/gen_rounded.py from the record declarations; classes without floats have
    no definition here. *)
From Verif Require Import Base PyFloat PyStr.
From Verif Require Import M_Sound M_PlayerColour M_Effect M_TerrainRestriction M_Graphic
  M_TerrainBlock M_RandomMaps M_Task M_UnitHeaders M_Unit M_Civ M_Tech M_TechTree M_DatFile.
Open Scope Z_scope.
Local Open Scope list_scope.

Definition EffectCommand_floats (g : f64 -> f64) (x : EffectCommand) : EffectCommand :=
  {| EffectCommand_type := EffectCommand_type x;
     EffectCommand_a := EffectCommand_a x;
     EffectCommand_b := EffectCommand_b x;
     EffectCommand_c := EffectCommand_c x;
     EffectCommand_d := g (EffectCommand_d x) |}.
Definition Effect_floats (g : f64 -> f64) (x : Effect) : Effect :=
  {| Effect_name := Effect_name x;
     Effect_effect_commands := (map (EffectCommand_floats g)) (Effect_effect_commands x) |}.
Definition TerrainRestriction_floats (g : f64 -> f64) (x : TerrainRestriction) : TerrainRestriction :=
  {| TerrainRestriction_passable_buildable_dmg_multiplier := (map g) (TerrainRestriction_passable_buildable_dmg_multiplier x);
     TerrainRestriction_terrain_pass_graphics := TerrainRestriction_terrain_pass_graphics x |}.
Definition Graphic_floats (g : f64 -> f64) (x : Graphic) : Graphic :=
  {| Graphic_name := Graphic_name x;
     Graphic_file_name := Graphic_file_name x;
     Graphic_particle_effect_name := Graphic_particle_effect_name x;
     Graphic_slp := Graphic_slp x;
     Graphic_is_loaded := Graphic_is_loaded x;
     Graphic_old_color_flag := Graphic_old_color_flag x;
     Graphic_layer := Graphic_layer x;
     Graphic_player_color := Graphic_player_color x;
     Graphic_transparent_selection := Graphic_transparent_selection x;
     Graphic_coordinates := Graphic_coordinates x;
     Graphic_sound_id := Graphic_sound_id x;
     Graphic_wwise_sound_id := Graphic_wwise_sound_id x;
     Graphic_angle_sounds_used := Graphic_angle_sounds_used x;
     Graphic_frame_count := Graphic_frame_count x;
     Graphic_angle_count := Graphic_angle_count x;
     Graphic_speed_multiplier := g (Graphic_speed_multiplier x);
     Graphic_frame_duration := g (Graphic_frame_duration x);
     Graphic_replay_delay := g (Graphic_replay_delay x);
     Graphic_sequence_type := Graphic_sequence_type x;
     Graphic_id := Graphic_id x;
     Graphic_mirroring_mode := Graphic_mirroring_mode x;
     Graphic_editor_flag := Graphic_editor_flag x;
     Graphic_deltas := Graphic_deltas x;
     Graphic_angle_sounds := Graphic_angle_sounds x |}.
Definition Terrain_floats (g : f64 -> f64) (x : Terrain) : Terrain :=
  {| Terrain_enabled := Terrain_enabled x;
     Terrain_random := Terrain_random x;
     Terrain_is_water := Terrain_is_water x;
     Terrain_hide_in_editor := Terrain_hide_in_editor x;
     Terrain_string_id := Terrain_string_id x;
     Terrain_name := Terrain_name x;
     Terrain_name_2 := Terrain_name_2 x;
     Terrain_slp := Terrain_slp x;
     Terrain_shape_ptr := Terrain_shape_ptr x;
     Terrain_sound_id := Terrain_sound_id x;
     Terrain_wwise_sound_id := Terrain_wwise_sound_id x;
     Terrain_wwise_sound_stop_id := Terrain_wwise_sound_stop_id x;
     Terrain_blend_priority := Terrain_blend_priority x;
     Terrain_blend_type := Terrain_blend_type x;
     Terrain_overlay_mask_name := Terrain_overlay_mask_name x;
     Terrain_colors := Terrain_colors x;
     Terrain_cliff_colors := Terrain_cliff_colors x;
     Terrain_passable_terrain := Terrain_passable_terrain x;
     Terrain_impassable_terrain := Terrain_impassable_terrain x;
     Terrain_is_animated := Terrain_is_animated x;
     Terrain_animation_frames := Terrain_animation_frames x;
     Terrain_pause_frames := Terrain_pause_frames x;
     Terrain_interval := g (Terrain_interval x);
     Terrain_pause_between_loops := g (Terrain_pause_between_loops x);
     Terrain_frame := Terrain_frame x;
     Terrain_draw_frame := Terrain_draw_frame x;
     Terrain_animate_last := g (Terrain_animate_last x);
     Terrain_frame_changed := Terrain_frame_changed x;
     Terrain_drawn := Terrain_drawn x;
     Terrain_frame_data := Terrain_frame_data x;
     Terrain_terrain_to_draw := Terrain_terrain_to_draw x;
     Terrain_terrain_dimensions := Terrain_terrain_dimensions x;
     Terrain_terrain_unit_masked_density := Terrain_terrain_unit_masked_density x;
     Terrain_terrain_unit_id := Terrain_terrain_unit_id x;
     Terrain_terrain_unit_density := Terrain_terrain_unit_density x;
     Terrain_terrain_unit_centering := Terrain_terrain_unit_centering x;
     Terrain_number_of_terrain_units_used := Terrain_number_of_terrain_units_used x;
     Terrain_phantom := Terrain_phantom x |}.
Definition TerrainBlock_floats (g : f64 -> f64) (x : TerrainBlock) : TerrainBlock :=
  {| TerrainBlock_virtual_function_ptr := TerrainBlock_virtual_function_ptr x;
     TerrainBlock_map_pointer := TerrainBlock_map_pointer x;
     TerrainBlock_map_width := TerrainBlock_map_width x;
     TerrainBlock_map_height := TerrainBlock_map_height x;
     TerrainBlock_world_width := TerrainBlock_world_width x;
     TerrainBlock_world_height := TerrainBlock_world_height x;
     TerrainBlock_tile_sizes := TerrainBlock_tile_sizes x;
     TerrainBlock_padding_ts := TerrainBlock_padding_ts x;
     TerrainBlock_terrains := (map (Terrain_floats g)) (TerrainBlock_terrains x);
     TerrainBlock_map_min_x := g (TerrainBlock_map_min_x x);
     TerrainBlock_map_min_y := g (TerrainBlock_map_min_y x);
     TerrainBlock_map_max_x := g (TerrainBlock_map_max_x x);
     TerrainBlock_map_max_y := g (TerrainBlock_map_max_y x);
     TerrainBlock_map_max_x_plus_1 := g (TerrainBlock_map_max_x_plus_1 x);
     TerrainBlock_map_max_y_plus_1 := g (TerrainBlock_map_max_y_plus_1 x);
     TerrainBlock_terrains_used_2 := TerrainBlock_terrains_used_2 x;
     TerrainBlock_borders_used := TerrainBlock_borders_used x;
     TerrainBlock_max_terrain := TerrainBlock_max_terrain x;
     TerrainBlock_tile_width := TerrainBlock_tile_width x;
     TerrainBlock_tile_height := TerrainBlock_tile_height x;
     TerrainBlock_tile_half_height := TerrainBlock_tile_half_height x;
     TerrainBlock_tile_half_width := TerrainBlock_tile_half_width x;
     TerrainBlock_elev_height := TerrainBlock_elev_height x;
     TerrainBlock_cur_row := TerrainBlock_cur_row x;
     TerrainBlock_cur_col := TerrainBlock_cur_col x;
     TerrainBlock_block_beg_row := TerrainBlock_block_beg_row x;
     TerrainBlock_block_end_row := TerrainBlock_block_end_row x;
     TerrainBlock_block_beg_col := TerrainBlock_block_beg_col x;
     TerrainBlock_block_end_col := TerrainBlock_block_end_col x;
     TerrainBlock_search_map_ptr := TerrainBlock_search_map_ptr x;
     TerrainBlock_search_map_rows_ptr := TerrainBlock_search_map_rows_ptr x;
     TerrainBlock_any_frame_change := TerrainBlock_any_frame_change x;
     TerrainBlock_map_visible_flag := TerrainBlock_map_visible_flag x;
     TerrainBlock_fog_flag := TerrainBlock_fog_flag x |}.
Definition Task_floats (g : f64 -> f64) (x : Task) : Task :=
  {| Task_task_type := Task_task_type x;
     Task_id := Task_id x;
     Task_is_default := Task_is_default x;
     Task_action_type := Task_action_type x;
     Task_class_id := Task_class_id x;
     Task_unit_id := Task_unit_id x;
     Task_terrain_id := Task_terrain_id x;
     Task_resource_in := Task_resource_in x;
     Task_resource_multiplier := Task_resource_multiplier x;
     Task_resource_out := Task_resource_out x;
     Task_unused_resource := Task_unused_resource x;
     Task_work_value_1 := g (Task_work_value_1 x);
     Task_work_value_2 := g (Task_work_value_2 x);
     Task_work_range := g (Task_work_range x);
     Task_auto_search_targets := Task_auto_search_targets x;
     Task_search_wait_time := g (Task_search_wait_time x);
     Task_enable_targeting := Task_enable_targeting x;
     Task_combat_level_flag := Task_combat_level_flag x;
     Task_gather_type := Task_gather_type x;
     Task_work_flag_2 := Task_work_flag_2 x;
     Task_target_diplomacy := Task_target_diplomacy x;
     Task_carry_check := Task_carry_check x;
     Task_pick_for_construction := Task_pick_for_construction x;
     Task_moving_graphic_id := Task_moving_graphic_id x;
     Task_proceeding_graphic_id := Task_proceeding_graphic_id x;
     Task_working_graphic_id := Task_working_graphic_id x;
     Task_carrying_graphic_id := Task_carrying_graphic_id x;
     Task_resource_gathering_sound_id := Task_resource_gathering_sound_id x;
     Task_resource_deposit_sound_id := Task_resource_deposit_sound_id x;
     Task_wwise_resource_gathering_sound_id := Task_wwise_resource_gathering_sound_id x;
     Task_wwise_resource_deposit_sound_id := Task_wwise_resource_deposit_sound_id x;
     Task_enabled := Task_enabled x |}.
Definition UnitHeaders_floats (g : f64 -> f64) (x : UnitHeaders) : UnitHeaders :=
  {| UnitHeaders_exists_ := UnitHeaders_exists_ x;
     UnitHeaders_task_list := (option_map (map (Task_floats g))) (UnitHeaders_task_list x) |}.
Definition ResourceStorage_floats (g : f64 -> f64) (x : ResourceStorage) : ResourceStorage :=
  {| ResourceStorage_type := ResourceStorage_type x;
     ResourceStorage_amount := g (ResourceStorage_amount x);
     ResourceStorage_flag := ResourceStorage_flag x |}.
Definition DeadFish_floats (g : f64 -> f64) (x : DeadFish) : DeadFish :=
  {| DeadFish_walking_graphic := DeadFish_walking_graphic x;
     DeadFish_running_graphic := DeadFish_running_graphic x;
     DeadFish_rotation_speed := g (DeadFish_rotation_speed x);
     DeadFish_old_size_class := DeadFish_old_size_class x;
     DeadFish_tracking_unit := DeadFish_tracking_unit x;
     DeadFish_tracking_unit_mode := DeadFish_tracking_unit_mode x;
     DeadFish_tracking_unit_density := g (DeadFish_tracking_unit_density x);
     DeadFish_old_move_algorithm := DeadFish_old_move_algorithm x;
     DeadFish_turn_radius := g (DeadFish_turn_radius x);
     DeadFish_turn_radius_speed := g (DeadFish_turn_radius_speed x);
     DeadFish_max_yaw_per_second_moving := g (DeadFish_max_yaw_per_second_moving x);
     DeadFish_stationary_yaw_revolution_time := g (DeadFish_stationary_yaw_revolution_time x);
     DeadFish_max_yaw_per_second_stationary := g (DeadFish_max_yaw_per_second_stationary x);
     DeadFish_min_collision_size_multiplier := g (DeadFish_min_collision_size_multiplier x) |}.
Definition Bird_floats (g : f64 -> f64) (x : Bird) : Bird :=
  {| Bird_default_task_id := Bird_default_task_id x;
     Bird_search_radius := g (Bird_search_radius x);
     Bird_work_rate := g (Bird_work_rate x);
     Bird_drop_sites := Bird_drop_sites x;
     Bird_task_swap_group := Bird_task_swap_group x;
     Bird_attack_sound := Bird_attack_sound x;
     Bird_move_sound := Bird_move_sound x;
     Bird_wwise_attack_sound_id := Bird_wwise_attack_sound_id x;
     Bird_wwise_move_sound_id := Bird_wwise_move_sound_id x;
     Bird_run_pattern := Bird_run_pattern x;
     Bird_tasks := (map (Task_floats g)) (Bird_tasks x) |}.
Definition Type50_floats (g : f64 -> f64) (x : Type50) : Type50 :=
  {| Type50_base_armor := Type50_base_armor x;
     Type50_attacks := Type50_attacks x;
     Type50_armours := Type50_armours x;
     Type50_defense_terrain_bonus := Type50_defense_terrain_bonus x;
     Type50_bonus_damage_resistance := g (Type50_bonus_damage_resistance x);
     Type50_max_range := g (Type50_max_range x);
     Type50_blast_width := g (Type50_blast_width x);
     Type50_reload_time := g (Type50_reload_time x);
     Type50_projectile_unit_id := Type50_projectile_unit_id x;
     Type50_accuracy_percent := Type50_accuracy_percent x;
     Type50_break_off_combat := Type50_break_off_combat x;
     Type50_frame_delay := Type50_frame_delay x;
     Type50_graphic_displacement := (map g) (Type50_graphic_displacement x);
     Type50_blast_attack_level := Type50_blast_attack_level x;
     Type50_min_range := g (Type50_min_range x);
     Type50_accuracy_dispersion := g (Type50_accuracy_dispersion x);
     Type50_attack_graphic := Type50_attack_graphic x;
     Type50_displayed_melee_armour := Type50_displayed_melee_armour x;
     Type50_displayed_attack := Type50_displayed_attack x;
     Type50_displayed_range := g (Type50_displayed_range x);
     Type50_displayed_reload_time := g (Type50_displayed_reload_time x);
     Type50_blast_damage := g (Type50_blast_damage x);
     Type50_damage_reflection := g (Type50_damage_reflection x);
     Type50_friendly_fire_damage := g (Type50_friendly_fire_damage x);
     Type50_interrupt_frame := Type50_interrupt_frame x;
     Type50_garrison_firepower := g (Type50_garrison_firepower x);
     Type50_attack_graphic_2 := Type50_attack_graphic_2 x |}.
Definition Projectile_floats (g : f64 -> f64) (x : Projectile) : Projectile :=
  {| Projectile_projectile_type := Projectile_projectile_type x;
     Projectile_smart_mode := Projectile_smart_mode x;
     Projectile_hit_mode := Projectile_hit_mode x;
     Projectile_vanish_mode := Projectile_vanish_mode x;
     Projectile_area_effect_specials := Projectile_area_effect_specials x;
     Projectile_projectile_arc := g (Projectile_projectile_arc x) |}.
Definition Creatable_floats (g : f64 -> f64) (x : Creatable) : Creatable :=
  {| Creatable_resource_costs := Creatable_resource_costs x;
     Creatable_train_locations := Creatable_train_locations x;
     Creatable_rear_attack_modifier := g (Creatable_rear_attack_modifier x);
     Creatable_flank_attack_modifier := g (Creatable_flank_attack_modifier x);
     Creatable_creatable_type := Creatable_creatable_type x;
     Creatable_hero_mode := Creatable_hero_mode x;
     Creatable_garrison_graphic := Creatable_garrison_graphic x;
     Creatable_spawning_graphic := Creatable_spawning_graphic x;
     Creatable_upgrade_graphic := Creatable_upgrade_graphic x;
     Creatable_hero_glow_graphic := Creatable_hero_glow_graphic x;
     Creatable_idle_attack_graphic := Creatable_idle_attack_graphic x;
     Creatable_max_charge := g (Creatable_max_charge x);
     Creatable_recharge_rate := g (Creatable_recharge_rate x);
     Creatable_charge_event := Creatable_charge_event x;
     Creatable_charge_type := Creatable_charge_type x;
     Creatable_charge_target := Creatable_charge_target x;
     Creatable_charge_projectile_unit := Creatable_charge_projectile_unit x;
     Creatable_attack_priority := Creatable_attack_priority x;
     Creatable_invulnerability_level := g (Creatable_invulnerability_level x);
     Creatable_button_icon_id := Creatable_button_icon_id x;
     Creatable_button_short_tooltip_id := Creatable_button_short_tooltip_id x;
     Creatable_button_extended_tooltip_id := Creatable_button_extended_tooltip_id x;
     Creatable_button_hotkey_action := Creatable_button_hotkey_action x;
     Creatable_min_conversion_time_mod := g (Creatable_min_conversion_time_mod x);
     Creatable_max_conversion_time_mod := g (Creatable_max_conversion_time_mod x);
     Creatable_conversion_chance_mod := g (Creatable_conversion_chance_mod x);
     Creatable_total_projectiles := g (Creatable_total_projectiles x);
     Creatable_max_total_projectiles := Creatable_max_total_projectiles x;
     Creatable_projectile_spawning_area := (map g) (Creatable_projectile_spawning_area x);
     Creatable_secondary_projectile_unit := Creatable_secondary_projectile_unit x;
     Creatable_special_graphic := Creatable_special_graphic x;
     Creatable_special_ability := Creatable_special_ability x;
     Creatable_displayed_pierce_armour := Creatable_displayed_pierce_armour x |}.
Definition BuildingAnnex_floats (g : f64 -> f64) (x : BuildingAnnex) : BuildingAnnex :=
  {| BuildingAnnex_unit_id := BuildingAnnex_unit_id x;
     BuildingAnnex_misplacement_x := g (BuildingAnnex_misplacement_x x);
     BuildingAnnex_misplacement_y := g (BuildingAnnex_misplacement_y x) |}.
Definition Building_floats (g : f64 -> f64) (x : Building) : Building :=
  {| Building_construction_graphic_id := Building_construction_graphic_id x;
     Building_snow_graphic_id := Building_snow_graphic_id x;
     Building_destruction_graphic_id := Building_destruction_graphic_id x;
     Building_destruction_rubble_graphic_id := Building_destruction_rubble_graphic_id x;
     Building_researching_graphic := Building_researching_graphic x;
     Building_research_completed_graphic := Building_research_completed_graphic x;
     Building_adjacent_mode := Building_adjacent_mode x;
     Building_graphics_angle := Building_graphics_angle x;
     Building_disappears_when_built := Building_disappears_when_built x;
     Building_stack_unit_id := Building_stack_unit_id x;
     Building_foundation_terrain_id := Building_foundation_terrain_id x;
     Building_old_overlap_id := Building_old_overlap_id x;
     Building_tech_id := Building_tech_id x;
     Building_can_burn := Building_can_burn x;
     Building_annexes := (map (BuildingAnnex_floats g)) (Building_annexes x);
     Building_head_unit := Building_head_unit x;
     Building_transform_unit := Building_transform_unit x;
     Building_transform_sound := Building_transform_sound x;
     Building_construction_sound := Building_construction_sound x;
     Building_wwise_transform_sound_id := Building_wwise_transform_sound_id x;
     Building_wwise_construction_sound_id := Building_wwise_construction_sound_id x;
     Building_garrison_type := Building_garrison_type x;
     Building_garrison_heal_rate := g (Building_garrison_heal_rate x);
     Building_garrison_repair_rate := g (Building_garrison_repair_rate x);
     Building_pile_unit := Building_pile_unit x;
     Building_looting_table := Building_looting_table x |}.
Definition Unit_floats (g : f64 -> f64) (x : Unit) : Unit :=
  {| Unit_type := Unit_type x;
     Unit_id := Unit_id x;
     Unit_language_dll_name := Unit_language_dll_name x;
     Unit_language_dll_creation := Unit_language_dll_creation x;
     Unit_class_ := Unit_class_ x;
     Unit_standing_graphic := Unit_standing_graphic x;
     Unit_dying_graphic := Unit_dying_graphic x;
     Unit_undead_graphic := Unit_undead_graphic x;
     Unit_undead_mode := Unit_undead_mode x;
     Unit_hit_points := Unit_hit_points x;
     Unit_line_of_sight := g (Unit_line_of_sight x);
     Unit_garrison_capacity := Unit_garrison_capacity x;
     Unit_collision_size_x := g (Unit_collision_size_x x);
     Unit_collision_size_y := g (Unit_collision_size_y x);
     Unit_collision_size_z := g (Unit_collision_size_z x);
     Unit_train_sound := Unit_train_sound x;
     Unit_damage_sound := Unit_damage_sound x;
     Unit_dead_unit_id := Unit_dead_unit_id x;
     Unit_blood_unit_id := Unit_blood_unit_id x;
     Unit_sort_number := Unit_sort_number x;
     Unit_can_be_built_on := Unit_can_be_built_on x;
     Unit_icon_id := Unit_icon_id x;
     Unit_hide_in_editor := Unit_hide_in_editor x;
     Unit_old_portrait_pict := Unit_old_portrait_pict x;
     Unit_enabled := Unit_enabled x;
     Unit_disabled := Unit_disabled x;
     Unit_placement_side_terrain := Unit_placement_side_terrain x;
     Unit_placement_terrain := Unit_placement_terrain x;
     Unit_clearance_size := (map g) (Unit_clearance_size x);
     Unit_hill_mode := Unit_hill_mode x;
     Unit_fog_visibility := Unit_fog_visibility x;
     Unit_terrain_restriction := Unit_terrain_restriction x;
     Unit_fly_mode := Unit_fly_mode x;
     Unit_resource_capacity := Unit_resource_capacity x;
     Unit_resource_decay := g (Unit_resource_decay x);
     Unit_blast_defense_level := Unit_blast_defense_level x;
     Unit_combat_level := Unit_combat_level x;
     Unit_interaction_mode := Unit_interaction_mode x;
     Unit_minimap_mode := Unit_minimap_mode x;
     Unit_interface_kind := Unit_interface_kind x;
     Unit_multiple_attribute_mode := g (Unit_multiple_attribute_mode x);
     Unit_minimap_color := Unit_minimap_color x;
     Unit_language_dll_help := Unit_language_dll_help x;
     Unit_language_dll_hotkey_text := Unit_language_dll_hotkey_text x;
     Unit_hot_key := Unit_hot_key x;
     Unit_recyclable := Unit_recyclable x;
     Unit_enable_auto_gather := Unit_enable_auto_gather x;
     Unit_create_doppelganger_on_death := Unit_create_doppelganger_on_death x;
     Unit_resource_gather_group := Unit_resource_gather_group x;
     Unit_occlusion_mode := Unit_occlusion_mode x;
     Unit_obstruction_type := Unit_obstruction_type x;
     Unit_obstruction_class := Unit_obstruction_class x;
     Unit_trait := Unit_trait x;
     Unit_civilization := Unit_civilization x;
     Unit_nothing := Unit_nothing x;
     Unit_selection_effect := Unit_selection_effect x;
     Unit_editor_selection_colour := Unit_editor_selection_colour x;
     Unit_outline_size_x := g (Unit_outline_size_x x);
     Unit_outline_size_y := g (Unit_outline_size_y x);
     Unit_outline_size_z := g (Unit_outline_size_z x);
     Unit_scenario_triggers_1 := Unit_scenario_triggers_1 x;
     Unit_scenario_triggers_2 := Unit_scenario_triggers_2 x;
     Unit_resource_storages := (map (ResourceStorage_floats g)) (Unit_resource_storages x);
     Unit_damage_graphics := Unit_damage_graphics x;
     Unit_selection_sound := Unit_selection_sound x;
     Unit_dying_sound := Unit_dying_sound x;
     Unit_wwise_train_sound_id := Unit_wwise_train_sound_id x;
     Unit_wwise_damage_sound_id := Unit_wwise_damage_sound_id x;
     Unit_wwise_selection_sound_id := Unit_wwise_selection_sound_id x;
     Unit_wwise_dying_sound_id := Unit_wwise_dying_sound_id x;
     Unit_old_attack_reaction := Unit_old_attack_reaction x;
     Unit_convert_terrain := Unit_convert_terrain x;
     Unit_name := Unit_name x;
     Unit_copy_id := Unit_copy_id x;
     Unit_base_id := Unit_base_id x;
     Unit_speed := (option_map g) (Unit_speed x);
     Unit_dead_fish := (option_map (DeadFish_floats g)) (Unit_dead_fish x);
     Unit_bird := (option_map (Bird_floats g)) (Unit_bird x);
     Unit_type_50 := (option_map (Type50_floats g)) (Unit_type_50 x);
     Unit_projectile := (option_map (Projectile_floats g)) (Unit_projectile x);
     Unit_creatable := (option_map (Creatable_floats g)) (Unit_creatable x);
     Unit_building := (option_map (Building_floats g)) (Unit_building x) |}.
Definition Civ_floats (g : f64 -> f64) (x : Civ) : Civ :=
  {| Civ_player_type := Civ_player_type x;
     Civ_name := Civ_name x;
     Civ_tech_tree_id := Civ_tech_tree_id x;
     Civ_team_bonus_id := Civ_team_bonus_id x;
     Civ_resources := (map g) (Civ_resources x);
     Civ_icon_set := Civ_icon_set x;
     Civ_units := (map (option_map (Unit_floats g))) (Civ_units x) |}.
Definition DatFile_floats (g : f64 -> f64) (x : DatFile) : DatFile :=
  {| DatFile_version := DatFile_version x;
     DatFile_float_ptr_terrain_tables := DatFile_float_ptr_terrain_tables x;
     DatFile_terrain_pass_graphic_pointers := DatFile_terrain_pass_graphic_pointers x;
     DatFile_terrain_restrictions := (map (TerrainRestriction_floats g)) (DatFile_terrain_restrictions x);
     DatFile_player_colours := DatFile_player_colours x;
     DatFile_sounds := DatFile_sounds x;
     DatFile_graphics := (map (option_map (Graphic_floats g))) (DatFile_graphics x);
     DatFile_terrain_block := (TerrainBlock_floats g) (DatFile_terrain_block x);
     DatFile_random_maps := DatFile_random_maps x;
     DatFile_effects := (map (Effect_floats g)) (DatFile_effects x);
     DatFile_unit_headers := (map (UnitHeaders_floats g)) (DatFile_unit_headers x);
     DatFile_civs := (map (Civ_floats g)) (DatFile_civs x);
     DatFile_techs := DatFile_techs x;
     DatFile_time_slice := DatFile_time_slice x;
     DatFile_unit_kill_rate := DatFile_unit_kill_rate x;
     DatFile_unit_kill_total := DatFile_unit_kill_total x;
     DatFile_unit_hit_point_rate := DatFile_unit_hit_point_rate x;
     DatFile_unit_hit_point_total := DatFile_unit_hit_point_total x;
     DatFile_razing_kill_rate := DatFile_razing_kill_rate x;
     DatFile_razing_kill_total := DatFile_razing_kill_total x;
     DatFile_tech_tree := DatFile_tech_tree x |}.
