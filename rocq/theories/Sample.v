(** * A non-trivial concrete instance of every record class, for each file version.

    Used only to show that the hypotheses of the theorems are met (drafted by
    tools/gen_sample.py). *)
From Verif Require Import Base PyInt PyFloat PyStr PyStruct DataTypes Versions Common Wire Layout Shape Spec Codec.
From Verif Require Import M_Sound M_PlayerColour M_Effect M_TerrainRestriction M_Graphic
  M_TerrainBlock M_RandomMaps M_Task M_UnitHeaders M_Unit M_Civ M_Tech M_TechTree M_DatFile.
Open Scope Z_scope.
Local Open Scope list_scope.

Definition sample_SoundItem (v : Version) : SoundItem :=
  {| SoundItem_filename := [72; 233; 8364; 128512; 33];
     SoundItem_resource_id := 11;
     SoundItem_probability := 88;
     SoundItem_civilization := 21;
     SoundItem_icon_set := 57 |}.
Definition sample_Sound (v : Version) : Sound :=
  {| Sound_id := 6;
     Sound_play_delay := 53;
     Sound_cache_time := 79;
     Sound_total_probability := 59;
     Sound_items := [sample_SoundItem v; sample_SoundItem v] |}.
Definition sample_PlayerColour (v : Version) : PlayerColour :=
  {| PlayerColour_id := 20;
     PlayerColour_player_color_base := 50;
     PlayerColour_unit_outline_color := 58;
     PlayerColour_unit_selection_color_1 := 13;
     PlayerColour_unit_selection_color_2 := 1;
     PlayerColour_minimap_color := 18;
     PlayerColour_minimap_color_2 := 36;
     PlayerColour_minimap_color_3 := 61;
     PlayerColour_statistics_text := 34 |}.
Definition sample_EffectCommand (v : Version) : EffectCommand :=
  {| EffectCommand_type := 47;
     EffectCommand_a := 37;
     EffectCommand_b := 68;
     EffectCommand_c := 83;
     EffectCommand_d := (f64_of_bits 4609434218613702656) |}.
Definition sample_Effect (v : Version) : Effect :=
  {| Effect_name := [72; 233; 8364; 128512; 33];
     Effect_effect_commands := [sample_EffectCommand v; sample_EffectCommand v] |}.
Definition sample_TerrainPassGraphic (v : Version) : TerrainPassGraphic :=
  {| TerrainPassGraphic_exit_tile_sprite_id := 94;
     TerrainPassGraphic_enter_tile_sprite_id := 63;
     TerrainPassGraphic_walk_tile_sprite_id := 48;
     TerrainPassGraphic_walk_sprite_rate := 44 |}.
Definition sample_TerrainRestriction (v : Version) : TerrainRestriction :=
  {| TerrainRestriction_passable_buildable_dmg_multiplier := [(f64_of_bits 0); (f64_of_bits 4607182418800017408)];
     TerrainRestriction_terrain_pass_graphics := [sample_TerrainPassGraphic v; sample_TerrainPassGraphic v] |}.
Definition sample_GraphicDelta (v : Version) : GraphicDelta :=
  {| GraphicDelta_graphic_id := 30;
     GraphicDelta_padding_1 := 19;
     GraphicDelta_sprite_ptr := 43;
     GraphicDelta_offset_x := 9;
     GraphicDelta_offset_y := 74;
     GraphicDelta_display_angle := 24;
     GraphicDelta_padding_2 := 78 |}.
Definition sample_GraphicAngleSound (v : Version) : GraphicAngleSound :=
  {| GraphicAngleSound_frame_num := 52;
     GraphicAngleSound_sound_id := 72;
     GraphicAngleSound_wwise_sound_id := 10;
     GraphicAngleSound_frame_num_2 := 81;
     GraphicAngleSound_sound_id_2 := 73;
     GraphicAngleSound_wwise_sound_id_2 := 17;
     GraphicAngleSound_frame_num_3 := 29;
     GraphicAngleSound_sound_id_3 := 12;
     GraphicAngleSound_wwise_sound_id_3 := 95 |}.
Definition sample_Graphic (v : Version) : Graphic :=
  {| Graphic_name := [72; 233; 8364; 128512; 33];
     Graphic_file_name := [72; 233; 8364; 128512; 33];
     Graphic_particle_effect_name := [72; 233; 8364; 128512; 33];
     Graphic_slp := 70;
     Graphic_is_loaded := 97;
     Graphic_old_color_flag := 84;
     Graphic_layer := 94;
     Graphic_player_color := 63;
     Graphic_transparent_selection := 48;
     Graphic_coordinates := [44; 16; 22; 64];
     Graphic_sound_id := 55;
     Graphic_wwise_sound_id := 93;
     Graphic_angle_sounds_used := 1;
     Graphic_frame_count := 56;
     Graphic_angle_count := 2;
     Graphic_speed_multiplier := (f64_of_bits 0);
     Graphic_frame_duration := (f64_of_bits 4607182418800017408);
     Graphic_replay_delay := (f64_of_bits 4576918229175238656);
     Graphic_sequence_type := 20;
     Graphic_id := 50;
     Graphic_mirroring_mode := 58;
     Graphic_editor_flag := 13;
     Graphic_deltas := [sample_GraphicDelta v; sample_GraphicDelta v];
     Graphic_angle_sounds := [sample_GraphicAngleSound v; sample_GraphicAngleSound v] |}.
Definition sample_FrameData (v : Version) : FrameData :=
  {| FrameData_frame_count := 1;
     FrameData_angle_count := 18;
     FrameData_shape_id := 36 |}.
Definition sample_Terrain (v : Version) : Terrain :=
  {| Terrain_enabled := 61;
     Terrain_random := 34;
     Terrain_is_water := 47;
     Terrain_hide_in_editor := 37;
     Terrain_string_id := 68;
     Terrain_name := [72; 233; 8364; 128512; 33];
     Terrain_name_2 := [72; 233; 8364; 128512; 33];
     Terrain_slp := 83;
     Terrain_shape_ptr := 87;
     Terrain_sound_id := 14;
     Terrain_wwise_sound_id := 8;
     Terrain_wwise_sound_stop_id := 67;
     Terrain_blend_priority := 76;
     Terrain_blend_type := 38;
     Terrain_overlay_mask_name := [72; 233; 8364; 128512; 33];
     Terrain_colors := [75; 31; 26];
     Terrain_cliff_colors := [92; 49];
     Terrain_passable_terrain := 51;
     Terrain_impassable_terrain := 65;
     Terrain_is_animated := 62;
     Terrain_animation_frames := 41;
     Terrain_pause_frames := 96;
     Terrain_interval := (f64_of_bits 4602678819172646912);
     Terrain_pause_between_loops := (f64_of_bits 13837309855095848960);
     Terrain_frame := 91;
     Terrain_draw_frame := 42;
     Terrain_animate_last := (f64_of_bits 4602678819172646912);
     Terrain_frame_changed := 9;
     Terrain_drawn := 74;
     Terrain_frame_data := repeat (sample_FrameData v) 19;
     Terrain_terrain_to_draw := 24;
     Terrain_terrain_dimensions := [78; 52];
     Terrain_terrain_unit_masked_density := repeat 72 30;
     Terrain_terrain_unit_id := repeat 10 30;
     Terrain_terrain_unit_density := repeat 81 30;
     Terrain_terrain_unit_centering := repeat 73 30;
     Terrain_number_of_terrain_units_used := 17;
     Terrain_phantom := 29 |}.
Definition sample_TileSize (v : Version) : TileSize :=
  {| TileSize_width := 12;
     TileSize_height := 95;
     TileSize_delta_y := 70 |}.
Definition sample_TerrainBlock (v : Version) : TerrainBlock :=
  {| TerrainBlock_virtual_function_ptr := 97;
     TerrainBlock_map_pointer := 84;
     TerrainBlock_map_width := 94;
     TerrainBlock_map_height := 63;
     TerrainBlock_world_width := 48;
     TerrainBlock_world_height := 44;
     TerrainBlock_tile_sizes := repeat (sample_TileSize v) 19;
     TerrainBlock_padding_ts := 16;
     TerrainBlock_terrains := repeat (sample_Terrain v) 200;
     TerrainBlock_map_min_x := (f64_of_bits 4576918229175238656);
     TerrainBlock_map_min_y := (f64_of_bits 4609434218613702656);
     TerrainBlock_map_max_x := (f64_of_bits 4602678819172646912);
     TerrainBlock_map_max_y := (f64_of_bits 13837309855095848960);
     TerrainBlock_map_max_x_plus_1 := (f64_of_bits 0);
     TerrainBlock_map_max_y_plus_1 := (f64_of_bits 4607182418800017408);
     TerrainBlock_terrains_used_2 := 64;
     TerrainBlock_borders_used := 55;
     TerrainBlock_max_terrain := 93;
     TerrainBlock_tile_width := 56;
     TerrainBlock_tile_height := 100;
     TerrainBlock_tile_half_height := 4;
     TerrainBlock_tile_half_width := 39;
     TerrainBlock_elev_height := 82;
     TerrainBlock_cur_row := 80;
     TerrainBlock_cur_col := 66;
     TerrainBlock_block_beg_row := 69;
     TerrainBlock_block_end_row := 90;
     TerrainBlock_block_beg_col := 35;
     TerrainBlock_block_end_col := 54;
     TerrainBlock_search_map_ptr := 86;
     TerrainBlock_search_map_rows_ptr := 7;
     TerrainBlock_any_frame_change := 60;
     TerrainBlock_map_visible_flag := 27;
     TerrainBlock_fog_flag := 99 |}.
Definition sample_MapUnit (v : Version) : MapUnit :=
  {| MapUnit_unit := 98;
     MapUnit_host_terrain := 91;
     MapUnit_group_placing := 42;
     MapUnit_scale_flag := 2;
     MapUnit_padding_1 := 25;
     MapUnit_objects_per_group := 85;
     MapUnit_fluctuation := 0;
     MapUnit_groups_per_player := 11;
     MapUnit_group_arena := 88;
     MapUnit_player_id := 21;
     MapUnit_set_place_for_all_players := 57;
     MapUnit_min_distance_to_players := 6;
     MapUnit_max_distance_to_players := 53 |}.
Definition sample_MapTerrain (v : Version) : MapTerrain :=
  {| MapTerrain_proportion := 79;
     MapTerrain_terrain := 59;
     MapTerrain_clump_count := 20;
     MapTerrain_edge_spacing := 50;
     MapTerrain_placement_terrain := 58;
     MapTerrain_clumpiness := 13 |}.
Definition sample_MapLand (v : Version) : MapLand :=
  {| MapLand_land_id := 1;
     MapLand_terrain := 18;
     MapLand_land_spacing := 36;
     MapLand_base_size := 61;
     MapLand_zone := 34;
     MapLand_placement_type := 47;
     MapLand_padding_1 := 37;
     MapLand_base_x := 68;
     MapLand_base_y := 83;
     MapLand_land_proportion := 87;
     MapLand_by_player_flag := 14;
     MapLand_padding_2 := 8;
     MapLand_start_area_radius := 67;
     MapLand_terrain_edge_fade := 76;
     MapLand_clumpiness := 38 |}.
Definition sample_MapElevation (v : Version) : MapElevation :=
  {| MapElevation_proportion := 75;
     MapElevation_terrain := 31;
     MapElevation_clump_count := 26;
     MapElevation_base_terrain := 92;
     MapElevation_base_elevation := 49;
     MapElevation_tile_spacing := 51 |}.
Definition sample_MapInfo (v : Version) : MapInfo :=
  {| MapInfo_map_id := 65;
     MapInfo_border_south_west := 62;
     MapInfo_border_north_west := 41;
     MapInfo_border_north_east := 96;
     MapInfo_border_south_east := 77;
     MapInfo_border_usage := 45;
     MapInfo_water_shape := 23;
     MapInfo_base_terrain := 71;
     MapInfo_land_coverage := 3;
     MapInfo_unused_id := 32;
     MapInfo_map_lands_size := 2;
     MapInfo_map_lands_ptr := 33;
     MapInfo_map_lands := [sample_MapLand v; sample_MapLand v];
     MapInfo_map_terrains_size := 2;
     MapInfo_map_terrains_ptr := 40;
     MapInfo_map_terrains := [sample_MapTerrain v; sample_MapTerrain v];
     MapInfo_map_units_size := 2;
     MapInfo_map_units_ptr := 89;
     MapInfo_map_units := [sample_MapUnit v; sample_MapUnit v];
     MapInfo_map_elevations_size := 2;
     MapInfo_map_elevations_ptr := 28;
     MapInfo_map_elevations := [sample_MapElevation v; sample_MapElevation v] |}.
Definition sample_RandomMaps (v : Version) : RandomMaps :=
  {| RandomMaps_random_maps_ptr := 5;
     RandomMaps_map_info_1 := [sample_MapInfo v; sample_MapInfo v];
     RandomMaps_map_info_2 := [sample_MapInfo v; sample_MapInfo v] |}.
Definition sample_Task (v : Version) : Task :=
  {| Task_task_type := 46;
     Task_id := 30;
     Task_is_default := 19;
     Task_action_type := 43;
     Task_class_id := 9;
     Task_unit_id := 74;
     Task_terrain_id := 24;
     Task_resource_in := 78;
     Task_resource_multiplier := 52;
     Task_resource_out := 72;
     Task_unused_resource := 10;
     Task_work_value_1 := (f64_of_bits 4576918229175238656);
     Task_work_value_2 := (f64_of_bits 4609434218613702656);
     Task_work_range := (f64_of_bits 4602678819172646912);
     Task_auto_search_targets := 1;
     Task_search_wait_time := (f64_of_bits 13837309855095848960);
     Task_enable_targeting := 25;
     Task_combat_level_flag := 85;
     Task_gather_type := 0;
     Task_work_flag_2 := 11;
     Task_target_diplomacy := 88;
     Task_carry_check := 21;
     Task_pick_for_construction := 57;
     Task_moving_graphic_id := 6;
     Task_proceeding_graphic_id := 53;
     Task_working_graphic_id := 79;
     Task_carrying_graphic_id := 59;
     Task_resource_gathering_sound_id := 20;
     Task_resource_deposit_sound_id := 50;
     Task_wwise_resource_gathering_sound_id := 58;
     Task_wwise_resource_deposit_sound_id := 13;
     Task_enabled := (if since 88 v then 1 else -1) |}.
Definition sample_UnitHeaders (v : Version) : UnitHeaders :=
  {| UnitHeaders_exists_ := 1;
     UnitHeaders_task_list := Some [sample_Task v; sample_Task v] |}.
Definition sample_ResourceStorage (v : Version) : ResourceStorage :=
  {| ResourceStorage_type := 1;
     ResourceStorage_amount := (f64_of_bits 13837309855095848960);
     ResourceStorage_flag := 25 |}.
Definition sample_DamageGraphic (v : Version) : DamageGraphic :=
  {| DamageGraphic_graphic_id := 85;
     DamageGraphic_damage_percent := 0;
     DamageGraphic_apply_mode := 11 |}.
Definition sample_DeadFish (v : Version) : DeadFish :=
  {| DeadFish_walking_graphic := 88;
     DeadFish_running_graphic := 21;
     DeadFish_rotation_speed := (f64_of_bits 4607182418800017408);
     DeadFish_old_size_class := 64;
     DeadFish_tracking_unit := 55;
     DeadFish_tracking_unit_mode := 93;
     DeadFish_tracking_unit_density := (f64_of_bits 4607182418800017408);
     DeadFish_old_move_algorithm := 63;
     DeadFish_turn_radius := (f64_of_bits 4607182418800017408);
     DeadFish_turn_radius_speed := (f64_of_bits 4576918229175238656);
     DeadFish_max_yaw_per_second_moving := (f64_of_bits 4609434218613702656);
     DeadFish_stationary_yaw_revolution_time := (f64_of_bits 4602678819172646912);
     DeadFish_max_yaw_per_second_stationary := (f64_of_bits 13837309855095848960);
     DeadFish_min_collision_size_multiplier := (f64_of_bits 0) |}.
Definition sample_Bird (v : Version) : Bird :=
  {| Bird_default_task_id := 90;
     Bird_search_radius := (f64_of_bits 4602678819172646912);
     Bird_work_rate := (f64_of_bits 13837309855095848960);
     Bird_drop_sites := (if since 78 v then [49; 51] else [65; 62; -1]);
     Bird_task_swap_group := 41;
     Bird_attack_sound := 96;
     Bird_move_sound := 77;
     Bird_wwise_attack_sound_id := 45;
     Bird_wwise_move_sound_id := 23;
     Bird_run_pattern := 71;
     Bird_tasks := [sample_Task v; sample_Task v] |}.
Definition sample_AttackOrArmor (v : Version) : AttackOrArmor :=
  {| AttackOrArmor_class_ := 3;
     AttackOrArmor_amount := 32 |}.
Definition sample_Type50 (v : Version) : Type50 :=
  {| Type50_base_armor := 33;
     Type50_attacks := [sample_AttackOrArmor v; sample_AttackOrArmor v];
     Type50_armours := [sample_AttackOrArmor v; sample_AttackOrArmor v];
     Type50_defense_terrain_bonus := 40;
     Type50_bonus_damage_resistance := (f64_of_bits 4576918229175238656);
     Type50_max_range := (f64_of_bits 4609434218613702656);
     Type50_blast_width := (f64_of_bits 4602678819172646912);
     Type50_reload_time := (f64_of_bits 13837309855095848960);
     Type50_projectile_unit_id := 16;
     Type50_accuracy_percent := 22;
     Type50_break_off_combat := 64;
     Type50_frame_delay := 55;
     Type50_graphic_displacement := [(f64_of_bits 13837309855095848960); (f64_of_bits 0); (f64_of_bits 4607182418800017408)];
     Type50_blast_attack_level := 13;
     Type50_min_range := (f64_of_bits 13837309855095848960);
     Type50_accuracy_dispersion := (f64_of_bits 0);
     Type50_attack_graphic := 15;
     Type50_displayed_melee_armour := 15;
     Type50_displayed_attack := 15;
     Type50_displayed_range := (f64_of_bits 4607182418800017408);
     Type50_displayed_reload_time := (f64_of_bits 4576918229175238656);
     Type50_blast_damage := (f64_of_bits 4609434218613702656);
     Type50_damage_reflection := (if since 84 v then (f64_of_bits 4602678819172646912) else f64_zero);
     Type50_friendly_fire_damage := (if since 84 v then (f64_of_bits 13837309855095848960) else f64_one);
     Type50_interrupt_frame := (if since 84 v then 50 else -1);
     Type50_garrison_firepower := (if since 84 v then (f64_of_bits 0) else f64_zero);
     Type50_attack_graphic_2 := (if since 84 v then 65 else -1) |}.
Definition sample_Projectile (v : Version) : Projectile :=
  {| Projectile_projectile_type := 62;
     Projectile_smart_mode := 41;
     Projectile_hit_mode := 96;
     Projectile_vanish_mode := 77;
     Projectile_area_effect_specials := 45;
     Projectile_projectile_arc := (f64_of_bits 4607182418800017408) |}.
Definition sample_ResourceCost (v : Version) : ResourceCost :=
  {| ResourceCost_type := 30;
     ResourceCost_amount := 19;
     ResourceCost_flag := 43 |}.
Definition sample_TrainLocation (v : Version) : TrainLocation :=
  {| TrainLocation_train_time := 9;
     TrainLocation_unit_id := 74;
     TrainLocation_button_id := 24;
     TrainLocation_hot_key_id := (if since 88 v then 16725 else 16000) |}.
Definition sample_Creatable (v : Version) : Creatable :=
  {| Creatable_resource_costs := repeat (sample_ResourceCost v) 3;
     Creatable_train_locations := sample_TrainLocation v :: (if since 88 v then [sample_TrainLocation v] else []);
     Creatable_rear_attack_modifier := (f64_of_bits 4602678819172646912);
     Creatable_flank_attack_modifier := (f64_of_bits 13837309855095848960);
     Creatable_creatable_type := 92;
     Creatable_hero_mode := 49;
     Creatable_garrison_graphic := 51;
     Creatable_spawning_graphic := 65;
     Creatable_upgrade_graphic := 62;
     Creatable_hero_glow_graphic := 41;
     Creatable_idle_attack_graphic := (if since 84 v then 96 else -1);
     Creatable_max_charge := (f64_of_bits 4602678819172646912);
     Creatable_recharge_rate := (f64_of_bits 13837309855095848960);
     Creatable_charge_event := 91;
     Creatable_charge_type := 42;
     Creatable_charge_target := (if since 84 v then 2 else 0);
     Creatable_charge_projectile_unit := (if since 84 v then 25 else -1);
     Creatable_attack_priority := (if since 84 v then 85 else 0);
     Creatable_invulnerability_level := (if since 84 v then (f64_of_bits 13837309855095848960) else f64_zero);
     Creatable_button_icon_id := (if since 84 v then 7 else -1);
     Creatable_button_short_tooltip_id := (if since 84 v then 60 else -1);
     Creatable_button_extended_tooltip_id := (if since 84 v then 27 else -1);
     Creatable_button_hotkey_action := (if since 84 v then 99 else -1);
     Creatable_min_conversion_time_mod := (f64_of_bits 4607182418800017408);
     Creatable_max_conversion_time_mod := (f64_of_bits 4576918229175238656);
     Creatable_conversion_chance_mod := (f64_of_bits 4609434218613702656);
     Creatable_total_projectiles := (f64_of_bits 4602678819172646912);
     Creatable_max_total_projectiles := 25;
     Creatable_projectile_spawning_area := [(f64_of_bits 13837309855095848960); (f64_of_bits 0); (f64_of_bits 4607182418800017408)];
     Creatable_secondary_projectile_unit := 5;
     Creatable_special_graphic := 46;
     Creatable_special_ability := 30;
     Creatable_displayed_pierce_armour := 19 |}.
Definition sample_BuildingAnnex (v : Version) : BuildingAnnex :=
  {| BuildingAnnex_unit_id := 43;
     BuildingAnnex_misplacement_x := (f64_of_bits 13837309855095848960);
     BuildingAnnex_misplacement_y := (f64_of_bits 0) |}.
Definition sample_Building (v : Version) : Building :=
  {| Building_construction_graphic_id := 23;
     Building_snow_graphic_id := 71;
     Building_destruction_graphic_id := 3;
     Building_destruction_rubble_graphic_id := 32;
     Building_researching_graphic := 33;
     Building_research_completed_graphic := 40;
     Building_adjacent_mode := 89;
     Building_graphics_angle := 28;
     Building_disappears_when_built := 5;
     Building_stack_unit_id := 46;
     Building_foundation_terrain_id := 30;
     Building_old_overlap_id := 19;
     Building_tech_id := 43;
     Building_can_burn := 9;
     Building_annexes := repeat (sample_BuildingAnnex v) 4;
     Building_head_unit := 74;
     Building_transform_unit := 24;
     Building_transform_sound := 78;
     Building_construction_sound := 52;
     Building_wwise_transform_sound_id := 72;
     Building_wwise_construction_sound_id := 10;
     Building_garrison_type := 81;
     Building_garrison_heal_rate := (f64_of_bits 4607182418800017408);
     Building_garrison_repair_rate := (f64_of_bits 4576918229175238656);
     Building_pile_unit := 87;
     Building_looting_table := [14; 8; 67; 76; 38; 75] |}.
(** Inside a unit before 8.8 the train location carries the hot key of the unit. *)
Definition sample_unit_creatable (v : Version) : Creatable :=
  let c := sample_Creatable v in
  let l := sample_TrainLocation v in
  let l := {| TrainLocation_train_time := TrainLocation_train_time l; TrainLocation_unit_id := TrainLocation_unit_id l;
              TrainLocation_button_id := TrainLocation_button_id l; TrainLocation_hot_key_id := 16725 |} in
  {| Creatable_resource_costs := Creatable_resource_costs c;
     Creatable_train_locations := l :: (if since 88 v then [l] else []);
     Creatable_rear_attack_modifier := Creatable_rear_attack_modifier c;
     Creatable_flank_attack_modifier := Creatable_flank_attack_modifier c;
     Creatable_creatable_type := Creatable_creatable_type c;
     Creatable_hero_mode := Creatable_hero_mode c;
     Creatable_garrison_graphic := Creatable_garrison_graphic c;
     Creatable_spawning_graphic := Creatable_spawning_graphic c;
     Creatable_upgrade_graphic := Creatable_upgrade_graphic c;
     Creatable_hero_glow_graphic := Creatable_hero_glow_graphic c;
     Creatable_idle_attack_graphic := Creatable_idle_attack_graphic c;
     Creatable_max_charge := Creatable_max_charge c;
     Creatable_recharge_rate := Creatable_recharge_rate c;
     Creatable_charge_event := Creatable_charge_event c;
     Creatable_charge_type := Creatable_charge_type c;
     Creatable_charge_target := Creatable_charge_target c;
     Creatable_charge_projectile_unit := Creatable_charge_projectile_unit c;
     Creatable_attack_priority := Creatable_attack_priority c;
     Creatable_invulnerability_level := Creatable_invulnerability_level c;
     Creatable_button_icon_id := Creatable_button_icon_id c;
     Creatable_button_short_tooltip_id := Creatable_button_short_tooltip_id c;
     Creatable_button_extended_tooltip_id := Creatable_button_extended_tooltip_id c;
     Creatable_button_hotkey_action := Creatable_button_hotkey_action c;
     Creatable_min_conversion_time_mod := Creatable_min_conversion_time_mod c;
     Creatable_max_conversion_time_mod := Creatable_max_conversion_time_mod c;
     Creatable_conversion_chance_mod := Creatable_conversion_chance_mod c;
     Creatable_total_projectiles := Creatable_total_projectiles c;
     Creatable_max_total_projectiles := Creatable_max_total_projectiles c;
     Creatable_projectile_spawning_area := Creatable_projectile_spawning_area c;
     Creatable_secondary_projectile_unit := Creatable_secondary_projectile_unit c;
     Creatable_special_graphic := Creatable_special_graphic c;
     Creatable_special_ability := Creatable_special_ability c;
     Creatable_displayed_pierce_armour := Creatable_displayed_pierce_armour c |}.
Definition sample_Unit (v : Version) (t : Z) : Unit :=
  {| Unit_type := t;
     Unit_id := 31;
     Unit_language_dll_name := 26;
     Unit_language_dll_creation := 92;
     Unit_class_ := 49;
     Unit_standing_graphic := [51; 65];
     Unit_dying_graphic := 62;
     Unit_undead_graphic := 41;
     Unit_undead_mode := 96;
     Unit_hit_points := 77;
     Unit_line_of_sight := (f64_of_bits 4609434218613702656);
     Unit_garrison_capacity := 52;
     Unit_collision_size_x := (f64_of_bits 4576918229175238656);
     Unit_collision_size_y := (f64_of_bits 4609434218613702656);
     Unit_collision_size_z := (f64_of_bits 4602678819172646912);
     Unit_train_sound := 93;
     Unit_damage_sound := 56;
     Unit_dead_unit_id := 100;
     Unit_blood_unit_id := 4;
     Unit_sort_number := 39;
     Unit_can_be_built_on := 82;
     Unit_icon_id := 80;
     Unit_hide_in_editor := 66;
     Unit_old_portrait_pict := 69;
     Unit_enabled := 90;
     Unit_disabled := 35;
     Unit_placement_side_terrain := [54; 86];
     Unit_placement_terrain := [7; 60];
     Unit_clearance_size := [(f64_of_bits 4602678819172646912); (f64_of_bits 13837309855095848960)];
     Unit_hill_mode := 41;
     Unit_fog_visibility := 96;
     Unit_terrain_restriction := 77;
     Unit_fly_mode := 45;
     Unit_resource_capacity := 23;
     Unit_resource_decay := (f64_of_bits 4609434218613702656);
     Unit_blast_defense_level := 78;
     Unit_combat_level := 52;
     Unit_interaction_mode := 72;
     Unit_minimap_mode := 10;
     Unit_interface_kind := 81;
     Unit_multiple_attribute_mode := (f64_of_bits 4607182418800017408);
     Unit_minimap_color := 80;
     Unit_language_dll_help := 66;
     Unit_language_dll_hotkey_text := 69;
     Unit_hot_key := if has_creatable t then 16725 else 16000;
     Unit_recyclable := 90;
     Unit_enable_auto_gather := 35;
     Unit_create_doppelganger_on_death := 54;
     Unit_resource_gather_group := 86;
     Unit_occlusion_mode := 7;
     Unit_obstruction_type := 60;
     Unit_obstruction_class := 27;
     Unit_trait := 99;
     Unit_civilization := 98;
     Unit_nothing := 91;
     Unit_selection_effect := 42;
     Unit_editor_selection_colour := 2;
     Unit_outline_size_x := (f64_of_bits 0);
     Unit_outline_size_y := (f64_of_bits 4607182418800017408);
     Unit_outline_size_z := (f64_of_bits 4576918229175238656);
     Unit_scenario_triggers_1 := 46;
     Unit_scenario_triggers_2 := 30;
     Unit_resource_storages := repeat (sample_ResourceStorage v) 3;
     Unit_damage_graphics := [sample_DamageGraphic v; sample_DamageGraphic v];
     Unit_selection_sound := 19;
     Unit_dying_sound := 43;
     Unit_wwise_train_sound_id := 9;
     Unit_wwise_damage_sound_id := 74;
     Unit_wwise_selection_sound_id := 24;
     Unit_wwise_dying_sound_id := 78;
     Unit_old_attack_reaction := 52;
     Unit_convert_terrain := 72;
     Unit_name := [72; 233; 8364; 128512; 33];
     Unit_copy_id := 10;
     Unit_base_id := 81;
     Unit_speed := if has_speed t then Some ((f64_of_bits 4602678819172646912)) else None;
     Unit_dead_fish := if has_dead_fish t then Some (sample_DeadFish v) else None;
     Unit_bird := if has_bird t then Some (sample_Bird v) else None;
     Unit_type_50 := if has_type_50 t then Some (sample_Type50 v) else None;
     Unit_projectile := if has_projectile t then Some (sample_Projectile v) else None;
     Unit_creatable := if has_creatable t then Some (sample_unit_creatable v) else None;
     Unit_building := if has_building t then Some (sample_Building v) else None |}.
Definition sample_Civ (v : Version) : Civ :=
  {| Civ_player_type := 73;
     Civ_name := [72; 233; 8364; 128512; 33];
     Civ_tech_tree_id := 17;
     Civ_team_bonus_id := 29;
     Civ_resources := [(f64_of_bits 4609434218613702656); (f64_of_bits 4602678819172646912)];
     Civ_icon_set := 26;
     Civ_units := [Some (sample_Unit v 70); None; Some (sample_Unit v 10); Some (sample_Unit v 80); Some (sample_Unit v 60); Some (sample_Unit v 90)] |}.
Definition sample_ResearchResourceCost (v : Version) : ResearchResourceCost :=
  {| ResearchResourceCost_type := 92;
     ResearchResourceCost_amount := 49;
     ResearchResourceCost_flag := 51 |}.
Definition sample_ResearchLocation (v : Version) : ResearchLocation :=
  {| ResearchLocation_location_id := 65;
     ResearchLocation_research_time := 62;
     ResearchLocation_button_id := 41;
     ResearchLocation_hot_key_id := 96 |}.
Definition sample_Tech (v : Version) : Tech :=
  {| Tech_required_techs := [77; 45; 23; 71; 3; 32];
     Tech_resource_costs := repeat (sample_ResearchResourceCost v) 3;
     Tech_required_tech_count := 33;
     Tech_civ := 40;
     Tech_full_tech_mode := 89;
     Tech_language_dll_name := 28;
     Tech_language_dll_description := 5;
     Tech_effect_id := 46;
     Tech_type := 30;
     Tech_icon_id := 19;
     Tech_language_dll_help := 43;
     Tech_language_dll_tech_tree := 9;
     Tech_name := [72; 233; 8364; 128512; 33];
     Tech_repeatable := 74;
     Tech_research_locations := sample_ResearchLocation v :: (if since 88 v then [sample_ResearchLocation v] else []) |}.
Definition sample_Common (v : Version) : Common :=
  {| Common_slots_used := 24;
     Common_unit_research := [78; 52; 72; 10; 81; 73; 17; 29; 12; 95];
     Common_mode := [70; 97; 84; 94; 63; 48; 44; 16; 22; 64] |}.
Definition sample_TechTreeAge (v : Version) : TechTreeAge :=
  {| TechTreeAge_id := 55;
     TechTreeAge_status := 93;
     TechTreeAge_buildings := [56; 100; 4];
     TechTreeAge_units := [39; 82; 80];
     TechTreeAge_techs := [66; 69; 90];
     TechTreeAge_common := sample_Common v;
     TechTreeAge_num_building_levels := 35;
     TechTreeAge_buildings_per_zone := [54; 86; 7; 60; 27; 99; 98; 91; 42; 2];
     TechTreeAge_group_length_per_zone := [25; 85; 0; 11; 88; 21; 57; 6; 53; 79];
     TechTreeAge_max_age_length := 59;
     TechTreeAge_line_mode := 20 |}.
Definition sample_BuildingConnection (v : Version) : BuildingConnection :=
  {| BuildingConnection_id := 50;
     BuildingConnection_status := 58;
     BuildingConnection_buildings := [13; 1; 18];
     BuildingConnection_units := [36; 61; 34];
     BuildingConnection_techs := [47; 37; 68];
     BuildingConnection_common := sample_Common v;
     BuildingConnection_location_in_age := 83;
     BuildingConnection_units_techs_total := [87; 14; 8; 67; 76];
     BuildingConnection_units_techs_first := [38; 75; 31; 26; 92];
     BuildingConnection_line_mode := 49;
     BuildingConnection_enabling_research := 51 |}.
Definition sample_UnitConnection (v : Version) : UnitConnection :=
  {| UnitConnection_id := 65;
     UnitConnection_status := 62;
     UnitConnection_upper_building := 41;
     UnitConnection_common := sample_Common v;
     UnitConnection_vertical_line := 96;
     UnitConnection_units := [77; 45; 23];
     UnitConnection_location_in_age := 71;
     UnitConnection_required_research := 3;
     UnitConnection_line_mode := 32;
     UnitConnection_enabling_research := 33 |}.
Definition sample_ResearchConnection (v : Version) : ResearchConnection :=
  {| ResearchConnection_id := 40;
     ResearchConnection_status := 89;
     ResearchConnection_upper_building := 28;
     ResearchConnection_buildings := [5; 46; 30];
     ResearchConnection_units := [19; 43; 9];
     ResearchConnection_techs := [74; 24; 78];
     ResearchConnection_common := sample_Common v;
     ResearchConnection_vertical_line := 52;
     ResearchConnection_location_in_age := 72;
     ResearchConnection_line_mode := 10 |}.
Definition sample_TechTree (v : Version) : TechTree :=
  {| TechTree_total_unit_tech_groups := 81;
     TechTree_tech_tree_ages := [sample_TechTreeAge v; sample_TechTreeAge v];
     TechTree_building_connections := [sample_BuildingConnection v; sample_BuildingConnection v];
     TechTree_unit_connections := [sample_UnitConnection v; sample_UnitConnection v];
     TechTree_research_connections := [sample_ResearchConnection v; sample_ResearchConnection v] |}.
Definition sample_DatFile (v : Version) : DatFile :=
  {| DatFile_version := version_value v;
     DatFile_float_ptr_terrain_tables := [73; 17];
     DatFile_terrain_pass_graphic_pointers := [29; 12];
     DatFile_terrain_restrictions := [sample_TerrainRestriction v; sample_TerrainRestriction v];
     DatFile_player_colours := [sample_PlayerColour v; sample_PlayerColour v];
     DatFile_sounds := [sample_Sound v; sample_Sound v];
     DatFile_graphics := [Some (sample_Graphic v); None; Some (sample_Graphic v)];
     DatFile_terrain_block := sample_TerrainBlock v;
     DatFile_random_maps := sample_RandomMaps v;
     DatFile_effects := [sample_Effect v; sample_Effect v];
     DatFile_unit_headers := [sample_UnitHeaders v; {| UnitHeaders_exists_ := 0; UnitHeaders_task_list := None |}];
     DatFile_civs := [sample_Civ v; sample_Civ v];
     DatFile_techs := [sample_Tech v; sample_Tech v];
     DatFile_time_slice := 95;
     DatFile_unit_kill_rate := 70;
     DatFile_unit_kill_total := 97;
     DatFile_unit_hit_point_rate := 84;
     DatFile_unit_hit_point_total := 94;
     DatFile_razing_kill_rate := 63;
     DatFile_razing_kill_total := 48;
     DatFile_tech_tree := sample_TechTree v |}.

(** They are well formed. *)
Lemma Forall_repeat {A} (P : A -> Prop) x n : P x -> Forall P (repeat x n).
Proof. intros H. induction n; constructor; assumption. Qed.
Ltac shape_solve :=
  repeat first
    [ assumption | exact I | reflexivity | discriminate | intros; discriminate
    | apply Forall_repeat | progress intros | apply conj | constructor ].

Lemma sample_SoundItem_shape v : SoundItem_shape v (sample_SoundItem v).
Proof. unfold SoundItem_shape; destruct v; shape_solve. Qed.
Lemma sample_Sound_shape v : Sound_shape v (sample_Sound v).
Proof. pose proof (sample_SoundItem_shape v). unfold Sound_shape; destruct v; shape_solve. Qed.
Lemma sample_PlayerColour_shape v : PlayerColour_shape v (sample_PlayerColour v).
Proof. unfold PlayerColour_shape; destruct v; shape_solve. Qed.
Lemma sample_EffectCommand_shape v : EffectCommand_shape v (sample_EffectCommand v).
Proof. unfold EffectCommand_shape; destruct v; shape_solve. Qed.
Lemma sample_Effect_shape v : Effect_shape v (sample_Effect v).
Proof. pose proof (sample_EffectCommand_shape v). unfold Effect_shape; destruct v; shape_solve. Qed.
Lemma sample_TerrainPassGraphic_shape v : TerrainPassGraphic_shape v (sample_TerrainPassGraphic v).
Proof. unfold TerrainPassGraphic_shape; destruct v; shape_solve. Qed.
Lemma sample_TerrainRestriction_shape v : TerrainRestriction_shape v (sample_TerrainRestriction v).
Proof. pose proof (sample_TerrainPassGraphic_shape v). unfold TerrainRestriction_shape; destruct v; shape_solve. Qed.
Lemma sample_GraphicDelta_shape v : GraphicDelta_shape v (sample_GraphicDelta v).
Proof. unfold GraphicDelta_shape; destruct v; shape_solve. Qed.
Lemma sample_GraphicAngleSound_shape v : GraphicAngleSound_shape v (sample_GraphicAngleSound v).
Proof. unfold GraphicAngleSound_shape; destruct v; shape_solve. Qed.
Lemma sample_Graphic_shape v : Graphic_shape v (sample_Graphic v).
Proof. pose proof (sample_GraphicDelta_shape v). pose proof (sample_GraphicAngleSound_shape v). unfold Graphic_shape; destruct v; shape_solve. Qed.
Lemma sample_FrameData_shape v : FrameData_shape v (sample_FrameData v).
Proof. unfold FrameData_shape; destruct v; shape_solve. Qed.
Lemma sample_Terrain_shape v : Terrain_shape v (sample_Terrain v).
Proof. pose proof (sample_FrameData_shape v). unfold Terrain_shape; destruct v; shape_solve. Qed.
Lemma sample_TileSize_shape v : TileSize_shape v (sample_TileSize v).
Proof. unfold TileSize_shape; destruct v; shape_solve. Qed.
Lemma sample_TerrainBlock_shape v : TerrainBlock_shape v (sample_TerrainBlock v).
Proof. pose proof (sample_Terrain_shape v). pose proof (sample_TileSize_shape v). unfold TerrainBlock_shape; destruct v; shape_solve. Qed.
Lemma sample_MapUnit_shape v : MapUnit_shape v (sample_MapUnit v).
Proof. unfold MapUnit_shape; destruct v; shape_solve. Qed.
Lemma sample_MapTerrain_shape v : MapTerrain_shape v (sample_MapTerrain v).
Proof. unfold MapTerrain_shape; destruct v; shape_solve. Qed.
Lemma sample_MapLand_shape v : MapLand_shape v (sample_MapLand v).
Proof. unfold MapLand_shape; destruct v; shape_solve. Qed.
Lemma sample_MapElevation_shape v : MapElevation_shape v (sample_MapElevation v).
Proof. unfold MapElevation_shape; destruct v; shape_solve. Qed.
Lemma sample_MapInfo_shape v : MapInfo_shape v (sample_MapInfo v).
Proof. pose proof (sample_MapUnit_shape v). pose proof (sample_MapTerrain_shape v). pose proof (sample_MapLand_shape v). pose proof (sample_MapElevation_shape v). unfold MapInfo_shape; destruct v; shape_solve. Qed.
Lemma sample_RandomMaps_shape v : RandomMaps_shape v (sample_RandomMaps v).
Proof. pose proof (sample_MapInfo_shape v). unfold RandomMaps_shape; destruct v; shape_solve. Qed.
Lemma sample_Task_shape v : Task_shape v (sample_Task v).
Proof. unfold Task_shape; destruct v; shape_solve. Qed.
Lemma sample_UnitHeaders_shape v : UnitHeaders_shape v (sample_UnitHeaders v).
Proof. pose proof (sample_Task_shape v). unfold UnitHeaders_shape; destruct v; shape_solve. Qed.
Lemma sample_ResourceStorage_shape v : ResourceStorage_shape v (sample_ResourceStorage v).
Proof. unfold ResourceStorage_shape; destruct v; shape_solve. Qed.
Lemma sample_DamageGraphic_shape v : DamageGraphic_shape v (sample_DamageGraphic v).
Proof. unfold DamageGraphic_shape; destruct v; shape_solve. Qed.
Lemma sample_DeadFish_shape v : DeadFish_shape v (sample_DeadFish v).
Proof. unfold DeadFish_shape; destruct v; shape_solve. Qed.
Lemma sample_Bird_shape v : Bird_shape v (sample_Bird v).
Proof. pose proof (sample_Task_shape v). unfold Bird_shape; destruct v; shape_solve. Qed.
Lemma sample_AttackOrArmor_shape v : AttackOrArmor_shape v (sample_AttackOrArmor v).
Proof. unfold AttackOrArmor_shape; destruct v; shape_solve. Qed.
Lemma sample_Type50_shape v : Type50_shape v (sample_Type50 v).
Proof. pose proof (sample_AttackOrArmor_shape v). unfold Type50_shape; destruct v; shape_solve. Qed.
Lemma sample_Projectile_shape v : Projectile_shape v (sample_Projectile v).
Proof. unfold Projectile_shape; destruct v; shape_solve. Qed.
Lemma sample_ResourceCost_shape v : ResourceCost_shape v (sample_ResourceCost v).
Proof. unfold ResourceCost_shape; destruct v; shape_solve. Qed.
Lemma sample_TrainLocation_shape v : TrainLocation_shape v (sample_TrainLocation v).
Proof. unfold TrainLocation_shape; destruct v; shape_solve. Qed.
Lemma sample_Creatable_shape v : Creatable_shape v (sample_Creatable v).
Proof. pose proof (sample_ResourceCost_shape v). pose proof (sample_TrainLocation_shape v). unfold Creatable_shape, Creatable_core_shape; destruct v; shape_solve. Qed.
Lemma sample_BuildingAnnex_shape v : BuildingAnnex_shape v (sample_BuildingAnnex v).
Proof. unfold BuildingAnnex_shape; destruct v; shape_solve. Qed.
Lemma sample_Building_shape v : Building_shape v (sample_Building v).
Proof. pose proof (sample_BuildingAnnex_shape v). unfold Building_shape; destruct v; shape_solve. Qed.
Lemma sample_Unit_shape v t : Unit_shape v (sample_Unit v t).
Proof.
  unfold Unit_shape. pose proof (sample_Bird_shape v). pose proof (sample_Type50_shape v). pose proof (sample_Building_shape v).
  pose proof (proj1 (sample_Creatable_shape v)) as Hc.
  assert (Hu : Creatable_core_shape v (sample_unit_creatable v)) by (destruct v; exact Hc).
  unfold sample_Unit; cbn [Unit_standing_graphic Unit_resource_storages Unit_bird Unit_type_50 Unit_creatable Unit_building Unit_type].
  split; [reflexivity|]. split; [repeat split|]. split; [reflexivity|]. split; [|split; [|split; [|split; [|split]]]].
  - unfold Unit_sections_shape. cbn [Unit_type Unit_speed Unit_dead_fish Unit_bird Unit_type_50 Unit_projectile Unit_creatable Unit_building].
    repeat match goal with |- context[if ?b then Some _ else None] => destruct b end; repeat split.
  - unfold Unit_hot_key_shape, train_hot_key. cbn [Unit_hot_key Unit_creatable].
    destruct (has_creatable t), v; cbn; intros; try reflexivity; congruence.
  - destruct (has_bird t); [assumption|exact I].
  - destruct (has_type_50 t); [assumption|exact I].
  - destruct (has_creatable t); [assumption|exact I].
  - destruct (has_building t); [assumption|exact I].
Qed.
Lemma sample_Civ_shape v : Civ_shape v (sample_Civ v).
Proof. unfold Civ_shape. cbn [sample_Civ Civ_units]. repeat (apply Forall_cons; [cbn [on_some]; try exact I; apply sample_Unit_shape|]). apply Forall_nil. Qed.
Lemma sample_ResearchResourceCost_shape v : ResearchResourceCost_shape v (sample_ResearchResourceCost v).
Proof. unfold ResearchResourceCost_shape; destruct v; shape_solve. Qed.
Lemma sample_ResearchLocation_shape v : ResearchLocation_shape v (sample_ResearchLocation v).
Proof. unfold ResearchLocation_shape; destruct v; shape_solve. Qed.
Lemma sample_Tech_shape v : Tech_shape v (sample_Tech v).
Proof. pose proof (sample_ResearchResourceCost_shape v). pose proof (sample_ResearchLocation_shape v). unfold Tech_shape; destruct v; shape_solve. Qed.
Lemma sample_Common_shape v : Common_shape v (sample_Common v).
Proof. unfold Common_shape; destruct v; shape_solve. Qed.
Lemma sample_TechTreeAge_shape v : TechTreeAge_shape v (sample_TechTreeAge v).
Proof. pose proof (sample_Common_shape v). unfold TechTreeAge_shape; destruct v; shape_solve. Qed.
Lemma sample_BuildingConnection_shape v : BuildingConnection_shape v (sample_BuildingConnection v).
Proof. pose proof (sample_Common_shape v). unfold BuildingConnection_shape; destruct v; shape_solve. Qed.
Lemma sample_UnitConnection_shape v : UnitConnection_shape v (sample_UnitConnection v).
Proof. pose proof (sample_Common_shape v). unfold UnitConnection_shape; destruct v; shape_solve. Qed.
Lemma sample_ResearchConnection_shape v : ResearchConnection_shape v (sample_ResearchConnection v).
Proof. pose proof (sample_Common_shape v). unfold ResearchConnection_shape; destruct v; shape_solve. Qed.
Lemma sample_TechTree_shape v : TechTree_shape v (sample_TechTree v).
Proof. pose proof (sample_TechTreeAge_shape v). pose proof (sample_BuildingConnection_shape v). pose proof (sample_UnitConnection_shape v). pose proof (sample_ResearchConnection_shape v). unfold TechTree_shape; destruct v; shape_solve. Qed.

Definition sample (v : Version) : DatFile := sample_DatFile v.
Lemma sample_shape v : v <> UNDEFINED -> DatFile_shape (sample v).
Proof.
  intros N. unfold DatFile_shape.
  replace (file_version (DatFile_version (sample v))) with (Some v) by (destruct v; vm_compute; congruence).
  unfold DatFile_body_shape. cbn [sample sample_DatFile DatFile_terrain_restrictions DatFile_graphics DatFile_terrain_block
    DatFile_random_maps DatFile_unit_headers DatFile_civs DatFile_techs DatFile_tech_tree].
  split; [repeat constructor|]. split; [repeat (apply Forall_cons; [cbn [on_some]; try exact I; apply sample_Graphic_shape|]); apply Forall_nil|].
  split; [apply sample_TerrainBlock_shape|]. split; [apply sample_RandomMaps_shape|].
  split; [constructor; [apply sample_UnitHeaders_shape|constructor; [reflexivity|constructor]]|].
  split; [repeat (apply Forall_cons; [apply sample_Civ_shape|]); apply Forall_nil|].
  split; [repeat (apply Forall_cons; [apply sample_Tech_shape|]); apply Forall_nil|]. apply sample_TechTree_shape.
Qed.
(** Cell by cell; the repeated records are looked at once. *)
Lemma sample_Terrain_ok v : cells_ok (Terrain_layout v (sample_Terrain v)).
Proof. destruct v; vm_compute; reflexivity. Qed.
Lemma sample_TerrainBlock_ok v : cells_ok (TerrainBlock_layout v (sample_TerrainBlock v)).
Proof.
  unfold TerrainBlock_layout. cbn [sample_TerrainBlock TerrainBlock_tile_sizes TerrainBlock_terrains].
  apply cells_ok_app. split; [vm_compute; reflexivity|].
  apply cells_ok_app. split; [apply cells_ok_flat_map, Forall_repeat; destruct v; vm_compute; reflexivity|].
  apply cells_ok_app. split; [vm_compute; reflexivity|].
  apply cells_ok_app. split; [apply cells_ok_flat_map, Forall_repeat, sample_Terrain_ok|]. vm_compute. reflexivity.
Qed.
Lemma sample_Civ_ok v : cells_ok (Civ_layout v (sample_Civ v)).
Proof. destruct v; vm_compute; reflexivity. Qed.
Lemma sample_cells v : v <> UNDEFINED -> cells_ok (DatFile_layout (sample v)).
Proof.
  intros N. unfold DatFile_layout.
  replace (file_version (DatFile_version (sample v))) with (Some v) by (destruct v; vm_compute; congruence).
  apply cells_ok_guard. split; [reflexivity|]. apply cells_ok_app. split; [destruct v; [congruence|..]; vm_compute; reflexivity|].
  unfold DatFile_body. cbn [sample sample_DatFile DatFile_float_ptr_terrain_tables DatFile_terrain_pass_graphic_pointers
    DatFile_terrain_restrictions DatFile_player_colours DatFile_sounds DatFile_effects DatFile_graphics DatFile_terrain_block
    DatFile_random_maps DatFile_unit_headers DatFile_civs DatFile_techs DatFile_tech_tree].
  repeat match goal with
  | |- cells_ok (TerrainBlock_layout _ _) => apply sample_TerrainBlock_ok
  | |- cells_ok (flat_map (Civ_layout _) _) => apply cells_ok_flat_map; repeat (apply Forall_cons; [apply sample_Civ_ok|]); apply Forall_nil
  | |- cells_ok (_ ++ _) => apply cells_ok_app; split
  end.
  all: destruct v; vm_compute; reflexivity.
Qed.
Lemma sample_wf v : v <> UNDEFINED -> DatFile_wf (sample v).
Proof. intros N. split; [apply sample_cells, N|apply sample_shape, N]. Qed.
Lemma sample_version v : v <> UNDEFINED -> file_version (DatFile_version (sample v)) = Some v.
Proof. intros N. change (DatFile_version (sample v)) with (version_value v). destruct v; [congruence|..]; vm_compute; reflexivity. Qed.
