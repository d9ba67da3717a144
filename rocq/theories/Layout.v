(** * Specification: the file-format tables.

    One table per record class: the cells in the order in which they are on disk.
    Differences between file versions are conditions [since n v] inside the table.  The
    tables were drafted from the writers and are maintained by hand; nothing here refers
    to the model of a reader or a writer, only to the record types. *)
From Verif Require Import Base PyFloat PyStr Versions Wire.
From Verif Require Import M_Sound M_PlayerColour M_Effect M_TerrainRestriction M_Graphic
  M_TerrainBlock M_RandomMaps M_Task M_UnitHeaders M_Unit M_Civ M_Tech M_TechTree M_DatFile.
Open Scope Z_scope.
Local Open Scope list_scope.

(** Not representable unless the condition holds. *)
Definition guard (c : bool) (l : list cell) : list cell := if c then l else [Refuse].
(** Not representable unless the list [a] has exactly [n] elements. *)
Definition exactly {A} (n : nat) (a : list A) (l : list cell) : list cell :=
  guard (Nat.eqb (length a) n) l.

Definition SoundItem_layout (v : Version) (x : SoundItem) : list cell :=
  [Text (SoundItem_filename x); I32 (SoundItem_resource_id x); I16 (SoundItem_probability x);
      I16 (SoundItem_civilization x); I16 (SoundItem_icon_set x)].

Definition Sound_layout (v : Version) (x : Sound) : list cell :=
  [I16 (Sound_id x); I16 (Sound_play_delay x); I16 (count (Sound_items x)); I32 (Sound_cache_time x);
      I16 (Sound_total_probability x)]
  ++ flat_map (SoundItem_layout v) (Sound_items x).

Definition PlayerColour_layout (v : Version) (x : PlayerColour) : list cell :=
  [I32 (PlayerColour_id x); I32 (PlayerColour_player_color_base x);
      I32 (PlayerColour_unit_outline_color x); I32 (PlayerColour_unit_selection_color_1 x);
      I32 (PlayerColour_unit_selection_color_2 x); I32 (PlayerColour_minimap_color x);
      I32 (PlayerColour_minimap_color_2 x); I32 (PlayerColour_minimap_color_3 x);
      I32 (PlayerColour_statistics_text x)].

Definition EffectCommand_layout (v : Version) (x : EffectCommand) : list cell :=
  [U8 (EffectCommand_type x); I16 (EffectCommand_a x); I16 (EffectCommand_b x);
      I16 (EffectCommand_c x); F32 (EffectCommand_d x)].

Definition Effect_layout (v : Version) (x : Effect) : list cell :=
  [Text (Effect_name x); I16 (count (Effect_effect_commands x))]
  ++ flat_map (EffectCommand_layout v) (Effect_effect_commands x).

Definition TerrainPassGraphic_layout (v : Version) (x : TerrainPassGraphic) : list cell :=
  [I32 (TerrainPassGraphic_exit_tile_sprite_id x); I32 (TerrainPassGraphic_enter_tile_sprite_id x);
      I32 (TerrainPassGraphic_walk_tile_sprite_id x); I32 (TerrainPassGraphic_walk_sprite_rate x)].

(** As many graphics as multipliers. *)
Definition TerrainRestriction_layout (v : Version) (x : TerrainRestriction) : list cell :=
  guard (count (TerrainRestriction_passable_buildable_dmg_multiplier x)
         =? count (TerrainRestriction_terrain_pass_graphics x))
    (map F32 (TerrainRestriction_passable_buildable_dmg_multiplier x)
     ++ flat_map (TerrainPassGraphic_layout v) (TerrainRestriction_terrain_pass_graphics x)).

Definition GraphicDelta_layout (v : Version) (x : GraphicDelta) : list cell :=
  [I16 (GraphicDelta_graphic_id x); I16 (GraphicDelta_padding_1 x); I32 (GraphicDelta_sprite_ptr x);
      I16 (GraphicDelta_offset_x x); I16 (GraphicDelta_offset_y x);
      I16 (GraphicDelta_display_angle x); I16 (GraphicDelta_padding_2 x)].

Definition GraphicAngleSound_layout (v : Version) (x : GraphicAngleSound) : list cell :=
  [I16 (GraphicAngleSound_frame_num x); I16 (GraphicAngleSound_sound_id x);
      I32 (GraphicAngleSound_wwise_sound_id x); I16 (GraphicAngleSound_frame_num_2 x);
      I16 (GraphicAngleSound_sound_id_2 x); I32 (GraphicAngleSound_wwise_sound_id_2 x);
      I16 (GraphicAngleSound_frame_num_3 x); I16 (GraphicAngleSound_sound_id_3 x);
      I32 (GraphicAngleSound_wwise_sound_id_3 x)].

Definition Graphic_layout (v : Version) (x : Graphic) : list cell :=
  [Text (Graphic_name x); Text (Graphic_file_name x); Text (Graphic_particle_effect_name x);
      I32 (Graphic_slp x); U8 (Graphic_is_loaded x); U8 (Graphic_old_color_flag x);
      U8 (Graphic_layer x); I16 (Graphic_player_color x); U8 (Graphic_transparent_selection x)]
  ++ map I16 (Graphic_coordinates x)
  ++ [I16 (count (Graphic_deltas x)); I16 (Graphic_sound_id x); I32 (Graphic_wwise_sound_id x);
      U8 (Graphic_angle_sounds_used x); I16 (Graphic_frame_count x); I16 (Graphic_angle_count x);
      F32 (Graphic_speed_multiplier x); F32 (Graphic_frame_duration x); F32 (Graphic_replay_delay x);
      U8 (Graphic_sequence_type x); I16 (Graphic_id x); U8 (Graphic_mirroring_mode x);
      U8 (Graphic_editor_flag x)]
  ++ flat_map (GraphicDelta_layout v) (Graphic_deltas x)
  ++ flat_map (GraphicAngleSound_layout v) (Graphic_angle_sounds x).

Definition FrameData_layout (v : Version) (x : FrameData) : list cell :=
  [I16 (FrameData_frame_count x); I16 (FrameData_angle_count x); I16 (FrameData_shape_id x)].

Definition Terrain_layout (v : Version) (x : Terrain) : list cell :=
  [U8 (Terrain_enabled x); U8 (Terrain_random x); U8 (Terrain_is_water x);
      U8 (Terrain_hide_in_editor x); I32 (Terrain_string_id x); Text (Terrain_name x);
      Text (Terrain_name_2 x); I32 (Terrain_slp x); I32 (Terrain_shape_ptr x);
      I32 (Terrain_sound_id x); U32 (Terrain_wwise_sound_id x); U32 (Terrain_wwise_sound_stop_id x);
      I32 (Terrain_blend_priority x); I32 (Terrain_blend_type x);
      Text (Terrain_overlay_mask_name x)]
  ++ map U8 (Terrain_colors x)
  ++ map U8 (Terrain_cliff_colors x)
  ++ [U8 (Terrain_passable_terrain x); U8 (Terrain_impassable_terrain x); U8 (Terrain_is_animated x);
      I16 (Terrain_animation_frames x); I16 (Terrain_pause_frames x); F32 (Terrain_interval x);
      F32 (Terrain_pause_between_loops x); I16 (Terrain_frame x); I16 (Terrain_draw_frame x);
      F32 (Terrain_animate_last x); U8 (Terrain_frame_changed x); U8 (Terrain_drawn x)]
  ++ flat_map (FrameData_layout v) (Terrain_frame_data x)
  ++ [I16 (Terrain_terrain_to_draw x)]
  ++ map I16 (Terrain_terrain_dimensions x)
  ++ map I16 (Terrain_terrain_unit_masked_density x)
  ++ map I16 (Terrain_terrain_unit_id x)
  ++ map I16 (Terrain_terrain_unit_density x)
  ++ map U8 (Terrain_terrain_unit_centering x)
  ++ [I16 (Terrain_number_of_terrain_units_used x); I16 (Terrain_phantom x)].

Definition TileSize_layout (v : Version) (x : TileSize) : list cell :=
  [I16 (TileSize_width x); I16 (TileSize_height x); I16 (TileSize_delta_y x)].

Definition TerrainBlock_layout (v : Version) (x : TerrainBlock) : list cell :=
  [U32 (TerrainBlock_virtual_function_ptr x); U32 (TerrainBlock_map_pointer x);
      I32 (TerrainBlock_map_width x); I32 (TerrainBlock_map_height x);
      I32 (TerrainBlock_world_width x); I32 (TerrainBlock_world_height x)]
  ++ flat_map (TileSize_layout v) (TerrainBlock_tile_sizes x)
  ++ [I16 (TerrainBlock_padding_ts x)]
  ++ flat_map (Terrain_layout v) (TerrainBlock_terrains x)
  ++ [F32 (TerrainBlock_map_min_x x); F32 (TerrainBlock_map_min_y x); F32 (TerrainBlock_map_max_x x);
      F32 (TerrainBlock_map_max_y x); F32 (TerrainBlock_map_max_x_plus_1 x);
      F32 (TerrainBlock_map_max_y_plus_1 x); I16 (TerrainBlock_terrains_used_2 x);
      I16 (TerrainBlock_borders_used x); I16 (TerrainBlock_max_terrain x);
      I16 (TerrainBlock_tile_width x); I16 (TerrainBlock_tile_height x);
      I16 (TerrainBlock_tile_half_height x); I16 (TerrainBlock_tile_half_width x);
      I16 (TerrainBlock_elev_height x); I16 (TerrainBlock_cur_row x); I16 (TerrainBlock_cur_col x);
      I16 (TerrainBlock_block_beg_row x); I16 (TerrainBlock_block_end_row x);
      I16 (TerrainBlock_block_beg_col x); I16 (TerrainBlock_block_end_col x);
      U32 (TerrainBlock_search_map_ptr x); U32 (TerrainBlock_search_map_rows_ptr x);
      U8 (TerrainBlock_any_frame_change x); U8 (TerrainBlock_map_visible_flag x);
      U8 (TerrainBlock_fog_flag x)].

Definition MapUnit_layout (v : Version) (x : MapUnit) : list cell :=
  [I32 (MapUnit_unit x); I32 (MapUnit_host_terrain x); U8 (MapUnit_group_placing x);
      U8 (MapUnit_scale_flag x); I16 (MapUnit_padding_1 x); I32 (MapUnit_objects_per_group x);
      I32 (MapUnit_fluctuation x); I32 (MapUnit_groups_per_player x); I32 (MapUnit_group_arena x);
      I32 (MapUnit_player_id x); I32 (MapUnit_set_place_for_all_players x);
      I32 (MapUnit_min_distance_to_players x); I32 (MapUnit_max_distance_to_players x)].

Definition MapTerrain_layout (v : Version) (x : MapTerrain) : list cell :=
  [I32 (MapTerrain_proportion x); I32 (MapTerrain_terrain x); I32 (MapTerrain_clump_count x);
      I32 (MapTerrain_edge_spacing x); I32 (MapTerrain_placement_terrain x);
      I32 (MapTerrain_clumpiness x)].

Definition MapLand_layout (v : Version) (x : MapLand) : list cell :=
  [I32 (MapLand_land_id x); U32 (MapLand_terrain x); I32 (MapLand_land_spacing x);
      I32 (MapLand_base_size x); U8 (MapLand_zone x); U8 (MapLand_placement_type x);
      I16 (MapLand_padding_1 x); I32 (MapLand_base_x x); I32 (MapLand_base_y x);
      U8 (MapLand_land_proportion x); U8 (MapLand_by_player_flag x); I16 (MapLand_padding_2 x);
      I32 (MapLand_start_area_radius x); I32 (MapLand_terrain_edge_fade x);
      I32 (MapLand_clumpiness x)].

Definition MapElevation_layout (v : Version) (x : MapElevation) : list cell :=
  [I32 (MapElevation_proportion x); I32 (MapElevation_terrain x); I32 (MapElevation_clump_count x);
      I32 (MapElevation_base_terrain x); I32 (MapElevation_base_elevation x);
      I32 (MapElevation_tile_spacing x)].

Definition MapInfo_layout (v : Version) (x : MapInfo) : list cell :=
  [I32 (MapInfo_map_id x); I32 (MapInfo_border_south_west x); I32 (MapInfo_border_north_west x);
      I32 (MapInfo_border_north_east x); I32 (MapInfo_border_south_east x);
      I32 (MapInfo_border_usage x); I32 (MapInfo_water_shape x); I32 (MapInfo_base_terrain x);
      I32 (MapInfo_land_coverage x); I32 (MapInfo_unused_id x); U32 (MapInfo_map_lands_size x);
      I32 (MapInfo_map_lands_ptr x)]
  ++ flat_map (MapLand_layout v) (MapInfo_map_lands x)
  ++ [U32 (MapInfo_map_terrains_size x); I32 (MapInfo_map_terrains_ptr x)]
  ++ flat_map (MapTerrain_layout v) (MapInfo_map_terrains x)
  ++ [U32 (MapInfo_map_units_size x); I32 (MapInfo_map_units_ptr x)]
  ++ flat_map (MapUnit_layout v) (MapInfo_map_units x)
  ++ [U32 (MapInfo_map_elevations_size x); I32 (MapInfo_map_elevations_ptr x)]
  ++ flat_map (MapElevation_layout v) (MapInfo_map_elevations x).

(** The two tables have the same length. *)
Definition RandomMaps_layout (v : Version) (x : RandomMaps) : list cell :=
  guard (count (RandomMaps_map_info_1 x) =? count (RandomMaps_map_info_2 x))
    ([U32 (count (RandomMaps_map_info_1 x)); I32 (RandomMaps_random_maps_ptr x)]
     ++ flat_map (MapInfo_layout v) (RandomMaps_map_info_1 x)
     ++ flat_map (MapInfo_layout v) (RandomMaps_map_info_2 x)).

Definition Task_layout (v : Version) (x : Task) : list cell :=
  [I16 (Task_task_type x); I16 (Task_id x); I8 (Task_is_default x); I16 (Task_action_type x);
      I16 (Task_class_id x); I16 (Task_unit_id x); I16 (Task_terrain_id x); I16 (Task_resource_in x);
      I16 (Task_resource_multiplier x); I16 (Task_resource_out x); I16 (Task_unused_resource x);
      F32s (Task_work_value_1 x); F32s (Task_work_value_2 x); F32s (Task_work_range x);
      I8 (Task_auto_search_targets x); F32s (Task_search_wait_time x); I8 (Task_enable_targeting x);
      I8 (Task_combat_level_flag x); I16 (Task_gather_type x); I16 (Task_work_flag_2 x);
      I8 (Task_target_diplomacy x); I8 (Task_carry_check x); I8 (Task_pick_for_construction x);
      I16 (Task_moving_graphic_id x); I16 (Task_proceeding_graphic_id x);
      I16 (Task_working_graphic_id x); I16 (Task_carrying_graphic_id x);
      I16 (Task_resource_gathering_sound_id x); I16 (Task_resource_deposit_sound_id x);
      I32 (Task_wwise_resource_gathering_sound_id x); I32 (Task_wwise_resource_deposit_sound_id x)]
  ++ (if since 88 v then [I16 (Task_enabled x)] else []).

(** The task list is stored if the unit exists. *)
Definition UnitHeaders_layout (v : Version) (x : UnitHeaders) : list cell :=
  [U8 (UnitHeaders_exists_ x)]
  ++ (if UnitHeaders_exists_ x =? 0 then []
      else match UnitHeaders_task_list x with
           | Some tasks => [I16 (count tasks)] ++ flat_map (Task_layout v) tasks
           | None => []
           end).

Definition ResourceStorage_layout (v : Version) (x : ResourceStorage) : list cell :=
  [I16 (ResourceStorage_type x); F32s (ResourceStorage_amount x); I8 (ResourceStorage_flag x)].

Definition DamageGraphic_layout (v : Version) (x : DamageGraphic) : list cell :=
  [I16 (DamageGraphic_graphic_id x); I16 (DamageGraphic_damage_percent x);
      I8 (DamageGraphic_apply_mode x)].

Definition DeadFish_layout (v : Version) (x : DeadFish) : list cell :=
  [I16 (DeadFish_walking_graphic x); I16 (DeadFish_running_graphic x);
      F32s (DeadFish_rotation_speed x); I8 (DeadFish_old_size_class x);
      I16 (DeadFish_tracking_unit x); I8 (DeadFish_tracking_unit_mode x);
      F32s (DeadFish_tracking_unit_density x); I8 (DeadFish_old_move_algorithm x);
      F32s (DeadFish_turn_radius x); F32s (DeadFish_turn_radius_speed x);
      F32s (DeadFish_max_yaw_per_second_moving x); F32s (DeadFish_stationary_yaw_revolution_time x);
      F32s (DeadFish_max_yaw_per_second_stationary x);
      F32s (DeadFish_min_collision_size_multiplier x)].

Definition Bird_layout (v : Version) (x : Bird) : list cell :=
  [I16 (Bird_default_task_id x); F32 (Bird_search_radius x); F32 (Bird_work_rate x)]
  ++ (if since 78 v then [I16 (count (Bird_drop_sites x))] else [])
  ++ map I16 (Bird_drop_sites x)
  ++ [U8 (Bird_task_swap_group x); I16 (Bird_attack_sound x); I16 (Bird_move_sound x);
      I32 (Bird_wwise_attack_sound_id x); I32 (Bird_wwise_move_sound_id x); U8 (Bird_run_pattern x);
      I16 (count (Bird_tasks x))]
  ++ flat_map (Task_layout v) (Bird_tasks x).

Definition AttackOrArmor_layout (v : Version) (x : AttackOrArmor) : list cell :=
  [I16 (AttackOrArmor_class_ x); I16 (AttackOrArmor_amount x)].

Definition Type50_layout (v : Version) (x : Type50) : list cell :=
  [I16 (Type50_base_armor x); I16 (count (Type50_attacks x))]
  ++ flat_map (AttackOrArmor_layout v) (Type50_attacks x)
  ++ [I16 (count (Type50_armours x))]
  ++ flat_map (AttackOrArmor_layout v) (Type50_armours x)
  ++ [I16 (Type50_defense_terrain_bonus x); F32 (Type50_bonus_damage_resistance x);
      F32 (Type50_max_range x); F32 (Type50_blast_width x); F32 (Type50_reload_time x);
      I16 (Type50_projectile_unit_id x); I16 (Type50_accuracy_percent x);
      U8 (Type50_break_off_combat x); I16 (Type50_frame_delay x)]
  ++ map F32 (Type50_graphic_displacement x)
  ++ [U8 (Type50_blast_attack_level x); F32 (Type50_min_range x); F32 (Type50_accuracy_dispersion x);
      I16 (Type50_attack_graphic x); I16 (Type50_displayed_melee_armour x);
      I16 (Type50_displayed_attack x); F32 (Type50_displayed_range x);
      F32 (Type50_displayed_reload_time x); F32 (Type50_blast_damage x)]
  ++ (if since 84 v
      then [F32 (Type50_damage_reflection x); F32 (Type50_friendly_fire_damage x);
            I16 (Type50_interrupt_frame x); F32 (Type50_garrison_firepower x);
            I16 (Type50_attack_graphic_2 x)]
      else []).

Definition Projectile_layout (v : Version) (x : Projectile) : list cell :=
  [I8 (Projectile_projectile_type x); I8 (Projectile_smart_mode x); I8 (Projectile_hit_mode x);
      I8 (Projectile_vanish_mode x); I8 (Projectile_area_effect_specials x);
      F32s (Projectile_projectile_arc x)].

Definition ResourceCost_layout (v : Version) (x : ResourceCost) : list cell :=
  [I16 (ResourceCost_type x); I16 (ResourceCost_amount x); I16 (ResourceCost_flag x)].

Definition TrainLocation_layout (v : Version) (x : TrainLocation) : list cell :=
  [I16 (TrainLocation_train_time x); I16 (TrainLocation_unit_id x); I8 (TrainLocation_button_id x)]
  ++ (if since 88 v then [I32 (TrainLocation_hot_key_id x)] else []).

(** Before 8.8 only the first train location is stored. *)
Definition Creatable_layout (v : Version) (x : Creatable) : list cell :=
  flat_map (ResourceCost_layout v) (Creatable_resource_costs x)
  ++ (if since 88 v
      then [I16 (count (Creatable_train_locations x))]
           ++ flat_map (TrainLocation_layout v) (Creatable_train_locations x)
      else match Creatable_train_locations x with
           | first :: _ => TrainLocation_layout v first
           | [] => [Refuse]
           end)
  ++ [F32s (Creatable_rear_attack_modifier x);
      F32s (Creatable_flank_attack_modifier x); I8 (Creatable_creatable_type x);
      I8 (Creatable_hero_mode x); I32 (Creatable_garrison_graphic x);
      I16 (Creatable_spawning_graphic x); I16 (Creatable_upgrade_graphic x);
      I16 (Creatable_hero_glow_graphic x)]
  ++ (if since 84 v then [I16 (Creatable_idle_attack_graphic x)] else [])
  ++ [F32s (Creatable_max_charge x); F32s (Creatable_recharge_rate x);
      I16 (Creatable_charge_event x); I16 (Creatable_charge_type x)]
  ++ (if since 84 v
      then [I16 (Creatable_charge_target x); I32 (Creatable_charge_projectile_unit x);
            I8 (Creatable_attack_priority x); F32s (Creatable_invulnerability_level x);
            I16 (Creatable_button_icon_id x); I32 (Creatable_button_short_tooltip_id x);
            I32 (Creatable_button_extended_tooltip_id x); I16 (Creatable_button_hotkey_action x)]
      else [])
  ++ [F32s (Creatable_min_conversion_time_mod x);
      F32s (Creatable_max_conversion_time_mod x); F32s (Creatable_conversion_chance_mod x);
      F32s (Creatable_total_projectiles x); I8 (Creatable_max_total_projectiles x)]
  ++ exactly 3 (Creatable_projectile_spawning_area x) (map F32s (Creatable_projectile_spawning_area x))
  ++ [I32 (Creatable_secondary_projectile_unit x); I32 (Creatable_special_graphic x);
      I8 (Creatable_special_ability x); I16 (Creatable_displayed_pierce_armour x)].

Definition BuildingAnnex_layout (v : Version) (x : BuildingAnnex) : list cell :=
  [I16 (BuildingAnnex_unit_id x); F32s (BuildingAnnex_misplacement_x x);
      F32s (BuildingAnnex_misplacement_y x)].

Definition Building_layout (v : Version) (x : Building) : list cell :=
  [I16 (Building_construction_graphic_id x); I16 (Building_snow_graphic_id x);
      I16 (Building_destruction_graphic_id x); I16 (Building_destruction_rubble_graphic_id x);
      I16 (Building_researching_graphic x); I16 (Building_research_completed_graphic x);
      I8 (Building_adjacent_mode x); I16 (Building_graphics_angle x);
      I8 (Building_disappears_when_built x); I16 (Building_stack_unit_id x);
      I16 (Building_foundation_terrain_id x); I16 (Building_old_overlap_id x);
      I16 (Building_tech_id x); I8 (Building_can_burn x)]
  ++ flat_map (BuildingAnnex_layout v) (Building_annexes x)
  ++ [I16 (Building_head_unit x); I16 (Building_transform_unit x); I16 (Building_transform_sound x);
      I16 (Building_construction_sound x); I32 (Building_wwise_transform_sound_id x);
      I32 (Building_wwise_construction_sound_id x); I8 (Building_garrison_type x);
      F32s (Building_garrison_heal_rate x); F32s (Building_garrison_repair_rate x);
      I16 (Building_pile_unit x)]
  ++ exactly 6 (Building_looting_table x) (map I8 (Building_looting_table x)).

(** The parts that depend on the unit type. *)
Definition stored {A} (c : bool) (f : A -> list cell) (o : option A) : list cell :=
  if c then opt_cells f o else [].
Definition has_speed (t : Z) : bool := negb (t =? 90) && (20 <=? t).
Definition has_dead_fish (t : Z) : bool := negb (t =? 90) && (30 <=? t).
Definition has_bird (t : Z) : bool := negb (t =? 90) && (40 <=? t).
Definition has_type_50 (t : Z) : bool := negb (t =? 90) && (50 <=? t).
Definition has_projectile (t : Z) : bool := t =? 60.
Definition has_creatable (t : Z) : bool := negb (t =? 90) && (70 <=? t).
Definition has_building (t : Z) : bool := t =? 80.
Definition Unit_sections_layout (v : Version) (x : Unit) : list cell :=
  stored (has_speed (Unit_type x)) (fun s => [F32 s]) (Unit_speed x)
  ++ stored (has_dead_fish (Unit_type x)) (DeadFish_layout v) (Unit_dead_fish x)
  ++ stored (has_bird (Unit_type x)) (Bird_layout v) (Unit_bird x)
  ++ stored (has_type_50 (Unit_type x)) (Type50_layout v) (Unit_type_50 x)
  ++ stored (has_projectile (Unit_type x)) (Projectile_layout v) (Unit_projectile x)
  ++ stored (has_creatable (Unit_type x)) (Creatable_layout v) (Unit_creatable x)
  ++ stored (has_building (Unit_type x)) (Building_layout v) (Unit_building x).

Definition Unit_layout (v : Version) (x : Unit) : list cell :=
  [I8 (Unit_type x); I16 (Unit_id x); I32 (Unit_language_dll_name x);
      I32 (Unit_language_dll_creation x); I16 (Unit_class_ x)]
  ++ exactly 2 (Unit_standing_graphic x) (map I16 (Unit_standing_graphic x))
  ++ [I16 (Unit_dying_graphic x); I16 (Unit_undead_graphic x); I8 (Unit_undead_mode x);
      I16 (Unit_hit_points x); F32s (Unit_line_of_sight x); I8 (Unit_garrison_capacity x);
      F32s (Unit_collision_size_x x); F32s (Unit_collision_size_y x); F32s (Unit_collision_size_z x);
      I16 (Unit_train_sound x); I16 (Unit_damage_sound x); I16 (Unit_dead_unit_id x);
      I16 (Unit_blood_unit_id x); I8 (Unit_sort_number x); I8 (Unit_can_be_built_on x);
      I16 (Unit_icon_id x); I8 (Unit_hide_in_editor x); I16 (Unit_old_portrait_pict x);
      I8 (Unit_enabled x); I8 (Unit_disabled x)]
  ++ exactly 2 (Unit_placement_side_terrain x) (map I16 (Unit_placement_side_terrain x))
  ++ exactly 2 (Unit_placement_terrain x) (map I16 (Unit_placement_terrain x))
  ++ exactly 2 (Unit_clearance_size x) (map F32s (Unit_clearance_size x))
  ++ [I8 (Unit_hill_mode x); I8 (Unit_fog_visibility x); I16 (Unit_terrain_restriction x);
      I8 (Unit_fly_mode x); I16 (Unit_resource_capacity x); F32s (Unit_resource_decay x);
      I8 (Unit_blast_defense_level x); I8 (Unit_combat_level x); I8 (Unit_interaction_mode x);
      I8 (Unit_minimap_mode x); I8 (Unit_interface_kind x); F32s (Unit_multiple_attribute_mode x);
      I8 (Unit_minimap_color x); I32 (Unit_language_dll_help x);
      I32 (Unit_language_dll_hotkey_text x)]
  ++ (if since 88 v then [] else [I32 (Unit_hot_key x)])
  ++ [I8 (Unit_recyclable x);
      I8 (Unit_enable_auto_gather x); I8 (Unit_create_doppelganger_on_death x);
      I8 (Unit_resource_gather_group x); I8 (Unit_occlusion_mode x); I8 (Unit_obstruction_type x);
      I8 (Unit_obstruction_class x); I8 (Unit_trait x); I8 (Unit_civilization x);
      I16 (Unit_nothing x); I8 (Unit_selection_effect x); I8 (Unit_editor_selection_colour x);
      F32s (Unit_outline_size_x x); F32s (Unit_outline_size_y x); F32s (Unit_outline_size_z x);
      I32 (Unit_scenario_triggers_1 x); I32 (Unit_scenario_triggers_2 x)]
  ++ flat_map (ResourceStorage_layout v) (Unit_resource_storages x)
  ++ [U8 (count (Unit_damage_graphics x))]
  ++ flat_map (DamageGraphic_layout v) (Unit_damage_graphics x)
  ++ [I16 (Unit_selection_sound x); I16 (Unit_dying_sound x); I32 (Unit_wwise_train_sound_id x);
      I32 (Unit_wwise_damage_sound_id x); I32 (Unit_wwise_selection_sound_id x);
      I32 (Unit_wwise_dying_sound_id x); U8 (Unit_old_attack_reaction x);
      U8 (Unit_convert_terrain x); Text (Unit_name x); I16 (Unit_copy_id x); I16 (Unit_base_id x)]
  ++ Unit_sections_layout v x.

Definition Civ_layout (v : Version) (x : Civ) : list cell :=
  [U8 (Civ_player_type x); Text (Civ_name x); I16 (count (Civ_resources x));
      I16 (Civ_tech_tree_id x); I16 (Civ_team_bonus_id x)]
  ++ map F32 (Civ_resources x)
  ++ [U8 (Civ_icon_set x); I16 (count (Civ_units x))]
  ++ flags (Civ_units x)
  ++ slots (Unit_layout v) (Civ_units x).

Definition ResearchResourceCost_layout (v : Version) (x : ResearchResourceCost) : list cell :=
  [I16 (ResearchResourceCost_type x); I16 (ResearchResourceCost_amount x);
      U8 (ResearchResourceCost_flag x)].

Definition ResearchLocation_layout (v : Version) (x : ResearchLocation) : list cell :=
  [I16 (ResearchLocation_location_id x); I16 (ResearchLocation_research_time x);
      U8 (ResearchLocation_button_id x); I32 (ResearchLocation_hot_key_id x)].

(** What is stored before 8.8 for a tech without research location. *)
Definition no_research_location : ResearchLocation :=
  {| ResearchLocation_location_id := -1; ResearchLocation_research_time := 0;
     ResearchLocation_button_id := 0; ResearchLocation_hot_key_id := -1 |}.
(** Before 8.8 only the first research location is stored, spread over the record. *)
Definition Tech_layout (v : Version) (x : Tech) : list cell :=
  if since 88 v then
    map I16 (Tech_required_techs x)
    ++ flat_map (ResearchResourceCost_layout v) (Tech_resource_costs x)
    ++ [I16 (Tech_required_tech_count x); I16 (Tech_civ x); I16 (Tech_full_tech_mode x);
        I32 (Tech_language_dll_name x); I32 (Tech_language_dll_description x); I16 (Tech_effect_id x);
        I16 (Tech_type x); I16 (Tech_icon_id x); I32 (Tech_language_dll_help x);
        I32 (Tech_language_dll_tech_tree x); Text (Tech_name x); U8 (Tech_repeatable x);
        I16 (count (Tech_research_locations x))]
    ++ flat_map (ResearchLocation_layout v) (Tech_research_locations x)
  else
    let l := hd no_research_location (Tech_research_locations x) in
    map I16 (Tech_required_techs x)
    ++ flat_map (ResearchResourceCost_layout v) (Tech_resource_costs x)
    ++ [I16 (Tech_required_tech_count x); I16 (Tech_civ x); I16 (Tech_full_tech_mode x);
        I16 (ResearchLocation_location_id l); I32 (Tech_language_dll_name x);
        I32 (Tech_language_dll_description x); I16 (ResearchLocation_research_time l);
        I16 (Tech_effect_id x); I16 (Tech_type x); I16 (Tech_icon_id x);
        U8 (ResearchLocation_button_id l); I32 (Tech_language_dll_help x);
        I32 (Tech_language_dll_tech_tree x); I32 (ResearchLocation_hot_key_id l);
        Text (Tech_name x); U8 (Tech_repeatable x)].

Definition Common_layout (v : Version) (x : Common) : list cell :=
  [I32 (Common_slots_used x)]
  ++ map I32 (Common_unit_research x)
  ++ map I32 (Common_mode x).

Definition TechTreeAge_layout (v : Version) (x : TechTreeAge) : list cell :=
  [I32 (TechTreeAge_id x); U8 (TechTreeAge_status x); U8 (count (TechTreeAge_buildings x))]
  ++ map I32 (TechTreeAge_buildings x)
  ++ [U8 (count (TechTreeAge_units x))]
  ++ map I32 (TechTreeAge_units x)
  ++ [U8 (count (TechTreeAge_techs x))]
  ++ map I32 (TechTreeAge_techs x)
  ++ Common_layout v (TechTreeAge_common x)
  ++ [U8 (TechTreeAge_num_building_levels x)]
  ++ map U8 (TechTreeAge_buildings_per_zone x)
  ++ map U8 (TechTreeAge_group_length_per_zone x)
  ++ [U8 (TechTreeAge_max_age_length x); I32 (TechTreeAge_line_mode x)].

Definition BuildingConnection_layout (v : Version) (x : BuildingConnection) : list cell :=
  [I32 (BuildingConnection_id x); U8 (BuildingConnection_status x);
      U8 (count (BuildingConnection_buildings x))]
  ++ map I32 (BuildingConnection_buildings x)
  ++ [U8 (count (BuildingConnection_units x))]
  ++ map I32 (BuildingConnection_units x)
  ++ [U8 (count (BuildingConnection_techs x))]
  ++ map I32 (BuildingConnection_techs x)
  ++ Common_layout v (BuildingConnection_common x)
  ++ [U8 (BuildingConnection_location_in_age x)]
  ++ map U8 (BuildingConnection_units_techs_total x)
  ++ map U8 (BuildingConnection_units_techs_first x)
  ++ [I32 (BuildingConnection_line_mode x); I32 (BuildingConnection_enabling_research x)].

Definition UnitConnection_layout (v : Version) (x : UnitConnection) : list cell :=
  [I32 (UnitConnection_id x); U8 (UnitConnection_status x); I32 (UnitConnection_upper_building x)]
  ++ Common_layout v (UnitConnection_common x)
  ++ [I32 (UnitConnection_vertical_line x); U8 (count (UnitConnection_units x))]
  ++ map I32 (UnitConnection_units x)
  ++ [I32 (UnitConnection_location_in_age x); I32 (UnitConnection_required_research x);
      I32 (UnitConnection_line_mode x); I32 (UnitConnection_enabling_research x)].

Definition ResearchConnection_layout (v : Version) (x : ResearchConnection) : list cell :=
  [I32 (ResearchConnection_id x); U8 (ResearchConnection_status x);
      I32 (ResearchConnection_upper_building x); U8 (count (ResearchConnection_buildings x))]
  ++ map I32 (ResearchConnection_buildings x)
  ++ [U8 (count (ResearchConnection_units x))]
  ++ map I32 (ResearchConnection_units x)
  ++ [U8 (count (ResearchConnection_techs x))]
  ++ map I32 (ResearchConnection_techs x)
  ++ Common_layout v (ResearchConnection_common x)
  ++ [I32 (ResearchConnection_vertical_line x); I32 (ResearchConnection_location_in_age x);
      I32 (ResearchConnection_line_mode x)].

Definition TechTree_layout (v : Version) (x : TechTree) : list cell :=
  [U8 (count (TechTree_tech_tree_ages x)); U8 (count (TechTree_building_connections x));
      U8 (count (TechTree_unit_connections x)); U8 (count (TechTree_research_connections x));
      I32 (TechTree_total_unit_tech_groups x)]
  ++ flat_map (TechTreeAge_layout v) (TechTree_tech_tree_ages x)
  ++ flat_map (BuildingConnection_layout v) (TechTree_building_connections x)
  ++ flat_map (UnitConnection_layout v) (TechTree_unit_connections x)
  ++ flat_map (ResearchConnection_layout v) (TechTree_research_connections x).

(** The version named by the header string. *)
Definition file_version (s : pystr) : option Version :=
  find (fun v => if list_eq_dec Z.eq_dec (version_value v) s then true else false) all_versions.
(** The number of terrains: that of the first restriction, 0 if there is none. *)
Definition terrains_used (x : DatFile) : Z :=
  match DatFile_terrain_restrictions x with
  | r :: _ => count (TerrainRestriction_passable_buildable_dmg_multiplier r)
  | [] => 0
  end.
Definition DatFile_body (v : Version) (x : DatFile) : list cell :=
  [I16 (count (DatFile_terrain_restrictions x)); I16 (terrains_used x)]
  ++ map I32 (DatFile_float_ptr_terrain_tables x)
  ++ map I32 (DatFile_terrain_pass_graphic_pointers x)
  ++ flat_map (TerrainRestriction_layout v) (DatFile_terrain_restrictions x)
  ++ [I16 (count (DatFile_player_colours x))]
  ++ flat_map (PlayerColour_layout v) (DatFile_player_colours x)
  ++ [I16 (count (DatFile_sounds x))]
  ++ flat_map (Sound_layout v) (DatFile_sounds x)
  ++ [I16 (count (DatFile_graphics x))]
  ++ flags (DatFile_graphics x)
  ++ slots (Graphic_layout v) (DatFile_graphics x)
  ++ TerrainBlock_layout v (DatFile_terrain_block x)
  ++ RandomMaps_layout v (DatFile_random_maps x)
  ++ [I32 (count (DatFile_effects x))]
  ++ flat_map (Effect_layout v) (DatFile_effects x)
  ++ [I32 (count (DatFile_unit_headers x))]
  ++ flat_map (UnitHeaders_layout v) (DatFile_unit_headers x)
  ++ [I16 (count (DatFile_civs x))]
  ++ flat_map (Civ_layout v) (DatFile_civs x)
  ++ [I16 (count (DatFile_techs x))]
  ++ flat_map (Tech_layout v) (DatFile_techs x)
  ++ [I32 (DatFile_time_slice x); I32 (DatFile_unit_kill_rate x); I32 (DatFile_unit_kill_total x);
      I32 (DatFile_unit_hit_point_rate x); I32 (DatFile_unit_hit_point_total x);
      I32 (DatFile_razing_kill_rate x); I32 (DatFile_razing_kill_total x)]
  ++ TechTree_layout v (DatFile_tech_tree x).
Definition DatFile_layout (x : DatFile) : list cell :=
  match file_version (DatFile_version x) with
  | Some v =>
      guard ((count (DatFile_float_ptr_terrain_tables x) =? count (DatFile_terrain_restrictions x))
             && (count (DatFile_terrain_pass_graphic_pointers x) =? count (DatFile_terrain_restrictions x)))
        ([Padded 8 (DatFile_version x)] ++ DatFile_body v x)
  | None => [Refuse]
  end.

