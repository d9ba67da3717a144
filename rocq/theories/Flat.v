(** * Specification: the tables for data whose tuples may have the wrong length.

    unit.py flattens five tuples of a unit (standing_graphic, placement_side_terrain,
    placement_terrain, clearance_size and the rest of the head) into one struct.pack call.
    The table of Layout.v lists them field by field and applies when the tuples have two
    elements each.  Here the head of a unit is the flattened list of values against the
    list of item types, whatever the tuple lengths are; everything else is as in Layout.v. *)
From Verif Require Import Base PyFloat PyStr PyStruct Versions Wire Layout.
From Verif Require Import M_Sound M_PlayerColour M_Effect M_TerrainRestriction M_Graphic
  M_TerrainBlock M_RandomMaps M_Task M_UnitHeaders M_Unit M_Civ M_Tech M_TechTree M_DatFile.
Open Scope Z_scope.
Local Open Scope list_scope.

(** A value against an item type; an integer for a float item is converted. *)
Definition item_cell (k : fc) (a : pyval) : cell :=
  match k, a with
  | Fb, VInt z => I8 z
  | Fh, VInt z => I16 z
  | Fl, VInt z => I32 z
  | Ff, VFloat x => F32s x
  | Ff, VInt z => match f64_of_Z z with Some x => F32s x | None => Refuse end
  | _, VFloat _ => Refuse
  end.
(** As many values as items, else not representable. *)
Fixpoint item_cells (ks : list fc) (l : list pyval) : list cell :=
  match ks, l with
  | [], [] => []
  | k :: ks', a :: l' => item_cell k a :: item_cells ks' l'
  | _, _ => [Refuse]
  end.

Definition Unit_items (v : Version) : list fc :=
  [Fb; Fh; Fl; Fl; Fh; Fh; Fh; Fh; Fh; Fb; Fh; Ff; Fb; Ff; Ff; Ff; Fh; Fh; Fh; Fh; Fb; Fb; Fh; Fb; Fh; Fb; Fb; Fh; Fh; Fh; Fh; Ff; Ff; Fb; Fb; Fh; Fb; Fh; Ff; Fb; Fb; Fb; Fb; Fb; Ff; Fb; Fl; Fl]
  ++ (if since 88 v then [] else [Fl])
  ++ [Fb; Fb; Fb; Fb; Fb; Fb; Fb; Fb; Fb; Fh; Fb; Fb; Ff; Ff; Ff; Fl; Fl].
Definition Unit_values (v : Version) (x : Unit) : list pyval :=
  [VInt (Unit_type x); VInt (Unit_id x); VInt (Unit_language_dll_name x);
      VInt (Unit_language_dll_creation x); VInt (Unit_class_ x)]
  ++ map VInt (Unit_standing_graphic x)
  ++ [VInt (Unit_dying_graphic x); VInt (Unit_undead_graphic x); VInt (Unit_undead_mode x);
      VInt (Unit_hit_points x); VFloat (Unit_line_of_sight x); VInt (Unit_garrison_capacity x);
      VFloat (Unit_collision_size_x x); VFloat (Unit_collision_size_y x);
      VFloat (Unit_collision_size_z x); VInt (Unit_train_sound x); VInt (Unit_damage_sound x);
      VInt (Unit_dead_unit_id x); VInt (Unit_blood_unit_id x); VInt (Unit_sort_number x);
      VInt (Unit_can_be_built_on x); VInt (Unit_icon_id x); VInt (Unit_hide_in_editor x);
      VInt (Unit_old_portrait_pict x); VInt (Unit_enabled x); VInt (Unit_disabled x)]
  ++ map VInt (Unit_placement_side_terrain x)
  ++ map VInt (Unit_placement_terrain x)
  ++ map VFloat (Unit_clearance_size x)
  ++ [VInt (Unit_hill_mode x); VInt (Unit_fog_visibility x); VInt (Unit_terrain_restriction x);
      VInt (Unit_fly_mode x); VInt (Unit_resource_capacity x); VFloat (Unit_resource_decay x);
      VInt (Unit_blast_defense_level x); VInt (Unit_combat_level x);
      VInt (Unit_interaction_mode x); VInt (Unit_minimap_mode x); VInt (Unit_interface_kind x);
      VFloat (Unit_multiple_attribute_mode x); VInt (Unit_minimap_color x);
      VInt (Unit_language_dll_help x); VInt (Unit_language_dll_hotkey_text x)]
  ++ (if since 88 v then [] else [VInt (Unit_hot_key x)])
  ++ [VInt (Unit_recyclable x); VInt (Unit_enable_auto_gather x);
      VInt (Unit_create_doppelganger_on_death x); VInt (Unit_resource_gather_group x);
      VInt (Unit_occlusion_mode x); VInt (Unit_obstruction_type x);
      VInt (Unit_obstruction_class x); VInt (Unit_trait x); VInt (Unit_civilization x);
      VInt (Unit_nothing x); VInt (Unit_selection_effect x); VInt (Unit_editor_selection_colour x);
      VFloat (Unit_outline_size_x x); VFloat (Unit_outline_size_y x);
      VFloat (Unit_outline_size_z x); VInt (Unit_scenario_triggers_1 x);
      VInt (Unit_scenario_triggers_2 x)].
Definition Unit_flat_layout (v : Version) (x : Unit) : list cell :=
  item_cells (Unit_items v) (Unit_values v x)
  ++ flat_map (ResourceStorage_layout v) (Unit_resource_storages x)
  ++ [U8 (count (Unit_damage_graphics x))]
  ++ flat_map (DamageGraphic_layout v) (Unit_damage_graphics x)
  ++ [I16 (Unit_selection_sound x); I16 (Unit_dying_sound x); I32 (Unit_wwise_train_sound_id x);
      I32 (Unit_wwise_damage_sound_id x); I32 (Unit_wwise_selection_sound_id x);
      I32 (Unit_wwise_dying_sound_id x); U8 (Unit_old_attack_reaction x);
      U8 (Unit_convert_terrain x); Text (Unit_name x); I16 (Unit_copy_id x); I16 (Unit_base_id x)]
  ++ Unit_sections_layout v x.

Definition Civ_flat_layout (v : Version) (x : Civ) : list cell :=
  [U8 (Civ_player_type x); Text (Civ_name x); I16 (count (Civ_resources x));
      I16 (Civ_tech_tree_id x); I16 (Civ_team_bonus_id x)]
  ++ map F32 (Civ_resources x)
  ++ [U8 (Civ_icon_set x); I16 (count (Civ_units x))]
  ++ flags (Civ_units x)
  ++ slots (Unit_flat_layout v) (Civ_units x).


Definition DatFile_flat_body (v : Version) (x : DatFile) : list cell :=
  [I16 (count (DatFile_terrain_restrictions x)); I16 (terrains_used x)]
  ++ map I32 (DatFile_float_ptr_terrain_tables x)
  ++ map I32 (DatFile_terrain_pass_graphic_pointers x)
  ++ flat_map (TerrainRestriction_layout v) (DatFile_terrain_restrictions x)
  ++ [I16 (count (DatFile_player_colours x))]
  ++ flat_map (PlayerColour_layout v) (DatFile_player_colours x)
  ++ [I16 (count (DatFile_sounds x))]
  ++ flat_map (Sound_layout v) (DatFile_sounds x)
  ++ [I16 (count (DatFile_graphics x))]
  ++ flags (DatFile_graphics x)
  ++ slots (Graphic_layout v) (DatFile_graphics x)
  ++ TerrainBlock_layout v (DatFile_terrain_block x)
  ++ RandomMaps_layout v (DatFile_random_maps x)
  ++ [I32 (count (DatFile_effects x))]
  ++ flat_map (Effect_layout v) (DatFile_effects x)
  ++ [I32 (count (DatFile_unit_headers x))]
  ++ flat_map (UnitHeaders_layout v) (DatFile_unit_headers x)
  ++ [I16 (count (DatFile_civs x))]
  ++ flat_map (Civ_flat_layout v) (DatFile_civs x)
  ++ [I16 (count (DatFile_techs x))]
  ++ flat_map (Tech_layout v) (DatFile_techs x)
  ++ [I32 (DatFile_time_slice x); I32 (DatFile_unit_kill_rate x); I32 (DatFile_unit_kill_total x);
      I32 (DatFile_unit_hit_point_rate x); I32 (DatFile_unit_hit_point_total x);
      I32 (DatFile_razing_kill_rate x); I32 (DatFile_razing_kill_total x)]
  ++ TechTree_layout v (DatFile_tech_tree x).
Definition DatFile_flat_layout (x : DatFile) : list cell :=
  match file_version (DatFile_version x) with
  | Some v =>
      guard ((count (DatFile_float_ptr_terrain_tables x) =? count (DatFile_terrain_restrictions x))
             && (count (DatFile_terrain_pass_graphic_pointers x) =? count (DatFile_terrain_restrictions x)))
        ([Padded 8 (DatFile_version x)] ++ DatFile_flat_body v x)
  | None => [Refuse]
  end.

