(** * Specification: how many bytes a record takes.

    Closed formulas in the file version, the lengths of the lists, the UTF-8 sizes of the
    strings and which parts are present; no other field matters. *)
From Verif Require Import Base PyFloat PyStr Versions Wire Layout.
From Verif Require Import M_Sound M_PlayerColour M_Effect M_TerrainRestriction M_Graphic
  M_TerrainBlock M_RandomMaps M_Task M_UnitHeaders M_Unit M_Civ M_Tech M_TechTree M_DatFile.
Open Scope nat_scope.
Local Open Scope list_scope.

(** UTF-8 size of a string, length of a list, total size of a list of records. *)
Definition chars (s : pystr) : nat := length (utf8 s).
Definition total {A} (size : A -> nat) (l : list A) : nat := fold_right (fun x n => size x + n) 0 l.
Definition if_some {A} (size : A -> nat) (o : option A) : nat :=
  match o with Some x => size x | None => 0 end.
Definition from (n : Z) (v : Version) (k : nat) : nat := if since n v then k else 0.

Definition SoundItem_size (v : Version) (x : SoundItem) : nat := 14 + chars (SoundItem_filename x).
Definition Sound_size (v : Version) (x : Sound) : nat := 12 + total (SoundItem_size v) (Sound_items x).
Definition PlayerColour_size (v : Version) (x : PlayerColour) : nat := 36.
Definition EffectCommand_size (v : Version) (x : EffectCommand) : nat := 11.
Definition Effect_size (v : Version) (x : Effect) : nat :=
  6 + chars (Effect_name x) + 11 * length (Effect_effect_commands x).
Definition TerrainPassGraphic_size (v : Version) (x : TerrainPassGraphic) : nat := 16.
Definition TerrainRestriction_size (v : Version) (x : TerrainRestriction) : nat :=
  20 * length (TerrainRestriction_passable_buildable_dmg_multiplier x).
Definition GraphicDelta_size (v : Version) (x : GraphicDelta) : nat := 16.
Definition GraphicAngleSound_size (v : Version) (x : GraphicAngleSound) : nat := 24.
Definition Graphic_size (v : Version) (x : Graphic) : nat :=
  52 + chars (Graphic_name x) + chars (Graphic_file_name x) + chars (Graphic_particle_effect_name x)
  + 2 * length (Graphic_coordinates x) + 16 * length (Graphic_deltas x) + 24 * length (Graphic_angle_sounds x).
Definition FrameData_size (v : Version) (x : FrameData) : nat := 6.
Definition Terrain_size (v : Version) (x : Terrain) : nat :=
  79 + chars (Terrain_name x) + chars (Terrain_name_2 x) + chars (Terrain_overlay_mask_name x)
  + length (Terrain_colors x) + length (Terrain_cliff_colors x) + 6 * length (Terrain_frame_data x)
  + 2 * (length (Terrain_terrain_dimensions x) + length (Terrain_terrain_unit_masked_density x)
         + length (Terrain_terrain_unit_id x) + length (Terrain_terrain_unit_density x))
  + length (Terrain_terrain_unit_centering x).
Definition TileSize_size (v : Version) (x : TileSize) : nat := 6.
Definition TerrainBlock_size (v : Version) (x : TerrainBlock) : nat :=
  89 + 6 * length (TerrainBlock_tile_sizes x) + total (Terrain_size v) (TerrainBlock_terrains x).
Definition MapUnit_size (v : Version) (x : MapUnit) : nat := 44.
Definition MapTerrain_size (v : Version) (x : MapTerrain) : nat := 24.
Definition MapLand_size (v : Version) (x : MapLand) : nat := 44.
Definition MapElevation_size (v : Version) (x : MapElevation) : nat := 24.
Definition MapInfo_size (v : Version) (x : MapInfo) : nat :=
  72 + 44 * length (MapInfo_map_lands x) + 24 * length (MapInfo_map_terrains x)
  + 44 * length (MapInfo_map_units x) + 24 * length (MapInfo_map_elevations x).
Definition RandomMaps_size (v : Version) (x : RandomMaps) : nat :=
  8 + total (MapInfo_size v) (RandomMaps_map_info_1 x) + total (MapInfo_size v) (RandomMaps_map_info_2 x).
Definition Task_size (v : Version) (x : Task) : nat := 67 + from 88 v 2.
(** The task list takes space only if the unit exists. *)
Definition UnitHeaders_size (v : Version) (x : UnitHeaders) : nat :=
  1 + (if (UnitHeaders_exists_ x =? 0)%Z then 0
       else if_some (fun tasks => 2 + total (Task_size v) tasks) (UnitHeaders_task_list x)).
Definition ResourceStorage_size (v : Version) (x : ResourceStorage) : nat := 7.
Definition DamageGraphic_size (v : Version) (x : DamageGraphic) : nat := 5.
Definition DeadFish_size (v : Version) (x : DeadFish) : nat := 41.
Definition Bird_size (v : Version) (x : Bird) : nat :=
  26 + from 78 v 2 + 2 * length (Bird_drop_sites x) + total (Task_size v) (Bird_tasks x).
Definition AttackOrArmor_size (v : Version) (x : AttackOrArmor) : nat := 4.
Definition Type50_size (v : Version) (x : Type50) : nat :=
  58 + from 84 v 16 + 4 * length (Type50_attacks x) + 4 * length (Type50_armours x)
  + 4 * length (Type50_graphic_displacement x).
Definition Projectile_size (v : Version) (x : Projectile) : nat := 9.
Definition ResourceCost_size (v : Version) (x : ResourceCost) : nat := 6.
Definition TrainLocation_size (v : Version) (x : TrainLocation) : nat := 5 + from 88 v 4.
(** Before 8.8 one train location of 5 bytes, from 8.8 on a count and 9 bytes each. *)
Definition Creatable_size (v : Version) (x : Creatable) : nat :=
  72 + from 84 v 25 + 6 * length (Creatable_resource_costs x)
  + (if since 88 v then 2 + 9 * length (Creatable_train_locations x) else 5).
Definition BuildingAnnex_size (v : Version) (x : BuildingAnnex) : nat := 10.
Definition Building_size (v : Version) (x : Building) : nat := 58 + 10 * length (Building_annexes x).
(** The sections that the unit type calls for. *)
Definition when (c : bool) (k : nat) : nat := if c then k else 0.
Definition Unit_size (v : Version) (x : Unit) : nat :=
  (if since 88 v then 167 else 171) + 7 * length (Unit_resource_storages x)
  + 5 * length (Unit_damage_graphics x) + chars (Unit_name x)
  + when (has_speed (Unit_type x)) (if_some (fun _ => 4) (Unit_speed x))
  + when (has_dead_fish (Unit_type x)) (if_some (DeadFish_size v) (Unit_dead_fish x))
  + when (has_bird (Unit_type x)) (if_some (Bird_size v) (Unit_bird x))
  + when (has_type_50 (Unit_type x)) (if_some (Type50_size v) (Unit_type_50 x))
  + when (has_projectile (Unit_type x)) (if_some (Projectile_size v) (Unit_projectile x))
  + when (has_creatable (Unit_type x)) (if_some (Creatable_size v) (Unit_creatable x))
  + when (has_building (Unit_type x)) (if_some (Building_size v) (Unit_building x)).
(** A pointer per slot, and the units in the slots that are not empty. *)
Definition Civ_size (v : Version) (x : Civ) : nat :=
  14 + chars (Civ_name x) + 4 * length (Civ_resources x) + 4 * length (Civ_units x)
  + total (if_some (Unit_size v)) (Civ_units x).
Definition ResearchResourceCost_size (v : Version) (x : ResearchResourceCost) : nat := 5.
Definition ResearchLocation_size (v : Version) (x : ResearchLocation) : nat := 9.
Definition Tech_size (v : Version) (x : Tech) : nat :=
  33 + chars (Tech_name x) + 2 * length (Tech_required_techs x) + 5 * length (Tech_resource_costs x)
  + (if since 88 v then 2 + 9 * length (Tech_research_locations x) else 9).
Definition Common_size (v : Version) (x : Common) : nat :=
  4 + 4 * length (Common_unit_research x) + 4 * length (Common_mode x).
Definition TechTreeAge_size (v : Version) (x : TechTreeAge) : nat :=
  14 + 4 * (length (TechTreeAge_buildings x) + length (TechTreeAge_units x) + length (TechTreeAge_techs x))
  + Common_size v (TechTreeAge_common x)
  + length (TechTreeAge_buildings_per_zone x) + length (TechTreeAge_group_length_per_zone x).
Definition BuildingConnection_size (v : Version) (x : BuildingConnection) : nat :=
  17 + 4 * (length (BuildingConnection_buildings x) + length (BuildingConnection_units x) + length (BuildingConnection_techs x))
  + Common_size v (BuildingConnection_common x)
  + length (BuildingConnection_units_techs_total x) + length (BuildingConnection_units_techs_first x).
Definition UnitConnection_size (v : Version) (x : UnitConnection) : nat :=
  30 + 4 * length (UnitConnection_units x) + Common_size v (UnitConnection_common x).
Definition ResearchConnection_size (v : Version) (x : ResearchConnection) : nat :=
  24 + 4 * (length (ResearchConnection_buildings x) + length (ResearchConnection_units x) + length (ResearchConnection_techs x))
  + Common_size v (ResearchConnection_common x).
Definition TechTree_size (v : Version) (x : TechTree) : nat :=
  8 + total (TechTreeAge_size v) (TechTree_tech_tree_ages x)
  + total (BuildingConnection_size v) (TechTree_building_connections x)
  + total (UnitConnection_size v) (TechTree_unit_connections x)
  + total (ResearchConnection_size v) (TechTree_research_connections x).
(** Two 4-byte table pointers per terrain restriction, one per graphics slot. *)
Definition DatFile_size (v : Version) (x : DatFile) : nat :=
  Nat.max 8 (chars (DatFile_version x)) + 50
  + 8 * length (DatFile_terrain_restrictions x)
  + total (TerrainRestriction_size v) (DatFile_terrain_restrictions x)
  + 36 * length (DatFile_player_colours x)
  + total (Sound_size v) (DatFile_sounds x)
  + 4 * length (DatFile_graphics x) + total (if_some (Graphic_size v)) (DatFile_graphics x)
  + TerrainBlock_size v (DatFile_terrain_block x)
  + RandomMaps_size v (DatFile_random_maps x)
  + total (Effect_size v) (DatFile_effects x)
  + total (UnitHeaders_size v) (DatFile_unit_headers x)
  + total (Civ_size v) (DatFile_civs x)
  + total (Tech_size v) (DatFile_techs x)
  + TechTree_size v (DatFile_tech_tree x).
