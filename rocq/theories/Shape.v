(** * Specification: structural conditions.

    What a record must satisfy, besides every cell of its table being representable, in
    order to be read back as it is: fixed tuple lengths, fields that a version does not
    store must have their default, counters that are kept as separate fields must agree
    with their lists.  A record is well formed ([_wf]) if its cells are representable
    ([cells_ok], Wire.v) and its shape is right. *)
From Verif Require Import Base PyFloat PyStr Versions Wire Layout.
From Verif Require Import M_Sound M_PlayerColour M_Effect M_TerrainRestriction M_Graphic
  M_TerrainBlock M_RandomMaps M_Task M_UnitHeaders M_Unit M_Civ M_Tech M_TechTree M_DatFile.
Open Scope Z_scope.
Local Open Scope list_scope.

(** The element type's condition on each element present. *)
Definition on_some {A} (P : A -> Prop) (o : option A) : Prop :=
  match o with Some x => P x | None => True end.

Definition SoundItem_shape (v : Version) (x : SoundItem) : Prop := True.
Definition Sound_shape (v : Version) (x : Sound) : Prop := True.
Definition PlayerColour_shape (v : Version) (x : PlayerColour) : Prop := True.
Definition EffectCommand_shape (v : Version) (x : EffectCommand) : Prop := True.
Definition Effect_shape (v : Version) (x : Effect) : Prop := True.
Definition TerrainPassGraphic_shape (v : Version) (x : TerrainPassGraphic) : Prop := True.
Definition TerrainRestriction_shape (v : Version) (x : TerrainRestriction) : Prop := True.
Definition GraphicDelta_shape (v : Version) (x : GraphicDelta) : Prop := True.
Definition GraphicAngleSound_shape (v : Version) (x : GraphicAngleSound) : Prop := True.

(** There are [angle_count] angle sounds if they are used, none otherwise. *)
Definition Graphic_shape (v : Version) (x : Graphic) : Prop :=
  count (Graphic_coordinates x) = 4 /\
  count (Graphic_angle_sounds x)
    = (if Graphic_angle_sounds_used x =? 0 then 0 else Z.max 0 (Graphic_angle_count x)).

Definition FrameData_shape (v : Version) (x : FrameData) : Prop := True.
Definition Terrain_shape (v : Version) (x : Terrain) : Prop :=
  count (Terrain_colors x) = 3 /\
  count (Terrain_cliff_colors x) = 2 /\
  count (Terrain_frame_data x) = 19 /\
  count (Terrain_terrain_dimensions x) = 2 /\
  count (Terrain_terrain_unit_masked_density x) = 30 /\
  count (Terrain_terrain_unit_id x) = 30 /\
  count (Terrain_terrain_unit_density x) = 30 /\
  count (Terrain_terrain_unit_centering x) = 30.
Definition TileSize_shape (v : Version) (x : TileSize) : Prop := True.
Definition TerrainBlock_shape (v : Version) (x : TerrainBlock) : Prop :=
  count (TerrainBlock_tile_sizes x) = 19 /\
  count (TerrainBlock_terrains x) = 200 /\
  Forall (Terrain_shape v) (TerrainBlock_terrains x).

Definition MapUnit_shape (v : Version) (x : MapUnit) : Prop := True.
Definition MapTerrain_shape (v : Version) (x : MapTerrain) : Prop := True.
Definition MapLand_shape (v : Version) (x : MapLand) : Prop := True.
Definition MapElevation_shape (v : Version) (x : MapElevation) : Prop := True.
(** The four size fields are the lengths of the four lists. *)
Definition MapInfo_shape (v : Version) (x : MapInfo) : Prop :=
  MapInfo_map_lands_size x = count (MapInfo_map_lands x) /\
  MapInfo_map_terrains_size x = count (MapInfo_map_terrains x) /\
  MapInfo_map_units_size x = count (MapInfo_map_units x) /\
  MapInfo_map_elevations_size x = count (MapInfo_map_elevations x).
Definition RandomMaps_shape (v : Version) (x : RandomMaps) : Prop :=
  Forall (MapInfo_shape v) (RandomMaps_map_info_1 x) /\
  Forall (MapInfo_shape v) (RandomMaps_map_info_2 x).

(** [enabled] is stored from 8.8 on. *)
Definition Task_shape (v : Version) (x : Task) : Prop :=
  since 88 v = false -> Task_enabled x = -1.
(** There is a task list iff the unit exists. *)
Definition UnitHeaders_shape (v : Version) (x : UnitHeaders) : Prop :=
  match UnitHeaders_task_list x with
  | Some tasks => UnitHeaders_exists_ x <> 0 /\ Forall (Task_shape v) tasks
  | None => UnitHeaders_exists_ x = 0
  end.

Definition ResourceStorage_shape (v : Version) (x : ResourceStorage) : Prop := True.
Definition DamageGraphic_shape (v : Version) (x : DamageGraphic) : Prop := True.
Definition DeadFish_shape (v : Version) (x : DeadFish) : Prop := True.
(** Three drop sites before 7.8, any number afterwards. *)
Definition Bird_shape (v : Version) (x : Bird) : Prop :=
  (since 78 v = false -> count (Bird_drop_sites x) = 3) /\
  Forall (Task_shape v) (Bird_tasks x).
Definition AttackOrArmor_shape (v : Version) (x : AttackOrArmor) : Prop := True.
(** The last five fields are stored from 8.4 on. *)
Definition Type50_shape (v : Version) (x : Type50) : Prop :=
  count (Type50_graphic_displacement x) = 3 /\
  (since 84 v = false ->
     Type50_damage_reflection x = f64_zero /\ Type50_friendly_fire_damage x = f64_one /\
     Type50_interrupt_frame x = -1 /\ Type50_garrison_firepower x = f64_zero /\
     Type50_attack_graphic_2 x = -1).
Definition Projectile_shape (v : Version) (x : Projectile) : Prop := True.
Definition ResourceCost_shape (v : Version) (x : ResourceCost) : Prop := True.
(** The hot key of a train location is stored from 8.8 on. *)
Definition TrainLocation_shape (v : Version) (x : TrainLocation) : Prop :=
  since 88 v = false -> TrainLocation_hot_key_id x = 16000.
(** Nine fields are stored from 8.4 on; before 8.8 there is exactly one train location. *)
Definition Creatable_core_shape (v : Version) (x : Creatable) : Prop :=
  count (Creatable_resource_costs x) = 3 /\
  count (Creatable_projectile_spawning_area x) = 3 /\
  (since 88 v = false -> count (Creatable_train_locations x) = 1) /\
  (since 84 v = false ->
     Creatable_idle_attack_graphic x = -1 /\ Creatable_charge_target x = 0 /\
     Creatable_charge_projectile_unit x = -1 /\ Creatable_attack_priority x = 0 /\
     Creatable_invulnerability_level x = f64_zero /\ Creatable_button_icon_id x = -1 /\
     Creatable_button_short_tooltip_id x = -1 /\ Creatable_button_extended_tooltip_id x = -1 /\
     Creatable_button_hotkey_action x = -1).
(** As a record of its own; inside a unit the hot key is that of the unit, see below. *)
Definition Creatable_shape (v : Version) (x : Creatable) : Prop :=
  Creatable_core_shape v x /\ Forall (TrainLocation_shape v) (Creatable_train_locations x).
Definition BuildingAnnex_shape (v : Version) (x : BuildingAnnex) : Prop := True.
Definition Building_shape (v : Version) (x : Building) : Prop :=
  count (Building_annexes x) = 4 /\ count (Building_looting_table x) = 6.

(** A section is present iff the unit type has it. *)
Definition present {A} (o : option A) : bool := match o with Some _ => true | None => false end.
Definition Unit_sections_shape (x : Unit) : Prop :=
  present (Unit_speed x) = has_speed (Unit_type x) /\
  present (Unit_dead_fish x) = has_dead_fish (Unit_type x) /\
  present (Unit_bird x) = has_bird (Unit_type x) /\
  present (Unit_type_50 x) = has_type_50 (Unit_type x) /\
  present (Unit_projectile x) = has_projectile (Unit_type x) /\
  present (Unit_creatable x) = has_creatable (Unit_type x) /\
  present (Unit_building x) = has_building (Unit_type x).
(** The hot key of the unit's first train location, 16000 if it has none. *)
Definition train_hot_key (x : Unit) : Z :=
  match Unit_creatable x with
  | Some c => match Creatable_train_locations c with
              | l :: _ => TrainLocation_hot_key_id l
              | [] => 16000
              end
  | None => 16000
  end.
(** From 8.8 on the unit's hot key is not stored, it is that of the first train location;
    before 8.8 it is stored and the (only) train location has the same one. *)
Definition Unit_hot_key_shape (v : Version) (x : Unit) : Prop :=
  if since 88 v then Unit_hot_key x = train_hot_key x
  else Unit_creatable x <> None -> Unit_hot_key x = train_hot_key x.
(** Tuples that are flattened into one struct.pack call. *)
Definition Unit_arity (x : Unit) : Prop :=
  count (Unit_placement_side_terrain x) = 2 /\
  count (Unit_placement_terrain x) = 2 /\
  count (Unit_clearance_size x) = 2.
Definition Unit_shape (v : Version) (x : Unit) : Prop :=
  count (Unit_standing_graphic x) = 2 /\
  Unit_arity x /\
  count (Unit_resource_storages x) = 3 /\
  Unit_sections_shape x /\
  Unit_hot_key_shape v x /\
  on_some (Bird_shape v) (Unit_bird x) /\
  on_some (Type50_shape v) (Unit_type_50 x) /\
  on_some (Creatable_core_shape v) (Unit_creatable x) /\
  on_some (Building_shape v) (Unit_building x).
Definition Civ_shape (v : Version) (x : Civ) : Prop :=
  Forall (on_some (Unit_shape v)) (Civ_units x).

Definition ResearchResourceCost_shape (v : Version) (x : ResearchResourceCost) : Prop := True.
Definition ResearchLocation_shape (v : Version) (x : ResearchLocation) : Prop := True.
(** Before 8.8 there is exactly one research location. *)
Definition Tech_shape (v : Version) (x : Tech) : Prop :=
  count (Tech_required_techs x) = 6 /\
  count (Tech_resource_costs x) = 3 /\
  (since 88 v = false -> count (Tech_research_locations x) = 1).

Definition Common_shape (v : Version) (x : Common) : Prop :=
  count (Common_unit_research x) = 10 /\ count (Common_mode x) = 10.
Definition TechTreeAge_shape (v : Version) (x : TechTreeAge) : Prop :=
  Common_shape v (TechTreeAge_common x) /\
  count (TechTreeAge_buildings_per_zone x) = 10 /\
  count (TechTreeAge_group_length_per_zone x) = 10.
Definition BuildingConnection_shape (v : Version) (x : BuildingConnection) : Prop :=
  Common_shape v (BuildingConnection_common x) /\
  count (BuildingConnection_units_techs_total x) = 5 /\
  count (BuildingConnection_units_techs_first x) = 5.
Definition UnitConnection_shape (v : Version) (x : UnitConnection) : Prop :=
  Common_shape v (UnitConnection_common x).
Definition ResearchConnection_shape (v : Version) (x : ResearchConnection) : Prop :=
  Common_shape v (ResearchConnection_common x).
Definition TechTree_shape (v : Version) (x : TechTree) : Prop :=
  Forall (TechTreeAge_shape v) (TechTree_tech_tree_ages x) /\
  Forall (BuildingConnection_shape v) (TechTree_building_connections x) /\
  Forall (UnitConnection_shape v) (TechTree_unit_connections x) /\
  Forall (ResearchConnection_shape v) (TechTree_research_connections x).

(** All terrain restrictions have the same number of terrains. *)
Definition DatFile_body_shape (v : Version) (x : DatFile) : Prop :=
  Forall (fun r => count (TerrainRestriction_passable_buildable_dmg_multiplier r) = terrains_used x)
         (DatFile_terrain_restrictions x) /\
  Forall (on_some (Graphic_shape v)) (DatFile_graphics x) /\
  TerrainBlock_shape v (DatFile_terrain_block x) /\
  RandomMaps_shape v (DatFile_random_maps x) /\
  Forall (UnitHeaders_shape v) (DatFile_unit_headers x) /\
  Forall (Civ_shape v) (DatFile_civs x) /\
  Forall (Tech_shape v) (DatFile_techs x) /\
  TechTree_shape v (DatFile_tech_tree x).
Definition DatFile_shape (x : DatFile) : Prop :=
  match file_version (DatFile_version x) with
  | Some v => DatFile_body_shape v x
  | None => False
  end.

(** Well-formed data file: the objects that can be loaded, and that survive saving. *)
Definition DatFile_wf (x : DatFile) : Prop := cells_ok (DatFile_layout x) /\ DatFile_shape x.
