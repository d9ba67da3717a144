(** * Specification: what can make an object impossible to save, besides values out of range. *)
From Verif Require Import Base PyFloat PyStr Versions Wire Layout Stored.
From Verif Require Import M_Sound M_PlayerColour M_Effect M_TerrainRestriction M_Graphic
  M_TerrainBlock M_RandomMaps M_Task M_UnitHeaders M_Unit M_Civ M_Tech M_TechTree M_DatFile.
Open Scope Z_scope.
Local Open Scope list_scope.

(** The strings an object holds. *)
Definition SoundItem_strings (x : SoundItem) : list pystr := [SoundItem_filename x].
Definition Sound_strings (x : Sound) : list pystr := flat_map SoundItem_strings (Sound_items x).
Definition Effect_strings (x : Effect) : list pystr := [Effect_name x].
Definition Graphic_strings (x : Graphic) : list pystr :=
  [Graphic_name x; Graphic_file_name x; Graphic_particle_effect_name x].
Definition Terrain_strings (x : Terrain) : list pystr := [Terrain_name x; Terrain_name_2 x; Terrain_overlay_mask_name x].
Definition TerrainBlock_strings (x : TerrainBlock) : list pystr := flat_map Terrain_strings (TerrainBlock_terrains x).
Definition Unit_strings (x : Unit) : list pystr := [Unit_name x].
Definition Civ_strings (x : Civ) : list pystr :=
  Civ_name x :: flat_map Unit_strings (flat_map opt_list (Civ_units x)).
Definition Tech_strings (x : Tech) : list pystr := [Tech_name x].
Definition DatFile_strings (x : DatFile) : list pystr :=
  DatFile_version x :: flat_map Sound_strings (DatFile_sounds x)
  ++ flat_map Graphic_strings (flat_map opt_list (DatFile_graphics x))
  ++ TerrainBlock_strings (DatFile_terrain_block x)
  ++ flat_map Effect_strings (DatFile_effects x)
  ++ flat_map Civ_strings (DatFile_civs x)
  ++ flat_map Tech_strings (DatFile_techs x).
(** A string that contains something that is not a Unicode scalar value (a lone surrogate). *)
Definition not_text (s : pystr) : Prop := exists c, In c s /\ ~ (0 <= c <= 0xD7FF \/ 0xE000 <= c <= 0x10FFFF).

(** The two lists of a terrain restriction are parallel. *)
Definition uneven_restriction (x : TerrainRestriction) : Prop :=
  length (TerrainRestriction_passable_buildable_dmg_multiplier x) <> length (TerrainRestriction_terrain_pass_graphics x).
Definition uneven_maps (x : RandomMaps) : Prop :=
  length (RandomMaps_map_info_1 x) <> length (RandomMaps_map_info_2 x).
Definition uneven_tables (x : DatFile) : Prop :=
  length (DatFile_float_ptr_terrain_tables x) <> length (DatFile_terrain_restrictions x) \/
  length (DatFile_terrain_pass_graphic_pointers x) <> length (DatFile_terrain_restrictions x).
(** Before 8.8 the only train location of a unit is stored among its other fields. *)
Definition trains_nowhere (v : Version) (x : Creatable) : Prop :=
  since 88 v = false /\ Creatable_train_locations x = [].
Definition unit_trains_nowhere (v : Version) (x : Unit) : Prop :=
  has_creatable (Unit_type x) = true /\ exists c, Unit_creatable x = Some c /\ trains_nowhere v c.
