(** * Model of /repo/src/genieutils/datfile.py

    Transcribed statement by statement (tools/gen_model.py); readers and writers come
    from the Python [from_bytes*] and [to_bytes*] respectively. *)
From Verif Require Import Base PyInt PyFloat PyStr PyStruct DataTypes Versions Common.
From Verif Require Import M_Sound M_PlayerColour M_Effect M_TerrainRestriction M_Graphic M_TerrainBlock M_RandomMaps M_Task M_UnitHeaders M_Unit M_Civ M_Tech M_TechTree.
From Coq Require Import String.
Open Scope Z_scope.
Local Open Scope list_scope.


(** datfile.py:22-43 class DatFile *)
Record DatFile : Set := mkDatFile {
  DatFile_version : pystr;
  DatFile_float_ptr_terrain_tables : list Z;
  DatFile_terrain_pass_graphic_pointers : list Z;
  DatFile_terrain_restrictions : list TerrainRestriction;
  DatFile_player_colours : list PlayerColour;
  DatFile_sounds : list Sound;
  DatFile_graphics : list (option Graphic);
  DatFile_terrain_block : TerrainBlock;
  DatFile_random_maps : RandomMaps;
  DatFile_effects : list Effect;
  DatFile_unit_headers : list UnitHeaders;
  DatFile_civs : list Civ;
  DatFile_techs : list Tech;
  DatFile_time_slice : Z;
  DatFile_unit_kill_rate : Z;
  DatFile_unit_kill_total : Z;
  DatFile_unit_hit_point_rate : Z;
  DatFile_unit_hit_point_total : Z;
  DatFile_razing_kill_rate : Z;
  DatFile_razing_kill_total : Z;
  DatFile_tech_tree : TechTree }.

(** datfile.py:58-114 DatFile.from_bytes *)
Definition DatFile_from_bytes : rd DatFile :=
  version <- read_string 8 ;;
  parsed <- lift (version_lookup version) ;;
  _ <- set_version parsed ;;
  terrain_restrictions_size <- read_int_16 true ;;
  terrains_used_1 <- read_int_16 true ;;
  float_ptr_terrain_tables <- read_int_32_array terrain_restrictions_size ;;
  terrain_pass_graphic_pointers <- read_int_32_array terrain_restrictions_size ;;
  terrain_restrictions <- read_class_array_with_param TerrainRestriction_from_bytes_with_count terrain_restrictions_size terrains_used_1 ;;
  _ <- note ((terrain_restrictions_size <=? 0) && negb (terrains_used_1 =? 0)) TerrainCount ;; (* ghost *)
  player_colours_size <- read_int_16 true ;;
  player_colours <- read_class_array PlayerColour_from_bytes player_colours_size ;;
  sounds_size <- read_int_16 true ;;
  sounds <- read_class_array Sound_from_bytes sounds_size ;;
  graphics_size <- read_int_16 true ;;
  graphic_pointers <- read_int_32_array graphics_size ;;
  graphics <- read_class_array_with_pointers Graphic_from_bytes graphics_size graphic_pointers ;;
  terrain_block <- read_class TerrainBlock_from_bytes ;;
  random_maps <- read_class RandomMaps_from_bytes ;;
  effects_size <- read_int_32 true ;;
  effects <- read_class_array Effect_from_bytes effects_size ;;
  unit_headers_size <- read_int_32 true ;;
  unit_headers <- read_class_array UnitHeaders_from_bytes unit_headers_size ;;
  civs_size <- read_int_16 true ;;
  civs <- read_class_array Civ_from_bytes civs_size ;;
  techs_size <- read_int_16 true ;;
  techs <- read_class_array Tech_from_bytes techs_size ;;
  time_slice <- read_int_32 true ;;
  unit_kill_rate <- read_int_32 true ;;
  unit_kill_total <- read_int_32 true ;;
  unit_hit_point_rate <- read_int_32 true ;;
  unit_hit_point_total <- read_int_32 true ;;
  razing_kill_rate <- read_int_32 true ;;
  razing_kill_total <- read_int_32 true ;;
  tech_tree <- read_class TechTree_from_bytes ;;
  ret {| DatFile_version := version;
     DatFile_float_ptr_terrain_tables := float_ptr_terrain_tables;
     DatFile_terrain_pass_graphic_pointers := terrain_pass_graphic_pointers;
     DatFile_terrain_restrictions := terrain_restrictions;
     DatFile_player_colours := player_colours;
     DatFile_sounds := sounds;
     DatFile_graphics := graphics;
     DatFile_terrain_block := terrain_block;
     DatFile_random_maps := random_maps;
     DatFile_effects := effects;
     DatFile_unit_headers := unit_headers;
     DatFile_civs := civs;
     DatFile_techs := techs;
     DatFile_time_slice := time_slice;
     DatFile_unit_kill_rate := unit_kill_rate;
     DatFile_unit_kill_total := unit_kill_total;
     DatFile_unit_hit_point_rate := unit_hit_point_rate;
     DatFile_unit_hit_point_total := unit_hit_point_total;
     DatFile_razing_kill_rate := razing_kill_rate;
     DatFile_razing_kill_total := razing_kill_total;
     DatFile_tech_tree := tech_tree |}.

(** datfile.py:117-118 DatFile.graphic_pointers *)
Definition DatFile_graphic_pointers (self : DatFile) : list Z :=
  map (fun x => match x with None => 0 | Some _ => 1 end) (DatFile_graphics self).

(** datfile.py:120-160 DatFile.to_bytes *)
Definition DatFile_to_bytes (self : DatFile) (version : Version) : res bytes :=
  version <-- version_lookup (DatFile_version self) ;;;
  let terrain_restrictions_size := (len (DatFile_terrain_restrictions self)) in
  _ <-- py_assert (((len (DatFile_float_ptr_terrain_tables self)) =? (len (DatFile_terrain_pass_graphic_pointers self))) && ((len (DatFile_terrain_pass_graphic_pointers self)) =? terrain_restrictions_size)) ;;;
  let terrains_used := 0 in
  terrains_used <--
    (if nonempty (DatFile_terrain_restrictions self) then
      first <-- py_index (DatFile_terrain_restrictions self) 0 ;;;
      let terrains_used := len (TerrainRestriction_passable_buildable_dmg_multiplier first) in
      Ok terrains_used
     else Ok terrains_used) ;;;
  join [
    write_string 8 (DatFile_version self);
    write_int_16 terrain_restrictions_size true true;
    write_int_16 terrains_used true true;
    write_int_32_array (DatFile_float_ptr_terrain_tables self);
    write_int_32_array (DatFile_terrain_pass_graphic_pointers self);
    write_class_array TerrainRestriction_to_bytes (map Some (DatFile_terrain_restrictions self)) version;
    write_int_16 (len (DatFile_player_colours self)) true true;
    write_class_array PlayerColour_to_bytes (map Some (DatFile_player_colours self)) version;
    write_int_16 (len (DatFile_sounds self)) true true;
    write_class_array Sound_to_bytes (map Some (DatFile_sounds self)) version;
    write_int_16 (len (DatFile_graphics self)) true true;
    write_int_32_array (DatFile_graphic_pointers self);
    write_class_array Graphic_to_bytes (DatFile_graphics self) version;
    write_class TerrainBlock_to_bytes (DatFile_terrain_block self) version;
    write_class RandomMaps_to_bytes (DatFile_random_maps self) version;
    write_int_32 (len (DatFile_effects self)) true;
    write_class_array Effect_to_bytes (map Some (DatFile_effects self)) version;
    write_int_32 (len (DatFile_unit_headers self)) true;
    write_class_array UnitHeaders_to_bytes (map Some (DatFile_unit_headers self)) version;
    write_int_16 (len (DatFile_civs self)) true true;
    write_class_array Civ_to_bytes (map Some (DatFile_civs self)) version;
    write_int_16 (len (DatFile_techs self)) true true;
    write_class_array Tech_to_bytes (map Some (DatFile_techs self)) version;
    write_int_32 (DatFile_time_slice self) true;
    write_int_32 (DatFile_unit_kill_rate self) true;
    write_int_32 (DatFile_unit_kill_total self) true;
    write_int_32 (DatFile_unit_hit_point_rate self) true;
    write_int_32 (DatFile_unit_hit_point_total self) true;
    write_int_32 (DatFile_razing_kill_rate self) true;
    write_int_32 (DatFile_razing_kill_total self) true;
    write_class TechTree_to_bytes (DatFile_tech_tree self) version ].
