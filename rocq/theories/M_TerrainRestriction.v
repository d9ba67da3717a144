(** * Model of /repo/src/genieutils/terrainrestriction.py

    Transcribed statement by statement (tools/gen_model.py); readers and writers come
    from the Python [from_bytes*] and [to_bytes*] respectively. *)
From Verif Require Import Base PyInt PyFloat PyStr PyStruct DataTypes Versions Common.
From Coq Require Import String.
Open Scope Z_scope.
Local Open Scope list_scope.


(** terrainrestriction.py:8-12 class TerrainPassGraphic *)
Record TerrainPassGraphic : Set := mkTerrainPassGraphic {
  TerrainPassGraphic_exit_tile_sprite_id : Z;
  TerrainPassGraphic_enter_tile_sprite_id : Z;
  TerrainPassGraphic_walk_tile_sprite_id : Z;
  TerrainPassGraphic_walk_sprite_rate : Z }.

(** terrainrestriction.py:15-21 TerrainPassGraphic.from_bytes *)
Definition TerrainPassGraphic_from_bytes : rd TerrainPassGraphic :=
  exit_tile_sprite_id <- read_int_32 true ;;
  enter_tile_sprite_id <- read_int_32 true ;;
  walk_tile_sprite_id <- read_int_32 true ;;
  walk_sprite_rate <- read_int_32 true ;;
  ret {| TerrainPassGraphic_exit_tile_sprite_id := exit_tile_sprite_id;
     TerrainPassGraphic_enter_tile_sprite_id := enter_tile_sprite_id;
     TerrainPassGraphic_walk_tile_sprite_id := walk_tile_sprite_id;
     TerrainPassGraphic_walk_sprite_rate := walk_sprite_rate |}.

(** terrainrestriction.py:23-29 TerrainPassGraphic.to_bytes *)
Definition TerrainPassGraphic_to_bytes (self : TerrainPassGraphic) (version : Version) : res bytes :=
  join [
    write_int_32 (TerrainPassGraphic_exit_tile_sprite_id self) true;
    write_int_32 (TerrainPassGraphic_enter_tile_sprite_id self) true;
    write_int_32 (TerrainPassGraphic_walk_tile_sprite_id self) true;
    write_int_32 (TerrainPassGraphic_walk_sprite_rate self) true ].

(** terrainrestriction.py:33-35 class TerrainRestriction *)
Record TerrainRestriction : Set := mkTerrainRestriction {
  TerrainRestriction_passable_buildable_dmg_multiplier : list f64;
  TerrainRestriction_terrain_pass_graphics : list TerrainPassGraphic }.

(** terrainrestriction.py:38-42 TerrainRestriction.from_bytes_with_count *)
Definition TerrainRestriction_from_bytes_with_count (terrain_count : Z) : rd TerrainRestriction :=
  passable_buildable_dmg_multiplier <- read_float_array terrain_count ;;
  terrain_pass_graphics <- read_class_array TerrainPassGraphic_from_bytes terrain_count ;;
  ret {| TerrainRestriction_passable_buildable_dmg_multiplier := passable_buildable_dmg_multiplier;
     TerrainRestriction_terrain_pass_graphics := terrain_pass_graphics |}.

(** terrainrestriction.py:44-49 TerrainRestriction.to_bytes *)
Definition TerrainRestriction_to_bytes (self : TerrainRestriction) (version : Version) : res bytes :=
  _ <-- py_assert ((len (TerrainRestriction_passable_buildable_dmg_multiplier self)) =? (len (TerrainRestriction_terrain_pass_graphics self))) ;;;
  join [
    write_float_array (TerrainRestriction_passable_buildable_dmg_multiplier self);
    write_class_array TerrainPassGraphic_to_bytes (map Some (TerrainRestriction_terrain_pass_graphics self)) version ].
