(** * Model of /repo/src/genieutils/randommaps.py

    Transcribed statement by statement (tools/gen_model.py); readers and writers come
    from the Python [from_bytes*] and [to_bytes*] respectively. *)
From Verif Require Import Base PyInt PyFloat PyStr PyStruct DataTypes Versions Common.
From Coq Require Import String.
Open Scope Z_scope.
Local Open Scope list_scope.


(** randommaps.py:8-21 class MapUnit *)
Record MapUnit : Set := mkMapUnit {
  MapUnit_unit : Z;
  MapUnit_host_terrain : Z;
  MapUnit_group_placing : Z;
  MapUnit_scale_flag : Z;
  MapUnit_padding_1 : Z;
  MapUnit_objects_per_group : Z;
  MapUnit_fluctuation : Z;
  MapUnit_groups_per_player : Z;
  MapUnit_group_arena : Z;
  MapUnit_player_id : Z;
  MapUnit_set_place_for_all_players : Z;
  MapUnit_min_distance_to_players : Z;
  MapUnit_max_distance_to_players : Z }.

(** randommaps.py:24-39 MapUnit.from_bytes *)
Definition MapUnit_from_bytes : rd MapUnit :=
  unit <- read_int_32 true ;;
  host_terrain <- read_int_32 true ;;
  group_placing <- read_int_8 ;;
  scale_flag <- read_int_8 ;;
  padding_1 <- read_int_16 true ;;
  objects_per_group <- read_int_32 true ;;
  fluctuation <- read_int_32 true ;;
  groups_per_player <- read_int_32 true ;;
  group_arena <- read_int_32 true ;;
  player_id <- read_int_32 true ;;
  set_place_for_all_players <- read_int_32 true ;;
  min_distance_to_players <- read_int_32 true ;;
  max_distance_to_players <- read_int_32 true ;;
  ret {| MapUnit_unit := unit;
     MapUnit_host_terrain := host_terrain;
     MapUnit_group_placing := group_placing;
     MapUnit_scale_flag := scale_flag;
     MapUnit_padding_1 := padding_1;
     MapUnit_objects_per_group := objects_per_group;
     MapUnit_fluctuation := fluctuation;
     MapUnit_groups_per_player := groups_per_player;
     MapUnit_group_arena := group_arena;
     MapUnit_player_id := player_id;
     MapUnit_set_place_for_all_players := set_place_for_all_players;
     MapUnit_min_distance_to_players := min_distance_to_players;
     MapUnit_max_distance_to_players := max_distance_to_players |}.

(** randommaps.py:41-56 MapUnit.to_bytes *)
Definition MapUnit_to_bytes (self : MapUnit) (version : Version) : res bytes :=
  join [
    write_int_32 (MapUnit_unit self) true;
    write_int_32 (MapUnit_host_terrain self) true;
    write_int_8 (MapUnit_group_placing self);
    write_int_8 (MapUnit_scale_flag self);
    write_int_16 (MapUnit_padding_1 self) true true;
    write_int_32 (MapUnit_objects_per_group self) true;
    write_int_32 (MapUnit_fluctuation self) true;
    write_int_32 (MapUnit_groups_per_player self) true;
    write_int_32 (MapUnit_group_arena self) true;
    write_int_32 (MapUnit_player_id self) true;
    write_int_32 (MapUnit_set_place_for_all_players self) true;
    write_int_32 (MapUnit_min_distance_to_players self) true;
    write_int_32 (MapUnit_max_distance_to_players self) true ].

(** randommaps.py:60-66 class MapTerrain *)
Record MapTerrain : Set := mkMapTerrain {
  MapTerrain_proportion : Z;
  MapTerrain_terrain : Z;
  MapTerrain_clump_count : Z;
  MapTerrain_edge_spacing : Z;
  MapTerrain_placement_terrain : Z;
  MapTerrain_clumpiness : Z }.

(** randommaps.py:69-77 MapTerrain.from_bytes *)
Definition MapTerrain_from_bytes : rd MapTerrain :=
  proportion <- read_int_32 true ;;
  terrain <- read_int_32 true ;;
  clump_count <- read_int_32 true ;;
  edge_spacing <- read_int_32 true ;;
  placement_terrain <- read_int_32 true ;;
  clumpiness <- read_int_32 true ;;
  ret {| MapTerrain_proportion := proportion;
     MapTerrain_terrain := terrain;
     MapTerrain_clump_count := clump_count;
     MapTerrain_edge_spacing := edge_spacing;
     MapTerrain_placement_terrain := placement_terrain;
     MapTerrain_clumpiness := clumpiness |}.

(** randommaps.py:79-87 MapTerrain.to_bytes *)
Definition MapTerrain_to_bytes (self : MapTerrain) (version : Version) : res bytes :=
  join [
    write_int_32 (MapTerrain_proportion self) true;
    write_int_32 (MapTerrain_terrain self) true;
    write_int_32 (MapTerrain_clump_count self) true;
    write_int_32 (MapTerrain_edge_spacing self) true;
    write_int_32 (MapTerrain_placement_terrain self) true;
    write_int_32 (MapTerrain_clumpiness self) true ].

(** randommaps.py:91-106 class MapLand *)
Record MapLand : Set := mkMapLand {
  MapLand_land_id : Z;
  MapLand_terrain : Z;
  MapLand_land_spacing : Z;
  MapLand_base_size : Z;
  MapLand_zone : Z;
  MapLand_placement_type : Z;
  MapLand_padding_1 : Z;
  MapLand_base_x : Z;
  MapLand_base_y : Z;
  MapLand_land_proportion : Z;
  MapLand_by_player_flag : Z;
  MapLand_padding_2 : Z;
  MapLand_start_area_radius : Z;
  MapLand_terrain_edge_fade : Z;
  MapLand_clumpiness : Z }.

(** randommaps.py:109-126 MapLand.from_bytes *)
Definition MapLand_from_bytes : rd MapLand :=
  land_id <- read_int_32 true ;;
  terrain <- read_int_32 false ;;
  land_spacing <- read_int_32 true ;;
  base_size <- read_int_32 true ;;
  zone <- read_int_8 ;;
  placement_type <- read_int_8 ;;
  padding_1 <- read_int_16 true ;;
  base_x <- read_int_32 true ;;
  base_y <- read_int_32 true ;;
  land_proportion <- read_int_8 ;;
  by_player_flag <- read_int_8 ;;
  padding_2 <- read_int_16 true ;;
  start_area_radius <- read_int_32 true ;;
  terrain_edge_fade <- read_int_32 true ;;
  clumpiness <- read_int_32 true ;;
  ret {| MapLand_land_id := land_id;
     MapLand_terrain := terrain;
     MapLand_land_spacing := land_spacing;
     MapLand_base_size := base_size;
     MapLand_zone := zone;
     MapLand_placement_type := placement_type;
     MapLand_padding_1 := padding_1;
     MapLand_base_x := base_x;
     MapLand_base_y := base_y;
     MapLand_land_proportion := land_proportion;
     MapLand_by_player_flag := by_player_flag;
     MapLand_padding_2 := padding_2;
     MapLand_start_area_radius := start_area_radius;
     MapLand_terrain_edge_fade := terrain_edge_fade;
     MapLand_clumpiness := clumpiness |}.

(** randommaps.py:128-145 MapLand.to_bytes *)
Definition MapLand_to_bytes (self : MapLand) (version : Version) : res bytes :=
  join [
    write_int_32 (MapLand_land_id self) true;
    write_int_32 (MapLand_terrain self) false;
    write_int_32 (MapLand_land_spacing self) true;
    write_int_32 (MapLand_base_size self) true;
    write_int_8 (MapLand_zone self);
    write_int_8 (MapLand_placement_type self);
    write_int_16 (MapLand_padding_1 self) true true;
    write_int_32 (MapLand_base_x self) true;
    write_int_32 (MapLand_base_y self) true;
    write_int_8 (MapLand_land_proportion self);
    write_int_8 (MapLand_by_player_flag self);
    write_int_16 (MapLand_padding_2 self) true true;
    write_int_32 (MapLand_start_area_radius self) true;
    write_int_32 (MapLand_terrain_edge_fade self) true;
    write_int_32 (MapLand_clumpiness self) true ].

(** randommaps.py:149-155 class MapElevation *)
Record MapElevation : Set := mkMapElevation {
  MapElevation_proportion : Z;
  MapElevation_terrain : Z;
  MapElevation_clump_count : Z;
  MapElevation_base_terrain : Z;
  MapElevation_base_elevation : Z;
  MapElevation_tile_spacing : Z }.

(** randommaps.py:158-166 MapElevation.from_bytes *)
Definition MapElevation_from_bytes : rd MapElevation :=
  proportion <- read_int_32 true ;;
  terrain <- read_int_32 true ;;
  clump_count <- read_int_32 true ;;
  base_terrain <- read_int_32 true ;;
  base_elevation <- read_int_32 true ;;
  tile_spacing <- read_int_32 true ;;
  ret {| MapElevation_proportion := proportion;
     MapElevation_terrain := terrain;
     MapElevation_clump_count := clump_count;
     MapElevation_base_terrain := base_terrain;
     MapElevation_base_elevation := base_elevation;
     MapElevation_tile_spacing := tile_spacing |}.

(** randommaps.py:168-176 MapElevation.to_bytes *)
Definition MapElevation_to_bytes (self : MapElevation) (version : Version) : res bytes :=
  join [
    write_int_32 (MapElevation_proportion self) true;
    write_int_32 (MapElevation_terrain self) true;
    write_int_32 (MapElevation_clump_count self) true;
    write_int_32 (MapElevation_base_terrain self) true;
    write_int_32 (MapElevation_base_elevation self) true;
    write_int_32 (MapElevation_tile_spacing self) true ].

(** randommaps.py:180-202 class MapInfo *)
Record MapInfo : Set := mkMapInfo {
  MapInfo_map_id : Z;
  MapInfo_border_south_west : Z;
  MapInfo_border_north_west : Z;
  MapInfo_border_north_east : Z;
  MapInfo_border_south_east : Z;
  MapInfo_border_usage : Z;
  MapInfo_water_shape : Z;
  MapInfo_base_terrain : Z;
  MapInfo_land_coverage : Z;
  MapInfo_unused_id : Z;
  MapInfo_map_lands_size : Z;
  MapInfo_map_lands_ptr : Z;
  MapInfo_map_lands : list MapLand;
  MapInfo_map_terrains_size : Z;
  MapInfo_map_terrains_ptr : Z;
  MapInfo_map_terrains : list MapTerrain;
  MapInfo_map_units_size : Z;
  MapInfo_map_units_ptr : Z;
  MapInfo_map_units : list MapUnit;
  MapInfo_map_elevations_size : Z;
  MapInfo_map_elevations_ptr : Z;
  MapInfo_map_elevations : list MapElevation }.

(** randommaps.py:205-251 MapInfo.from_bytes *)
Definition MapInfo_from_bytes : rd MapInfo :=
  map_id <- read_int_32 true ;;
  border_south_west <- read_int_32 true ;;
  border_north_west <- read_int_32 true ;;
  border_north_east <- read_int_32 true ;;
  border_south_east <- read_int_32 true ;;
  border_usage <- read_int_32 true ;;
  water_shape <- read_int_32 true ;;
  base_terrain <- read_int_32 true ;;
  land_coverage <- read_int_32 true ;;
  unused_id <- read_int_32 true ;;
  map_lands_size <- read_int_32 false ;;
  map_lands_ptr <- read_int_32 true ;;
  map_lands <- read_class_array MapLand_from_bytes map_lands_size ;;
  map_terrains_size <- read_int_32 false ;;
  map_terrains_ptr <- read_int_32 true ;;
  map_terrains <- read_class_array MapTerrain_from_bytes map_terrains_size ;;
  map_units_size <- read_int_32 false ;;
  map_units_ptr <- read_int_32 true ;;
  map_units <- read_class_array MapUnit_from_bytes map_units_size ;;
  map_elevations_size <- read_int_32 false ;;
  map_elevations_ptr <- read_int_32 true ;;
  map_elevations <- read_class_array MapElevation_from_bytes map_elevations_size ;;
  ret {| MapInfo_map_id := map_id;
     MapInfo_border_south_west := border_south_west;
     MapInfo_border_north_west := border_north_west;
     MapInfo_border_north_east := border_north_east;
     MapInfo_border_south_east := border_south_east;
     MapInfo_border_usage := border_usage;
     MapInfo_water_shape := water_shape;
     MapInfo_base_terrain := base_terrain;
     MapInfo_land_coverage := land_coverage;
     MapInfo_unused_id := unused_id;
     MapInfo_map_lands_size := map_lands_size;
     MapInfo_map_lands_ptr := map_lands_ptr;
     MapInfo_map_lands := map_lands;
     MapInfo_map_terrains_size := map_terrains_size;
     MapInfo_map_terrains_ptr := map_terrains_ptr;
     MapInfo_map_terrains := map_terrains;
     MapInfo_map_units_size := map_units_size;
     MapInfo_map_units_ptr := map_units_ptr;
     MapInfo_map_units := map_units;
     MapInfo_map_elevations_size := map_elevations_size;
     MapInfo_map_elevations_ptr := map_elevations_ptr;
     MapInfo_map_elevations := map_elevations |}.

(** randommaps.py:253-277 MapInfo.to_bytes *)
Definition MapInfo_to_bytes (self : MapInfo) (version : Version) : res bytes :=
  join [
    write_int_32 (MapInfo_map_id self) true;
    write_int_32 (MapInfo_border_south_west self) true;
    write_int_32 (MapInfo_border_north_west self) true;
    write_int_32 (MapInfo_border_north_east self) true;
    write_int_32 (MapInfo_border_south_east self) true;
    write_int_32 (MapInfo_border_usage self) true;
    write_int_32 (MapInfo_water_shape self) true;
    write_int_32 (MapInfo_base_terrain self) true;
    write_int_32 (MapInfo_land_coverage self) true;
    write_int_32 (MapInfo_unused_id self) true;
    write_int_32 (MapInfo_map_lands_size self) false;
    write_int_32 (MapInfo_map_lands_ptr self) true;
    write_class_array MapLand_to_bytes (map Some (MapInfo_map_lands self)) version;
    write_int_32 (MapInfo_map_terrains_size self) false;
    write_int_32 (MapInfo_map_terrains_ptr self) true;
    write_class_array MapTerrain_to_bytes (map Some (MapInfo_map_terrains self)) version;
    write_int_32 (MapInfo_map_units_size self) false;
    write_int_32 (MapInfo_map_units_ptr self) true;
    write_class_array MapUnit_to_bytes (map Some (MapInfo_map_units self)) version;
    write_int_32 (MapInfo_map_elevations_size self) false;
    write_int_32 (MapInfo_map_elevations_ptr self) true;
    write_class_array MapElevation_to_bytes (map Some (MapInfo_map_elevations self)) version ].

(** randommaps.py:281-284 class RandomMaps *)
Record RandomMaps : Set := mkRandomMaps {
  RandomMaps_random_maps_ptr : Z;
  RandomMaps_map_info_1 : list MapInfo;
  RandomMaps_map_info_2 : list MapInfo }.

(** randommaps.py:287-296 RandomMaps.from_bytes *)
Definition RandomMaps_from_bytes : rd RandomMaps :=
  random_map_count <- read_int_32 false ;;
  random_maps_ptr <- read_int_32 true ;;
  map_info_1 <- read_class_array MapInfo_from_bytes random_map_count ;;
  map_info_2 <- read_class_array MapInfo_from_bytes random_map_count ;;
  ret {| RandomMaps_random_maps_ptr := random_maps_ptr;
     RandomMaps_map_info_1 := map_info_1;
     RandomMaps_map_info_2 := map_info_2 |}.

(** randommaps.py:298-305 RandomMaps.to_bytes *)
Definition RandomMaps_to_bytes (self : RandomMaps) (version : Version) : res bytes :=
  _ <-- py_assert ((len (RandomMaps_map_info_1 self)) =? (len (RandomMaps_map_info_2 self))) ;;;
  join [
    write_int_32 (len (RandomMaps_map_info_1 self)) false;
    write_int_32 (RandomMaps_random_maps_ptr self) true;
    write_class_array MapInfo_to_bytes (map Some (RandomMaps_map_info_1 self)) version;
    write_class_array MapInfo_to_bytes (map Some (RandomMaps_map_info_2 self)) version ].
