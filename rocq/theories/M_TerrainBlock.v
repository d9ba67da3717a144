(** * Model of /repo/src/genieutils/terrainblock.py

    Transcribed statement by statement (tools/gen_model.py); readers and writers come
    from the Python [from_bytes*] and [to_bytes*] respectively. *)
From Verif Require Import Base PyInt PyFloat PyStr PyStruct DataTypes Versions Common.
From Coq Require Import String.
Open Scope Z_scope.
Local Open Scope list_scope.


(** terrainblock.py:8-11 class FrameData *)
Record FrameData : Set := mkFrameData {
  FrameData_frame_count : Z;
  FrameData_angle_count : Z;
  FrameData_shape_id : Z }.

(** terrainblock.py:14-19 FrameData.from_bytes *)
Definition FrameData_from_bytes : rd FrameData :=
  frame_count <- read_int_16 true ;;
  angle_count <- read_int_16 true ;;
  shape_id <- read_int_16 true ;;
  ret {| FrameData_frame_count := frame_count;
     FrameData_angle_count := angle_count;
     FrameData_shape_id := shape_id |}.

(** terrainblock.py:21-26 FrameData.to_bytes *)
Definition FrameData_to_bytes (self : FrameData) (version : Version) : res bytes :=
  join [
    write_int_16 (FrameData_frame_count self) true true;
    write_int_16 (FrameData_angle_count self) true true;
    write_int_16 (FrameData_shape_id self) true true ].

(** terrainblock.py:30-68 class Terrain *)
Record Terrain : Set := mkTerrain {
  Terrain_enabled : Z;
  Terrain_random : Z;
  Terrain_is_water : Z;
  Terrain_hide_in_editor : Z;
  Terrain_string_id : Z;
  Terrain_name : pystr;
  Terrain_name_2 : pystr;
  Terrain_slp : Z;
  Terrain_shape_ptr : Z;
  Terrain_sound_id : Z;
  Terrain_wwise_sound_id : Z;
  Terrain_wwise_sound_stop_id : Z;
  Terrain_blend_priority : Z;
  Terrain_blend_type : Z;
  Terrain_overlay_mask_name : pystr;
  Terrain_colors : list Z;
  Terrain_cliff_colors : list Z;
  Terrain_passable_terrain : Z;
  Terrain_impassable_terrain : Z;
  Terrain_is_animated : Z;
  Terrain_animation_frames : Z;
  Terrain_pause_frames : Z;
  Terrain_interval : f64;
  Terrain_pause_between_loops : f64;
  Terrain_frame : Z;
  Terrain_draw_frame : Z;
  Terrain_animate_last : f64;
  Terrain_frame_changed : Z;
  Terrain_drawn : Z;
  Terrain_frame_data : list FrameData;
  Terrain_terrain_to_draw : Z;
  Terrain_terrain_dimensions : list Z;
  Terrain_terrain_unit_masked_density : list Z;
  Terrain_terrain_unit_id : list Z;
  Terrain_terrain_unit_density : list Z;
  Terrain_terrain_unit_centering : list Z;
  Terrain_number_of_terrain_units_used : Z;
  Terrain_phantom : Z }.

(** terrainblock.py:71-111 Terrain.from_bytes *)
Definition Terrain_from_bytes : rd Terrain :=
  enabled <- read_int_8 ;;
  random <- read_int_8 ;;
  is_water <- read_int_8 ;;
  hide_in_editor <- read_int_8 ;;
  string_id <- read_int_32 true ;;
  name <- read_debug_string ;;
  name_2 <- read_debug_string ;;
  slp <- read_int_32 true ;;
  shape_ptr <- read_int_32 true ;;
  sound_id <- read_int_32 true ;;
  wwise_sound_id <- read_int_32 false ;;
  wwise_sound_stop_id <- read_int_32 false ;;
  blend_priority <- read_int_32 true ;;
  blend_type <- read_int_32 true ;;
  overlay_mask_name <- read_debug_string ;;
  colors <- read_int_8_array_3 ;;
  cliff_colors <- read_int_8_array_2 ;;
  passable_terrain <- read_int_8 ;;
  impassable_terrain <- read_int_8 ;;
  is_animated <- read_int_8 ;;
  animation_frames <- read_int_16 true ;;
  pause_frames <- read_int_16 true ;;
  interval <- read_float ;;
  pause_between_loops <- read_float ;;
  frame <- read_int_16 true ;;
  draw_frame <- read_int_16 true ;;
  animate_last <- read_float ;;
  frame_changed <- read_int_8 ;;
  drawn <- read_int_8 ;;
  frame_data <- read_class_array FrameData_from_bytes TILE_TYPE_COUNT ;;
  terrain_to_draw <- read_int_16 true ;;
  terrain_dimensions <- read_int_16_array_2 ;;
  terrain_unit_masked_density <- read_int_16_array TERRAIN_UNITS_SIZE ;;
  terrain_unit_id <- read_int_16_array TERRAIN_UNITS_SIZE ;;
  terrain_unit_density <- read_int_16_array TERRAIN_UNITS_SIZE ;;
  terrain_unit_centering <- read_int_8_array TERRAIN_UNITS_SIZE ;;
  number_of_terrain_units_used <- read_int_16 true ;;
  phantom <- read_int_16 true ;;
  ret {| Terrain_enabled := enabled;
     Terrain_random := random;
     Terrain_is_water := is_water;
     Terrain_hide_in_editor := hide_in_editor;
     Terrain_string_id := string_id;
     Terrain_name := name;
     Terrain_name_2 := name_2;
     Terrain_slp := slp;
     Terrain_shape_ptr := shape_ptr;
     Terrain_sound_id := sound_id;
     Terrain_wwise_sound_id := wwise_sound_id;
     Terrain_wwise_sound_stop_id := wwise_sound_stop_id;
     Terrain_blend_priority := blend_priority;
     Terrain_blend_type := blend_type;
     Terrain_overlay_mask_name := overlay_mask_name;
     Terrain_colors := colors;
     Terrain_cliff_colors := cliff_colors;
     Terrain_passable_terrain := passable_terrain;
     Terrain_impassable_terrain := impassable_terrain;
     Terrain_is_animated := is_animated;
     Terrain_animation_frames := animation_frames;
     Terrain_pause_frames := pause_frames;
     Terrain_interval := interval;
     Terrain_pause_between_loops := pause_between_loops;
     Terrain_frame := frame;
     Terrain_draw_frame := draw_frame;
     Terrain_animate_last := animate_last;
     Terrain_frame_changed := frame_changed;
     Terrain_drawn := drawn;
     Terrain_frame_data := frame_data;
     Terrain_terrain_to_draw := terrain_to_draw;
     Terrain_terrain_dimensions := terrain_dimensions;
     Terrain_terrain_unit_masked_density := terrain_unit_masked_density;
     Terrain_terrain_unit_id := terrain_unit_id;
     Terrain_terrain_unit_density := terrain_unit_density;
     Terrain_terrain_unit_centering := terrain_unit_centering;
     Terrain_number_of_terrain_units_used := number_of_terrain_units_used;
     Terrain_phantom := phantom |}.

(** terrainblock.py:113-153 Terrain.to_bytes *)
Definition Terrain_to_bytes (self : Terrain) (version : Version) : res bytes :=
  join [
    write_int_8 (Terrain_enabled self);
    write_int_8 (Terrain_random self);
    write_int_8 (Terrain_is_water self);
    write_int_8 (Terrain_hide_in_editor self);
    write_int_32 (Terrain_string_id self) true;
    write_debug_string (Terrain_name self);
    write_debug_string (Terrain_name_2 self);
    write_int_32 (Terrain_slp self) true;
    write_int_32 (Terrain_shape_ptr self) true;
    write_int_32 (Terrain_sound_id self) true;
    write_int_32 (Terrain_wwise_sound_id self) false;
    write_int_32 (Terrain_wwise_sound_stop_id self) false;
    write_int_32 (Terrain_blend_priority self) true;
    write_int_32 (Terrain_blend_type self) true;
    write_debug_string (Terrain_overlay_mask_name self);
    write_int_8_array (Terrain_colors self);
    write_int_8_array (Terrain_cliff_colors self);
    write_int_8 (Terrain_passable_terrain self);
    write_int_8 (Terrain_impassable_terrain self);
    write_int_8 (Terrain_is_animated self);
    write_int_16 (Terrain_animation_frames self) true true;
    write_int_16 (Terrain_pause_frames self) true true;
    write_float (Terrain_interval self);
    write_float (Terrain_pause_between_loops self);
    write_int_16 (Terrain_frame self) true true;
    write_int_16 (Terrain_draw_frame self) true true;
    write_float (Terrain_animate_last self);
    write_int_8 (Terrain_frame_changed self);
    write_int_8 (Terrain_drawn self);
    write_class_array FrameData_to_bytes (map Some (Terrain_frame_data self)) version;
    write_int_16 (Terrain_terrain_to_draw self) true true;
    write_int_16_array (Terrain_terrain_dimensions self);
    write_int_16_array (Terrain_terrain_unit_masked_density self);
    write_int_16_array (Terrain_terrain_unit_id self);
    write_int_16_array (Terrain_terrain_unit_density self);
    write_int_8_array (Terrain_terrain_unit_centering self);
    write_int_16 (Terrain_number_of_terrain_units_used self) true true;
    write_int_16 (Terrain_phantom self) true true ].

(** terrainblock.py:157-160 class TileSize *)
Record TileSize : Set := mkTileSize {
  TileSize_width : Z;
  TileSize_height : Z;
  TileSize_delta_y : Z }.

(** terrainblock.py:163-168 TileSize.from_bytes *)
Definition TileSize_from_bytes : rd TileSize :=
  width <- read_int_16 true ;;
  height <- read_int_16 true ;;
  delta_y <- read_int_16 true ;;
  ret {| TileSize_width := width;
     TileSize_height := height;
     TileSize_delta_y := delta_y |}.

(** terrainblock.py:170-175 TileSize.to_bytes *)
Definition TileSize_to_bytes (self : TileSize) (version : Version) : res bytes :=
  join [
    write_int_16 (TileSize_width self) true true;
    write_int_16 (TileSize_height self) true true;
    write_int_16 (TileSize_delta_y self) true true ].

(** terrainblock.py:179-213 class TerrainBlock *)
Record TerrainBlock : Set := mkTerrainBlock {
  TerrainBlock_virtual_function_ptr : Z;
  TerrainBlock_map_pointer : Z;
  TerrainBlock_map_width : Z;
  TerrainBlock_map_height : Z;
  TerrainBlock_world_width : Z;
  TerrainBlock_world_height : Z;
  TerrainBlock_tile_sizes : list TileSize;
  TerrainBlock_padding_ts : Z;
  TerrainBlock_terrains : list Terrain;
  TerrainBlock_map_min_x : f64;
  TerrainBlock_map_min_y : f64;
  TerrainBlock_map_max_x : f64;
  TerrainBlock_map_max_y : f64;
  TerrainBlock_map_max_x_plus_1 : f64;
  TerrainBlock_map_max_y_plus_1 : f64;
  TerrainBlock_terrains_used_2 : Z;
  TerrainBlock_borders_used : Z;
  TerrainBlock_max_terrain : Z;
  TerrainBlock_tile_width : Z;
  TerrainBlock_tile_height : Z;
  TerrainBlock_tile_half_height : Z;
  TerrainBlock_tile_half_width : Z;
  TerrainBlock_elev_height : Z;
  TerrainBlock_cur_row : Z;
  TerrainBlock_cur_col : Z;
  TerrainBlock_block_beg_row : Z;
  TerrainBlock_block_end_row : Z;
  TerrainBlock_block_beg_col : Z;
  TerrainBlock_block_end_col : Z;
  TerrainBlock_search_map_ptr : Z;
  TerrainBlock_search_map_rows_ptr : Z;
  TerrainBlock_any_frame_change : Z;
  TerrainBlock_map_visible_flag : Z;
  TerrainBlock_fog_flag : Z }.

(** terrainblock.py:216-252 TerrainBlock.from_bytes *)
Definition TerrainBlock_from_bytes : rd TerrainBlock :=
  virtual_function_ptr <- read_int_32 false ;;
  map_pointer <- read_int_32 false ;;
  map_width <- read_int_32 true ;;
  map_height <- read_int_32 true ;;
  world_width <- read_int_32 true ;;
  world_height <- read_int_32 true ;;
  tile_sizes <- read_class_array TileSize_from_bytes TILE_TYPE_COUNT ;;
  padding_ts <- read_int_16 true ;;
  terrains <- read_class_array Terrain_from_bytes TERRAIN_COUNT ;;
  map_min_x <- read_float ;;
  map_min_y <- read_float ;;
  map_max_x <- read_float ;;
  map_max_y <- read_float ;;
  map_max_x_plus_1 <- read_float ;;
  map_max_y_plus_1 <- read_float ;;
  terrains_used_2 <- read_int_16 true ;;
  borders_used <- read_int_16 true ;;
  max_terrain <- read_int_16 true ;;
  tile_width <- read_int_16 true ;;
  tile_height <- read_int_16 true ;;
  tile_half_height <- read_int_16 true ;;
  tile_half_width <- read_int_16 true ;;
  elev_height <- read_int_16 true ;;
  cur_row <- read_int_16 true ;;
  cur_col <- read_int_16 true ;;
  block_beg_row <- read_int_16 true ;;
  block_end_row <- read_int_16 true ;;
  block_beg_col <- read_int_16 true ;;
  block_end_col <- read_int_16 true ;;
  search_map_ptr <- read_int_32 false ;;
  search_map_rows_ptr <- read_int_32 false ;;
  any_frame_change <- read_int_8 ;;
  map_visible_flag <- read_int_8 ;;
  fog_flag <- read_int_8 ;;
  ret {| TerrainBlock_virtual_function_ptr := virtual_function_ptr;
     TerrainBlock_map_pointer := map_pointer;
     TerrainBlock_map_width := map_width;
     TerrainBlock_map_height := map_height;
     TerrainBlock_world_width := world_width;
     TerrainBlock_world_height := world_height;
     TerrainBlock_tile_sizes := tile_sizes;
     TerrainBlock_padding_ts := padding_ts;
     TerrainBlock_terrains := terrains;
     TerrainBlock_map_min_x := map_min_x;
     TerrainBlock_map_min_y := map_min_y;
     TerrainBlock_map_max_x := map_max_x;
     TerrainBlock_map_max_y := map_max_y;
     TerrainBlock_map_max_x_plus_1 := map_max_x_plus_1;
     TerrainBlock_map_max_y_plus_1 := map_max_y_plus_1;
     TerrainBlock_terrains_used_2 := terrains_used_2;
     TerrainBlock_borders_used := borders_used;
     TerrainBlock_max_terrain := max_terrain;
     TerrainBlock_tile_width := tile_width;
     TerrainBlock_tile_height := tile_height;
     TerrainBlock_tile_half_height := tile_half_height;
     TerrainBlock_tile_half_width := tile_half_width;
     TerrainBlock_elev_height := elev_height;
     TerrainBlock_cur_row := cur_row;
     TerrainBlock_cur_col := cur_col;
     TerrainBlock_block_beg_row := block_beg_row;
     TerrainBlock_block_end_row := block_end_row;
     TerrainBlock_block_beg_col := block_beg_col;
     TerrainBlock_block_end_col := block_end_col;
     TerrainBlock_search_map_ptr := search_map_ptr;
     TerrainBlock_search_map_rows_ptr := search_map_rows_ptr;
     TerrainBlock_any_frame_change := any_frame_change;
     TerrainBlock_map_visible_flag := map_visible_flag;
     TerrainBlock_fog_flag := fog_flag |}.

(** terrainblock.py:254-290 TerrainBlock.to_bytes *)
Definition TerrainBlock_to_bytes (self : TerrainBlock) (version : Version) : res bytes :=
  join [
    write_int_32 (TerrainBlock_virtual_function_ptr self) false;
    write_int_32 (TerrainBlock_map_pointer self) false;
    write_int_32 (TerrainBlock_map_width self) true;
    write_int_32 (TerrainBlock_map_height self) true;
    write_int_32 (TerrainBlock_world_width self) true;
    write_int_32 (TerrainBlock_world_height self) true;
    write_class_array TileSize_to_bytes (map Some (TerrainBlock_tile_sizes self)) version;
    write_int_16 (TerrainBlock_padding_ts self) true true;
    write_class_array Terrain_to_bytes (map Some (TerrainBlock_terrains self)) version;
    write_float (TerrainBlock_map_min_x self);
    write_float (TerrainBlock_map_min_y self);
    write_float (TerrainBlock_map_max_x self);
    write_float (TerrainBlock_map_max_y self);
    write_float (TerrainBlock_map_max_x_plus_1 self);
    write_float (TerrainBlock_map_max_y_plus_1 self);
    write_int_16 (TerrainBlock_terrains_used_2 self) true true;
    write_int_16 (TerrainBlock_borders_used self) true true;
    write_int_16 (TerrainBlock_max_terrain self) true true;
    write_int_16 (TerrainBlock_tile_width self) true true;
    write_int_16 (TerrainBlock_tile_height self) true true;
    write_int_16 (TerrainBlock_tile_half_height self) true true;
    write_int_16 (TerrainBlock_tile_half_width self) true true;
    write_int_16 (TerrainBlock_elev_height self) true true;
    write_int_16 (TerrainBlock_cur_row self) true true;
    write_int_16 (TerrainBlock_cur_col self) true true;
    write_int_16 (TerrainBlock_block_beg_row self) true true;
    write_int_16 (TerrainBlock_block_end_row self) true true;
    write_int_16 (TerrainBlock_block_beg_col self) true true;
    write_int_16 (TerrainBlock_block_end_col self) true true;
    write_int_32 (TerrainBlock_search_map_ptr self) false;
    write_int_32 (TerrainBlock_search_map_rows_ptr self) false;
    write_int_8 (TerrainBlock_any_frame_change self);
    write_int_8 (TerrainBlock_map_visible_flag self);
    write_int_8 (TerrainBlock_fog_flag self) ].
