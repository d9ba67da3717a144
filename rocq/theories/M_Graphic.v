(** * Model of /repo/src/genieutils/graphic.py

    Transcribed statement by statement (tools/gen_model.py); readers and writers come
    from the Python [from_bytes*] and [to_bytes*] respectively. *)
From Verif Require Import Base PyInt PyFloat PyStr PyStruct DataTypes Versions Common.
From Coq Require Import String.
Open Scope Z_scope.
Local Open Scope list_scope.


(** graphic.py:8-15 class GraphicDelta *)
Record GraphicDelta : Set := mkGraphicDelta {
  GraphicDelta_graphic_id : Z;
  GraphicDelta_padding_1 : Z;
  GraphicDelta_sprite_ptr : Z;
  GraphicDelta_offset_x : Z;
  GraphicDelta_offset_y : Z;
  GraphicDelta_display_angle : Z;
  GraphicDelta_padding_2 : Z }.

(** graphic.py:18-27 GraphicDelta.from_bytes *)
Definition GraphicDelta_from_bytes : rd GraphicDelta :=
  graphic_id <- read_int_16 true ;;
  padding_1 <- read_int_16 true ;;
  sprite_ptr <- read_int_32 true ;;
  offset_x <- read_int_16 true ;;
  offset_y <- read_int_16 true ;;
  display_angle <- read_int_16 true ;;
  padding_2 <- read_int_16 true ;;
  ret {| GraphicDelta_graphic_id := graphic_id;
     GraphicDelta_padding_1 := padding_1;
     GraphicDelta_sprite_ptr := sprite_ptr;
     GraphicDelta_offset_x := offset_x;
     GraphicDelta_offset_y := offset_y;
     GraphicDelta_display_angle := display_angle;
     GraphicDelta_padding_2 := padding_2 |}.

(** graphic.py:29-38 GraphicDelta.to_bytes *)
Definition GraphicDelta_to_bytes (self : GraphicDelta) (version : Version) : res bytes :=
  join [
    write_int_16 (GraphicDelta_graphic_id self) true true;
    write_int_16 (GraphicDelta_padding_1 self) true true;
    write_int_32 (GraphicDelta_sprite_ptr self) true;
    write_int_16 (GraphicDelta_offset_x self) true true;
    write_int_16 (GraphicDelta_offset_y self) true true;
    write_int_16 (GraphicDelta_display_angle self) true true;
    write_int_16 (GraphicDelta_padding_2 self) true true ].

(** graphic.py:42-51 class GraphicAngleSound *)
Record GraphicAngleSound : Set := mkGraphicAngleSound {
  GraphicAngleSound_frame_num : Z;
  GraphicAngleSound_sound_id : Z;
  GraphicAngleSound_wwise_sound_id : Z;
  GraphicAngleSound_frame_num_2 : Z;
  GraphicAngleSound_sound_id_2 : Z;
  GraphicAngleSound_wwise_sound_id_2 : Z;
  GraphicAngleSound_frame_num_3 : Z;
  GraphicAngleSound_sound_id_3 : Z;
  GraphicAngleSound_wwise_sound_id_3 : Z }.

(** graphic.py:54-65 GraphicAngleSound.from_bytes *)
Definition GraphicAngleSound_from_bytes : rd GraphicAngleSound :=
  frame_num <- read_int_16 true ;;
  sound_id <- read_int_16 true ;;
  wwise_sound_id <- read_int_32 true ;;
  frame_num_2 <- read_int_16 true ;;
  sound_id_2 <- read_int_16 true ;;
  wwise_sound_id_2 <- read_int_32 true ;;
  frame_num_3 <- read_int_16 true ;;
  sound_id_3 <- read_int_16 true ;;
  wwise_sound_id_3 <- read_int_32 true ;;
  ret {| GraphicAngleSound_frame_num := frame_num;
     GraphicAngleSound_sound_id := sound_id;
     GraphicAngleSound_wwise_sound_id := wwise_sound_id;
     GraphicAngleSound_frame_num_2 := frame_num_2;
     GraphicAngleSound_sound_id_2 := sound_id_2;
     GraphicAngleSound_wwise_sound_id_2 := wwise_sound_id_2;
     GraphicAngleSound_frame_num_3 := frame_num_3;
     GraphicAngleSound_sound_id_3 := sound_id_3;
     GraphicAngleSound_wwise_sound_id_3 := wwise_sound_id_3 |}.

(** graphic.py:67-78 GraphicAngleSound.to_bytes *)
Definition GraphicAngleSound_to_bytes (self : GraphicAngleSound) (version : Version) : res bytes :=
  join [
    write_int_16 (GraphicAngleSound_frame_num self) true true;
    write_int_16 (GraphicAngleSound_sound_id self) true true;
    write_int_32 (GraphicAngleSound_wwise_sound_id self) true;
    write_int_16 (GraphicAngleSound_frame_num_2 self) true true;
    write_int_16 (GraphicAngleSound_sound_id_2 self) true true;
    write_int_32 (GraphicAngleSound_wwise_sound_id_2 self) true;
    write_int_16 (GraphicAngleSound_frame_num_3 self) true true;
    write_int_16 (GraphicAngleSound_sound_id_3 self) true true;
    write_int_32 (GraphicAngleSound_wwise_sound_id_3 self) true ].

(** graphic.py:82-106 class Graphic *)
Record Graphic : Set := mkGraphic {
  Graphic_name : pystr;
  Graphic_file_name : pystr;
  Graphic_particle_effect_name : pystr;
  Graphic_slp : Z;
  Graphic_is_loaded : Z;
  Graphic_old_color_flag : Z;
  Graphic_layer : Z;
  Graphic_player_color : Z;
  Graphic_transparent_selection : Z;
  Graphic_coordinates : list Z;
  Graphic_sound_id : Z;
  Graphic_wwise_sound_id : Z;
  Graphic_angle_sounds_used : Z;
  Graphic_frame_count : Z;
  Graphic_angle_count : Z;
  Graphic_speed_multiplier : f64;
  Graphic_frame_duration : f64;
  Graphic_replay_delay : f64;
  Graphic_sequence_type : Z;
  Graphic_id : Z;
  Graphic_mirroring_mode : Z;
  Graphic_editor_flag : Z;
  Graphic_deltas : list GraphicDelta;
  Graphic_angle_sounds : list GraphicAngleSound }.

(** graphic.py:109-160 Graphic.from_bytes *)
Definition Graphic_from_bytes : rd Graphic :=
  name <- read_debug_string ;;
  file_name <- read_debug_string ;;
  particle_effect_name <- read_debug_string ;;
  slp <- read_int_32 true ;;
  is_loaded <- read_int_8 ;;
  old_color_flag <- read_int_8 ;;
  layer <- read_int_8 ;;
  player_color <- read_int_16 true ;;
  transparent_selection <- read_int_8 ;;
  coordinates <- read_int_16_array_4 ;;
  delta_count <- read_int_16 true ;;
  sound_id <- read_int_16 true ;;
  wwise_sound_id <- read_int_32 true ;;
  angle_sounds_used <- read_int_8 ;;
  frame_count <- read_int_16 true ;;
  angle_count <- read_int_16 true ;;
  speed_multiplier <- read_float ;;
  frame_duration <- read_float ;;
  replay_delay <- read_float ;;
  sequence_type <- read_int_8 ;;
  id_ <- read_int_16 true ;;
  mirroring_mode <- read_int_8 ;;
  editor_flag <- read_int_8 ;;
  deltas <- read_class_array GraphicDelta_from_bytes delta_count ;;
  angle_sounds <- (if truthy angle_sounds_used then read_class_array_kept GraphicAngleSound_from_bytes angle_count else ret []) ;;
  ret {| Graphic_name := name;
     Graphic_file_name := file_name;
     Graphic_particle_effect_name := particle_effect_name;
     Graphic_slp := slp;
     Graphic_is_loaded := is_loaded;
     Graphic_old_color_flag := old_color_flag;
     Graphic_layer := layer;
     Graphic_player_color := player_color;
     Graphic_transparent_selection := transparent_selection;
     Graphic_coordinates := coordinates;
     Graphic_sound_id := sound_id;
     Graphic_wwise_sound_id := wwise_sound_id;
     Graphic_angle_sounds_used := angle_sounds_used;
     Graphic_frame_count := frame_count;
     Graphic_angle_count := angle_count;
     Graphic_speed_multiplier := speed_multiplier;
     Graphic_frame_duration := frame_duration;
     Graphic_replay_delay := replay_delay;
     Graphic_sequence_type := sequence_type;
     Graphic_id := id_;
     Graphic_mirroring_mode := mirroring_mode;
     Graphic_editor_flag := editor_flag;
     Graphic_deltas := deltas;
     Graphic_angle_sounds := angle_sounds |}.

(** graphic.py:162-189 Graphic.to_bytes *)
Definition Graphic_to_bytes (self : Graphic) (version : Version) : res bytes :=
  join [
    write_debug_string (Graphic_name self);
    write_debug_string (Graphic_file_name self);
    write_debug_string (Graphic_particle_effect_name self);
    write_int_32 (Graphic_slp self) true;
    write_int_8 (Graphic_is_loaded self);
    write_int_8 (Graphic_old_color_flag self);
    write_int_8 (Graphic_layer self);
    write_int_16 (Graphic_player_color self) true true;
    write_int_8 (Graphic_transparent_selection self);
    write_int_16_array (Graphic_coordinates self);
    write_int_16 (len (Graphic_deltas self)) true true;
    write_int_16 (Graphic_sound_id self) true true;
    write_int_32 (Graphic_wwise_sound_id self) true;
    write_int_8 (Graphic_angle_sounds_used self);
    write_int_16 (Graphic_frame_count self) true true;
    write_int_16 (Graphic_angle_count self) true true;
    write_float (Graphic_speed_multiplier self);
    write_float (Graphic_frame_duration self);
    write_float (Graphic_replay_delay self);
    write_int_8 (Graphic_sequence_type self);
    write_int_16 (Graphic_id self) true true;
    write_int_8 (Graphic_mirroring_mode self);
    write_int_8 (Graphic_editor_flag self);
    write_class_array GraphicDelta_to_bytes (map Some (Graphic_deltas self)) version;
    write_class_array GraphicAngleSound_to_bytes (map Some (Graphic_angle_sounds self)) version ].
