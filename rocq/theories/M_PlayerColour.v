(** * Model of /repo/src/genieutils/playercolour.py

    Transcribed statement by statement (tools/gen_model.py); readers and writers come
    from the Python [from_bytes*] and [to_bytes*] respectively. *)
From Verif Require Import Base PyInt PyFloat PyStr PyStruct DataTypes Versions Common.
From Coq Require Import String.
Open Scope Z_scope.
Local Open Scope list_scope.


(** playercolour.py:8-17 class PlayerColour *)
Record PlayerColour : Set := mkPlayerColour {
  PlayerColour_id : Z;
  PlayerColour_player_color_base : Z;
  PlayerColour_unit_outline_color : Z;
  PlayerColour_unit_selection_color_1 : Z;
  PlayerColour_unit_selection_color_2 : Z;
  PlayerColour_minimap_color : Z;
  PlayerColour_minimap_color_2 : Z;
  PlayerColour_minimap_color_3 : Z;
  PlayerColour_statistics_text : Z }.

(** playercolour.py:20-31 PlayerColour.from_bytes *)
Definition PlayerColour_from_bytes : rd PlayerColour :=
  id <- read_int_32 true ;;
  player_color_base <- read_int_32 true ;;
  unit_outline_color <- read_int_32 true ;;
  unit_selection_color_1 <- read_int_32 true ;;
  unit_selection_color_2 <- read_int_32 true ;;
  minimap_color <- read_int_32 true ;;
  minimap_color_2 <- read_int_32 true ;;
  minimap_color_3 <- read_int_32 true ;;
  statistics_text <- read_int_32 true ;;
  ret {| PlayerColour_id := id;
     PlayerColour_player_color_base := player_color_base;
     PlayerColour_unit_outline_color := unit_outline_color;
     PlayerColour_unit_selection_color_1 := unit_selection_color_1;
     PlayerColour_unit_selection_color_2 := unit_selection_color_2;
     PlayerColour_minimap_color := minimap_color;
     PlayerColour_minimap_color_2 := minimap_color_2;
     PlayerColour_minimap_color_3 := minimap_color_3;
     PlayerColour_statistics_text := statistics_text |}.

(** playercolour.py:33-44 PlayerColour.to_bytes *)
Definition PlayerColour_to_bytes (self : PlayerColour) (version : Version) : res bytes :=
  join [
    write_int_32 (PlayerColour_id self) true;
    write_int_32 (PlayerColour_player_color_base self) true;
    write_int_32 (PlayerColour_unit_outline_color self) true;
    write_int_32 (PlayerColour_unit_selection_color_1 self) true;
    write_int_32 (PlayerColour_unit_selection_color_2 self) true;
    write_int_32 (PlayerColour_minimap_color self) true;
    write_int_32 (PlayerColour_minimap_color_2 self) true;
    write_int_32 (PlayerColour_minimap_color_3 self) true;
    write_int_32 (PlayerColour_statistics_text self) true ].
