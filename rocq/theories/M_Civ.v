(** * Model of /repo/src/genieutils/civ.py

    Transcribed statement by statement (tools/gen_model.py); readers and writers come
    from the Python [from_bytes*] and [to_bytes*] respectively. *)
From Verif Require Import Base PyInt PyFloat PyStr PyStruct DataTypes Versions Common.
From Verif Require Import M_Task M_Unit.
From Coq Require Import String.
Open Scope Z_scope.
Local Open Scope list_scope.


(** civ.py:9-16 class Civ *)
Record Civ : Set := mkCiv {
  Civ_player_type : Z;
  Civ_name : pystr;
  Civ_tech_tree_id : Z;
  Civ_team_bonus_id : Z;
  Civ_resources : list f64;
  Civ_icon_set : Z;
  Civ_units : list (option Unit) }.

(** civ.py:19-38 Civ.from_bytes *)
Definition Civ_from_bytes : rd Civ :=
  player_type <- read_int_8 ;;
  name <- read_debug_string ;;
  resources_size <- read_int_16 true ;;
  tech_tree_id <- read_int_16 true ;;
  team_bonus_id <- read_int_16 true ;;
  resources <- read_float_array resources_size ;;
  icon_set <- read_int_8 ;;
  units_size <- read_int_16 true ;;
  unit_pointers <- read_int_32_array units_size ;;
  units <- read_class_array_with_pointers Unit_from_bytes units_size unit_pointers ;;
  ret {| Civ_player_type := player_type;
     Civ_name := name;
     Civ_tech_tree_id := tech_tree_id;
     Civ_team_bonus_id := team_bonus_id;
     Civ_resources := resources;
     Civ_icon_set := icon_set;
     Civ_units := units |}.

(** civ.py:41-42 Civ.unit_pointers *)
Definition Civ_unit_pointers (self : Civ) : list Z :=
  map (fun x => match x with None => 0 | Some _ => 1 end) (Civ_units self).

(** civ.py:44-56 Civ.to_bytes *)
Definition Civ_to_bytes (self : Civ) (version : Version) : res bytes :=
  join [
    write_int_8 (Civ_player_type self);
    write_debug_string (Civ_name self);
    write_int_16 (len (Civ_resources self)) true true;
    write_int_16 (Civ_tech_tree_id self) true true;
    write_int_16 (Civ_team_bonus_id self) true true;
    write_float_array (Civ_resources self);
    write_int_8 (Civ_icon_set self);
    write_int_16 (len (Civ_units self)) true true;
    write_int_32_array (Civ_unit_pointers self);
    write_class_array Unit_to_bytes (Civ_units self) version ].
