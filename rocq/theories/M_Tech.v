(** * Model of /repo/src/genieutils/tech.py

    Transcribed statement by statement (tools/gen_model.py); readers and writers come
    from the Python [from_bytes*] and [to_bytes*] respectively. *)
From Verif Require Import Base PyInt PyFloat PyStr PyStruct DataTypes Versions Common.
From Coq Require Import String.
Open Scope Z_scope.
Local Open Scope list_scope.


(** tech.py:8-11 class ResearchResourceCost *)
Record ResearchResourceCost : Set := mkResearchResourceCost {
  ResearchResourceCost_type : Z;
  ResearchResourceCost_amount : Z;
  ResearchResourceCost_flag : Z }.

(** tech.py:14-19 ResearchResourceCost.from_bytes *)
Definition ResearchResourceCost_from_bytes : rd ResearchResourceCost :=
  type <- read_int_16 true ;;
  amount <- read_int_16 true ;;
  flag <- read_int_8 ;;
  ret {| ResearchResourceCost_type := type;
     ResearchResourceCost_amount := amount;
     ResearchResourceCost_flag := flag |}.

(** tech.py:21-26 ResearchResourceCost.to_bytes *)
Definition ResearchResourceCost_to_bytes (self : ResearchResourceCost) (version : Version) : res bytes :=
  join [
    write_int_16 (ResearchResourceCost_type self) true true;
    write_int_16 (ResearchResourceCost_amount self) true true;
    write_int_8 (ResearchResourceCost_flag self) ].

(** tech.py:30-34 class ResearchLocation *)
Record ResearchLocation : Set := mkResearchLocation {
  ResearchLocation_location_id : Z;
  ResearchLocation_research_time : Z;
  ResearchLocation_button_id : Z;
  ResearchLocation_hot_key_id : Z }.

(** tech.py:37-43 ResearchLocation.from_bytes *)
Definition ResearchLocation_from_bytes : rd ResearchLocation :=
  location_id <- read_int_16 true ;;
  research_time <- read_int_16 true ;;
  button_id <- read_int_8 ;;
  hot_key_id <- read_int_32 true ;;
  ret {| ResearchLocation_location_id := location_id;
     ResearchLocation_research_time := research_time;
     ResearchLocation_button_id := button_id;
     ResearchLocation_hot_key_id := hot_key_id |}.

(** tech.py:45-51 ResearchLocation.to_bytes *)
Definition ResearchLocation_to_bytes (self : ResearchLocation) (version : Version) : res bytes :=
  join [
    write_int_16 (ResearchLocation_location_id self) true true;
    write_int_16 (ResearchLocation_research_time self) true true;
    write_int_8 (ResearchLocation_button_id self);
    write_int_32 (ResearchLocation_hot_key_id self) true ].

(** tech.py:55-70 class Tech *)
Record Tech : Set := mkTech {
  Tech_required_techs : list Z;
  Tech_resource_costs : list ResearchResourceCost;
  Tech_required_tech_count : Z;
  Tech_civ : Z;
  Tech_full_tech_mode : Z;
  Tech_language_dll_name : Z;
  Tech_language_dll_description : Z;
  Tech_effect_id : Z;
  Tech_type : Z;
  Tech_icon_id : Z;
  Tech_language_dll_help : Z;
  Tech_language_dll_tech_tree : Z;
  Tech_name : pystr;
  Tech_repeatable : Z;
  Tech_research_locations : list ResearchLocation }.

(** tech.py:79-120 Tech.from_bytes_84 *)
Definition Tech_from_bytes_84 : rd Tech :=
  required_techs <- read_int_16_array_6 ;;
  resource_costs <- read_class_array_3 ResearchResourceCost_from_bytes ;;
  required_tech_count <- read_int_16 true ;;
  civ <- read_int_16 true ;;
  full_tech_mode <- read_int_16 true ;;
  research_location <- read_int_16 true ;;
  language_dll_name <- read_int_32 true ;;
  language_dll_description <- read_int_32 true ;;
  research_time <- read_int_16 true ;;
  effect_id <- read_int_16 true ;;
  type <- read_int_16 true ;;
  icon_id <- read_int_16 true ;;
  button_id <- read_int_8 ;;
  language_dll_help <- read_int_32 true ;;
  language_dll_tech_tree <- read_int_32 true ;;
  hot_key <- read_int_32 true ;;
  name <- read_debug_string ;;
  repeatable <- read_int_8 ;;
  let research_locations := [{| ResearchLocation_button_id := button_id;
     ResearchLocation_research_time := research_time;
     ResearchLocation_hot_key_id := hot_key;
     ResearchLocation_location_id := research_location |}] in
  ret {| Tech_required_techs := required_techs;
     Tech_resource_costs := resource_costs;
     Tech_required_tech_count := required_tech_count;
     Tech_civ := civ;
     Tech_full_tech_mode := full_tech_mode;
     Tech_language_dll_name := language_dll_name;
     Tech_language_dll_description := language_dll_description;
     Tech_effect_id := effect_id;
     Tech_type := type;
     Tech_icon_id := icon_id;
     Tech_language_dll_help := language_dll_help;
     Tech_language_dll_tech_tree := language_dll_tech_tree;
     Tech_name := name;
     Tech_repeatable := repeatable;
     Tech_research_locations := research_locations |}.

(** tech.py:123-156 Tech.from_bytes_88 *)
Definition Tech_from_bytes_88 : rd Tech :=
  required_techs <- read_int_16_array_6 ;;
  resource_costs <- read_class_array_3 ResearchResourceCost_from_bytes ;;
  required_tech_count <- read_int_16 true ;;
  civ <- read_int_16 true ;;
  full_tech_mode <- read_int_16 true ;;
  language_dll_name <- read_int_32 true ;;
  language_dll_description <- read_int_32 true ;;
  effect_id <- read_int_16 true ;;
  type <- read_int_16 true ;;
  icon_id <- read_int_16 true ;;
  language_dll_help <- read_int_32 true ;;
  language_dll_tech_tree <- read_int_32 true ;;
  name <- read_debug_string ;;
  repeatable <- read_int_8 ;;
  research_location_count <- read_int_16 true ;;
  research_locations <- read_class_array ResearchLocation_from_bytes research_location_count ;;
  ret {| Tech_required_techs := required_techs;
     Tech_resource_costs := resource_costs;
     Tech_required_tech_count := required_tech_count;
     Tech_civ := civ;
     Tech_full_tech_mode := full_tech_mode;
     Tech_language_dll_name := language_dll_name;
     Tech_language_dll_description := language_dll_description;
     Tech_effect_id := effect_id;
     Tech_type := type;
     Tech_icon_id := icon_id;
     Tech_language_dll_help := language_dll_help;
     Tech_language_dll_tech_tree := language_dll_tech_tree;
     Tech_name := name;
     Tech_repeatable := repeatable;
     Tech_research_locations := research_locations |}.

(** tech.py:73-76 Tech.from_bytes *)
Definition Tech_from_bytes : rd Tech :=
  version <- get_version ;;
  if version_ge version VER_88 then Tech_from_bytes_88
  else (
    Tech_from_bytes_84).

(** tech.py:162-191 Tech.to_bytes_84 *)
Definition Tech_to_bytes_84 (self : Tech) (version : Version) : res bytes :=
  let research_location := (-1) in
  let research_time := 0 in
  let button_id := 0 in
  let hot_key := (-1) in
  '(research_location, research_time, button_id, hot_key) <--
    (if truthy (len (Tech_research_locations self)) then
      research_location <-- (first <-- py_index (Tech_research_locations self) 0 ;;; Ok (ResearchLocation_location_id first)) ;;;
      research_time <-- (first <-- py_index (Tech_research_locations self) 0 ;;; Ok (ResearchLocation_research_time first)) ;;;
      button_id <-- (first <-- py_index (Tech_research_locations self) 0 ;;; Ok (ResearchLocation_button_id first)) ;;;
      hot_key <-- (first <-- py_index (Tech_research_locations self) 0 ;;; Ok (ResearchLocation_hot_key_id first)) ;;;
      Ok (research_location, research_time, button_id, hot_key)
     else Ok (research_location, research_time, button_id, hot_key)) ;;;
  join [
    write_int_16_array (Tech_required_techs self);
    write_class_array ResearchResourceCost_to_bytes (map Some (Tech_resource_costs self)) version;
    write_int_16 (Tech_required_tech_count self) true true;
    write_int_16 (Tech_civ self) true true;
    write_int_16 (Tech_full_tech_mode self) true true;
    write_int_16 research_location true true;
    write_int_32 (Tech_language_dll_name self) true;
    write_int_32 (Tech_language_dll_description self) true;
    write_int_16 research_time true true;
    write_int_16 (Tech_effect_id self) true true;
    write_int_16 (Tech_type self) true true;
    write_int_16 (Tech_icon_id self) true true;
    write_int_8 button_id;
    write_int_32 (Tech_language_dll_help self) true;
    write_int_32 (Tech_language_dll_tech_tree self) true;
    write_int_32 hot_key true;
    write_debug_string (Tech_name self);
    write_int_8 (Tech_repeatable self) ].

(** tech.py:193-211 Tech.to_bytes_88 *)
Definition Tech_to_bytes_88 (self : Tech) (version : Version) : res bytes :=
  join [
    write_int_16_array (Tech_required_techs self);
    write_class_array ResearchResourceCost_to_bytes (map Some (Tech_resource_costs self)) version;
    write_int_16 (Tech_required_tech_count self) true true;
    write_int_16 (Tech_civ self) true true;
    write_int_16 (Tech_full_tech_mode self) true true;
    write_int_32 (Tech_language_dll_name self) true;
    write_int_32 (Tech_language_dll_description self) true;
    write_int_16 (Tech_effect_id self) true true;
    write_int_16 (Tech_type self) true true;
    write_int_16 (Tech_icon_id self) true true;
    write_int_32 (Tech_language_dll_help self) true;
    write_int_32 (Tech_language_dll_tech_tree self) true;
    write_debug_string (Tech_name self);
    write_int_8 (Tech_repeatable self);
    write_int_16 (len (Tech_research_locations self)) true true;
    write_class_array ResearchLocation_to_bytes (map Some (Tech_research_locations self)) version ].

(** tech.py:158-161 Tech.to_bytes *)
Definition Tech_to_bytes (self : Tech) (version : Version) : res bytes :=
  if version_ge version VER_88 then Tech_to_bytes_88 self version
  else (
    Tech_to_bytes_84 self version).
