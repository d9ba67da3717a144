(** * Model of /repo/src/genieutils/techtree.py

    Transcribed statement by statement (tools/gen_model.py); readers and writers come
    from the Python [from_bytes*] and [to_bytes*] respectively. *)
From Verif Require Import Base PyInt PyFloat PyStr PyStruct DataTypes Versions Common.
From Coq Require Import String.
Open Scope Z_scope.
Local Open Scope list_scope.


(** techtree.py:8-11 class Common *)
Record Common : Set := mkCommon {
  Common_slots_used : Z;
  Common_unit_research : list Z;
  Common_mode : list Z }.

(** techtree.py:14-19 Common.from_bytes *)
Definition Common_from_bytes : rd Common :=
  slots_used <- read_int_32 true ;;
  unit_research <- read_int_32_array_10 ;;
  mode <- read_int_32_array_10 ;;
  ret {| Common_slots_used := slots_used;
     Common_unit_research := unit_research;
     Common_mode := mode |}.

(** techtree.py:21-26 Common.to_bytes *)
Definition Common_to_bytes (self : Common) (version : Version) : res bytes :=
  join [
    write_int_32 (Common_slots_used self) true;
    write_int_32_array (Common_unit_research self);
    write_int_32_array (Common_mode self) ].

(** techtree.py:30-41 class TechTreeAge *)
Record TechTreeAge : Set := mkTechTreeAge {
  TechTreeAge_id : Z;
  TechTreeAge_status : Z;
  TechTreeAge_buildings : list Z;
  TechTreeAge_units : list Z;
  TechTreeAge_techs : list Z;
  TechTreeAge_common : Common;
  TechTreeAge_num_building_levels : Z;
  TechTreeAge_buildings_per_zone : list Z;
  TechTreeAge_group_length_per_zone : list Z;
  TechTreeAge_max_age_length : Z;
  TechTreeAge_line_mode : Z }.

(** techtree.py:44-71 TechTreeAge.from_bytes *)
Definition TechTreeAge_from_bytes : rd TechTreeAge :=
  id_ <- read_int_32 true ;;
  status <- read_int_8 ;;
  buildings_count <- read_int_8 ;;
  buildings <- read_int_32_array buildings_count ;;
  units_count <- read_int_8 ;;
  units <- read_int_32_array units_count ;;
  techs_count <- read_int_8 ;;
  techs <- read_int_32_array techs_count ;;
  common <- read_class Common_from_bytes ;;
  num_building_levels <- read_int_8 ;;
  buildings_per_zone <- read_int_8_array_10 ;;
  group_length_per_zone <- read_int_8_array_10 ;;
  max_age_length <- read_int_8 ;;
  line_mode <- read_int_32 true ;;
  ret {| TechTreeAge_id := id_;
     TechTreeAge_status := status;
     TechTreeAge_buildings := buildings;
     TechTreeAge_units := units;
     TechTreeAge_techs := techs;
     TechTreeAge_common := common;
     TechTreeAge_num_building_levels := num_building_levels;
     TechTreeAge_buildings_per_zone := buildings_per_zone;
     TechTreeAge_group_length_per_zone := group_length_per_zone;
     TechTreeAge_max_age_length := max_age_length;
     TechTreeAge_line_mode := line_mode |}.

(** techtree.py:73-89 TechTreeAge.to_bytes *)
Definition TechTreeAge_to_bytes (self : TechTreeAge) (version : Version) : res bytes :=
  join [
    write_int_32 (TechTreeAge_id self) true;
    write_int_8 (TechTreeAge_status self);
    write_int_8 (len (TechTreeAge_buildings self));
    write_int_32_array (TechTreeAge_buildings self);
    write_int_8 (len (TechTreeAge_units self));
    write_int_32_array (TechTreeAge_units self);
    write_int_8 (len (TechTreeAge_techs self));
    write_int_32_array (TechTreeAge_techs self);
    write_class Common_to_bytes (TechTreeAge_common self) version;
    write_int_8 (TechTreeAge_num_building_levels self);
    write_int_8_array (TechTreeAge_buildings_per_zone self);
    write_int_8_array (TechTreeAge_group_length_per_zone self);
    write_int_8 (TechTreeAge_max_age_length self);
    write_int_32 (TechTreeAge_line_mode self) true ].

(** techtree.py:93-104 class BuildingConnection *)
Record BuildingConnection : Set := mkBuildingConnection {
  BuildingConnection_id : Z;
  BuildingConnection_status : Z;
  BuildingConnection_buildings : list Z;
  BuildingConnection_units : list Z;
  BuildingConnection_techs : list Z;
  BuildingConnection_common : Common;
  BuildingConnection_location_in_age : Z;
  BuildingConnection_units_techs_total : list Z;
  BuildingConnection_units_techs_first : list Z;
  BuildingConnection_line_mode : Z;
  BuildingConnection_enabling_research : Z }.

(** techtree.py:107-134 BuildingConnection.from_bytes *)
Definition BuildingConnection_from_bytes : rd BuildingConnection :=
  id_ <- read_int_32 true ;;
  status <- read_int_8 ;;
  buildings_count <- read_int_8 ;;
  buildings <- read_int_32_array buildings_count ;;
  units_count <- read_int_8 ;;
  units <- read_int_32_array units_count ;;
  techs_count <- read_int_8 ;;
  techs <- read_int_32_array techs_count ;;
  common <- read_class Common_from_bytes ;;
  location_in_age <- read_int_8 ;;
  units_techs_total <- read_int_8_array_5 ;;
  units_techs_first <- read_int_8_array_5 ;;
  line_mode <- read_int_32 true ;;
  enabling_research <- read_int_32 true ;;
  ret {| BuildingConnection_id := id_;
     BuildingConnection_status := status;
     BuildingConnection_buildings := buildings;
     BuildingConnection_units := units;
     BuildingConnection_techs := techs;
     BuildingConnection_common := common;
     BuildingConnection_location_in_age := location_in_age;
     BuildingConnection_units_techs_total := units_techs_total;
     BuildingConnection_units_techs_first := units_techs_first;
     BuildingConnection_line_mode := line_mode;
     BuildingConnection_enabling_research := enabling_research |}.

(** techtree.py:136-152 BuildingConnection.to_bytes *)
Definition BuildingConnection_to_bytes (self : BuildingConnection) (version : Version) : res bytes :=
  join [
    write_int_32 (BuildingConnection_id self) true;
    write_int_8 (BuildingConnection_status self);
    write_int_8 (len (BuildingConnection_buildings self));
    write_int_32_array (BuildingConnection_buildings self);
    write_int_8 (len (BuildingConnection_units self));
    write_int_32_array (BuildingConnection_units self);
    write_int_8 (len (BuildingConnection_techs self));
    write_int_32_array (BuildingConnection_techs self);
    write_class Common_to_bytes (BuildingConnection_common self) version;
    write_int_8 (BuildingConnection_location_in_age self);
    write_int_8_array (BuildingConnection_units_techs_total self);
    write_int_8_array (BuildingConnection_units_techs_first self);
    write_int_32 (BuildingConnection_line_mode self) true;
    write_int_32 (BuildingConnection_enabling_research self) true ].

(** techtree.py:156-166 class UnitConnection *)
Record UnitConnection : Set := mkUnitConnection {
  UnitConnection_id : Z;
  UnitConnection_status : Z;
  UnitConnection_upper_building : Z;
  UnitConnection_common : Common;
  UnitConnection_vertical_line : Z;
  UnitConnection_units : list Z;
  UnitConnection_location_in_age : Z;
  UnitConnection_required_research : Z;
  UnitConnection_line_mode : Z;
  UnitConnection_enabling_research : Z }.

(** techtree.py:169-192 UnitConnection.from_bytes *)
Definition UnitConnection_from_bytes : rd UnitConnection :=
  id_ <- read_int_32 true ;;
  status <- read_int_8 ;;
  upper_building <- read_int_32 true ;;
  common <- read_class Common_from_bytes ;;
  vertical_line <- read_int_32 true ;;
  units_count <- read_int_8 ;;
  units <- read_int_32_array units_count ;;
  location_in_age <- read_int_32 true ;;
  required_research <- read_int_32 true ;;
  line_mode <- read_int_32 true ;;
  enabling_research <- read_int_32 true ;;
  ret {| UnitConnection_id := id_;
     UnitConnection_status := status;
     UnitConnection_upper_building := upper_building;
     UnitConnection_common := common;
     UnitConnection_vertical_line := vertical_line;
     UnitConnection_units := units;
     UnitConnection_location_in_age := location_in_age;
     UnitConnection_required_research := required_research;
     UnitConnection_line_mode := line_mode;
     UnitConnection_enabling_research := enabling_research |}.

(** techtree.py:194-207 UnitConnection.to_bytes *)
Definition UnitConnection_to_bytes (self : UnitConnection) (version : Version) : res bytes :=
  join [
    write_int_32 (UnitConnection_id self) true;
    write_int_8 (UnitConnection_status self);
    write_int_32 (UnitConnection_upper_building self) true;
    write_class Common_to_bytes (UnitConnection_common self) version;
    write_int_32 (UnitConnection_vertical_line self) true;
    write_int_8 (len (UnitConnection_units self));
    write_int_32_array (UnitConnection_units self);
    write_int_32 (UnitConnection_location_in_age self) true;
    write_int_32 (UnitConnection_required_research self) true;
    write_int_32 (UnitConnection_line_mode self) true;
    write_int_32 (UnitConnection_enabling_research self) true ].

(** techtree.py:211-221 class ResearchConnection *)
Record ResearchConnection : Set := mkResearchConnection {
  ResearchConnection_id : Z;
  ResearchConnection_status : Z;
  ResearchConnection_upper_building : Z;
  ResearchConnection_buildings : list Z;
  ResearchConnection_units : list Z;
  ResearchConnection_techs : list Z;
  ResearchConnection_common : Common;
  ResearchConnection_vertical_line : Z;
  ResearchConnection_location_in_age : Z;
  ResearchConnection_line_mode : Z }.

(** techtree.py:224-249 ResearchConnection.from_bytes *)
Definition ResearchConnection_from_bytes : rd ResearchConnection :=
  id_ <- read_int_32 true ;;
  status <- read_int_8 ;;
  upper_building <- read_int_32 true ;;
  buildings_count <- read_int_8 ;;
  buildings <- read_int_32_array buildings_count ;;
  units_count <- read_int_8 ;;
  units <- read_int_32_array units_count ;;
  techs_count <- read_int_8 ;;
  techs <- read_int_32_array techs_count ;;
  common <- read_class Common_from_bytes ;;
  vertical_line <- read_int_32 true ;;
  location_in_age <- read_int_32 true ;;
  line_mode <- read_int_32 true ;;
  ret {| ResearchConnection_id := id_;
     ResearchConnection_status := status;
     ResearchConnection_upper_building := upper_building;
     ResearchConnection_buildings := buildings;
     ResearchConnection_units := units;
     ResearchConnection_techs := techs;
     ResearchConnection_common := common;
     ResearchConnection_vertical_line := vertical_line;
     ResearchConnection_location_in_age := location_in_age;
     ResearchConnection_line_mode := line_mode |}.

(** techtree.py:251-266 ResearchConnection.to_bytes *)
Definition ResearchConnection_to_bytes (self : ResearchConnection) (version : Version) : res bytes :=
  join [
    write_int_32 (ResearchConnection_id self) true;
    write_int_8 (ResearchConnection_status self);
    write_int_32 (ResearchConnection_upper_building self) true;
    write_int_8 (len (ResearchConnection_buildings self));
    write_int_32_array (ResearchConnection_buildings self);
    write_int_8 (len (ResearchConnection_units self));
    write_int_32_array (ResearchConnection_units self);
    write_int_8 (len (ResearchConnection_techs self));
    write_int_32_array (ResearchConnection_techs self);
    write_class Common_to_bytes (ResearchConnection_common self) version;
    write_int_32 (ResearchConnection_vertical_line self) true;
    write_int_32 (ResearchConnection_location_in_age self) true;
    write_int_32 (ResearchConnection_line_mode self) true ].

(** techtree.py:270-275 class TechTree *)
Record TechTree : Set := mkTechTree {
  TechTree_total_unit_tech_groups : Z;
  TechTree_tech_tree_ages : list TechTreeAge;
  TechTree_building_connections : list BuildingConnection;
  TechTree_unit_connections : list UnitConnection;
  TechTree_research_connections : list ResearchConnection }.

(** techtree.py:278-294 TechTree.from_bytes *)
Definition TechTree_from_bytes : rd TechTree :=
  age_count <- read_int_8 ;;
  building_count <- read_int_8 ;;
  unit_count <- read_int_8 ;;
  research_count <- read_int_8 ;;
  total_unit_tech_groups <- read_int_32 true ;;
  tech_tree_ages <- read_class_array TechTreeAge_from_bytes age_count ;;
  building_connections <- read_class_array BuildingConnection_from_bytes building_count ;;
  unit_connections <- read_class_array UnitConnection_from_bytes unit_count ;;
  research_connections <- read_class_array ResearchConnection_from_bytes research_count ;;
  ret {| TechTree_total_unit_tech_groups := total_unit_tech_groups;
     TechTree_tech_tree_ages := tech_tree_ages;
     TechTree_building_connections := building_connections;
     TechTree_unit_connections := unit_connections;
     TechTree_research_connections := research_connections |}.

(** techtree.py:296-307 TechTree.to_bytes *)
Definition TechTree_to_bytes (self : TechTree) (version : Version) : res bytes :=
  join [
    write_int_8 (len (TechTree_tech_tree_ages self));
    write_int_8 (len (TechTree_building_connections self));
    write_int_8 (len (TechTree_unit_connections self));
    write_int_8 (len (TechTree_research_connections self));
    write_int_32 (TechTree_total_unit_tech_groups self) true;
    write_class_array TechTreeAge_to_bytes (map Some (TechTree_tech_tree_ages self)) version;
    write_class_array BuildingConnection_to_bytes (map Some (TechTree_building_connections self)) version;
    write_class_array UnitConnection_to_bytes (map Some (TechTree_unit_connections self)) version;
    write_class_array ResearchConnection_to_bytes (map Some (TechTree_research_connections self)) version ].
