(** * Model of /repo/src/genieutils/unit.py

    Transcribed statement by statement (tools/gen_model.py); readers and writers come
    from the Python [from_bytes*] and [to_bytes*] respectively. *)
From Verif Require Import Base PyInt PyFloat PyStr PyStruct DataTypes Versions Common.
From Verif Require Import M_Task.
From Coq Require Import String.
Open Scope Z_scope.
Local Open Scope list_scope.

(** unit.py:8 *)
Definition unit_RESOURCE_STORAGE_FORMAT : string := "<hfb".
(** unit.py:9 *)
Definition unit_RESOURCE_STORAGE_FORMAT_LENGTH : nat := 7%nat.

(** unit.py:13-16 class ResourceStorage *)
Record ResourceStorage : Set := mkResourceStorage {
  ResourceStorage_type : Z;
  ResourceStorage_amount : f64;
  ResourceStorage_flag : Z }.

(** unit.py:19-26 ResourceStorage.from_bytes *)
Definition ResourceStorage_from_bytes : rd ResourceStorage :=
  vals <- read_struct unit_RESOURCE_STORAGE_FORMAT unit_RESOURCE_STORAGE_FORMAT_LENGTH ;;
  match vals with
  | [VInt type_; VFloat amount; VInt flag] =>
    ret {| ResourceStorage_type := type_;
     ResourceStorage_amount := amount;
     ResourceStorage_flag := flag |}
  | _ => raise ValueError
  end.

(** unit.py:28-29 ResourceStorage.to_bytes *)
Definition ResourceStorage_to_bytes (self : ResourceStorage) (version : Version) : res bytes :=
  (struct_pack unit_RESOURCE_STORAGE_FORMAT
      ([VInt (ResourceStorage_type self);
       VFloat (ResourceStorage_amount self);
       VInt (ResourceStorage_flag self)])).
(** unit.py:32 *)
Definition unit_DAMAGE_GRAPHIC_FORMAT : string := "<hhb".
(** unit.py:33 *)
Definition unit_DAMAGE_GRAPHIC_FORMAT_LENGTH : nat := 5%nat.

(** unit.py:37-40 class DamageGraphic *)
Record DamageGraphic : Set := mkDamageGraphic {
  DamageGraphic_graphic_id : Z;
  DamageGraphic_damage_percent : Z;
  DamageGraphic_apply_mode : Z }.

(** unit.py:43-51 DamageGraphic.from_bytes *)
Definition DamageGraphic_from_bytes : rd DamageGraphic :=
  vals <- read_struct unit_DAMAGE_GRAPHIC_FORMAT unit_DAMAGE_GRAPHIC_FORMAT_LENGTH ;;
  match vals with
  | [VInt graphic_id; VInt damage_percent; VInt apply_mode] =>
    ret {| DamageGraphic_graphic_id := graphic_id;
     DamageGraphic_damage_percent := damage_percent;
     DamageGraphic_apply_mode := apply_mode |}
  | _ => raise ValueError
  end.

(** unit.py:53-54 DamageGraphic.to_bytes *)
Definition DamageGraphic_to_bytes (self : DamageGraphic) (version : Version) : res bytes :=
  (struct_pack unit_DAMAGE_GRAPHIC_FORMAT
      ([VInt (DamageGraphic_graphic_id self);
       VInt (DamageGraphic_damage_percent self);
       VInt (DamageGraphic_apply_mode self)])).
(** unit.py:57 *)
Definition unit_DEAD_FISH_FORMAT : string := "<hhfbhbfbffffff".
(** unit.py:58 *)
Definition unit_DEAD_FISH_FORMAT_LENGTH : nat := 41%nat.

(** unit.py:62-76 class DeadFish *)
Record DeadFish : Set := mkDeadFish {
  DeadFish_walking_graphic : Z;
  DeadFish_running_graphic : Z;
  DeadFish_rotation_speed : f64;
  DeadFish_old_size_class : Z;
  DeadFish_tracking_unit : Z;
  DeadFish_tracking_unit_mode : Z;
  DeadFish_tracking_unit_density : f64;
  DeadFish_old_move_algorithm : Z;
  DeadFish_turn_radius : f64;
  DeadFish_turn_radius_speed : f64;
  DeadFish_max_yaw_per_second_moving : f64;
  DeadFish_stationary_yaw_revolution_time : f64;
  DeadFish_max_yaw_per_second_stationary : f64;
  DeadFish_min_collision_size_multiplier : f64 }.

(** unit.py:79-110 DeadFish.from_bytes *)
Definition DeadFish_from_bytes : rd DeadFish :=
  vals <- read_struct unit_DEAD_FISH_FORMAT unit_DEAD_FISH_FORMAT_LENGTH ;;
  match vals with
  | [VInt walking_graphic; VInt running_graphic; VFloat rotation_speed; VInt old_size_class; VInt tracking_unit; VInt tracking_unit_mode; VFloat tracking_unit_density; VInt old_move_algorithm; VFloat turn_radius; VFloat turn_radius_speed; VFloat max_yaw_per_second_moving; VFloat stationary_yaw_revolution_time; VFloat max_yaw_per_second_stationary; VFloat min_collision_size_multiplier] =>
    ret {| DeadFish_walking_graphic := walking_graphic;
     DeadFish_running_graphic := running_graphic;
     DeadFish_rotation_speed := rotation_speed;
     DeadFish_old_size_class := old_size_class;
     DeadFish_tracking_unit := tracking_unit;
     DeadFish_tracking_unit_mode := tracking_unit_mode;
     DeadFish_tracking_unit_density := tracking_unit_density;
     DeadFish_old_move_algorithm := old_move_algorithm;
     DeadFish_turn_radius := turn_radius;
     DeadFish_turn_radius_speed := turn_radius_speed;
     DeadFish_max_yaw_per_second_moving := max_yaw_per_second_moving;
     DeadFish_stationary_yaw_revolution_time := stationary_yaw_revolution_time;
     DeadFish_max_yaw_per_second_stationary := max_yaw_per_second_stationary;
     DeadFish_min_collision_size_multiplier := min_collision_size_multiplier |}
  | _ => raise ValueError
  end.

(** unit.py:112-128 DeadFish.to_bytes *)
Definition DeadFish_to_bytes (self : DeadFish) (version : Version) : res bytes :=
  (struct_pack unit_DEAD_FISH_FORMAT
      ([VInt (DeadFish_walking_graphic self);
       VInt (DeadFish_running_graphic self);
       VFloat (DeadFish_rotation_speed self);
       VInt (DeadFish_old_size_class self);
       VInt (DeadFish_tracking_unit self);
       VInt (DeadFish_tracking_unit_mode self);
       VFloat (DeadFish_tracking_unit_density self);
       VInt (DeadFish_old_move_algorithm self);
       VFloat (DeadFish_turn_radius self);
       VFloat (DeadFish_turn_radius_speed self);
       VFloat (DeadFish_max_yaw_per_second_moving self);
       VFloat (DeadFish_stationary_yaw_revolution_time self);
       VFloat (DeadFish_max_yaw_per_second_stationary self);
       VFloat (DeadFish_min_collision_size_multiplier self)])).

(** unit.py:132-143 class Bird *)
Record Bird : Set := mkBird {
  Bird_default_task_id : Z;
  Bird_search_radius : f64;
  Bird_work_rate : f64;
  Bird_drop_sites : list Z;
  Bird_task_swap_group : Z;
  Bird_attack_sound : Z;
  Bird_move_sound : Z;
  Bird_wwise_attack_sound_id : Z;
  Bird_wwise_move_sound_id : Z;
  Bird_run_pattern : Z;
  Bird_tasks : list Task }.

(** unit.py:146-174 Bird.from_bytes *)
Definition Bird_from_bytes : rd Bird :=
  default_task_id <- read_int_16 true ;;
  search_radius <- read_float ;;
  work_rate <- read_float ;;
  let drop_sites_size := 3 in
  version <- get_version ;;
  drop_sites_size <-
    (if version_gt version VER_77 then
      drop_sites_size <- read_int_16 true ;;
      ret drop_sites_size
     else ret drop_sites_size) ;;
  drop_sites <- read_int_16_array drop_sites_size ;;
  task_swap_group <- read_int_8 ;;
  attack_sound <- read_int_16 true ;;
  move_sound <- read_int_16 true ;;
  wwise_attack_sound_id <- read_int_32 true ;;
  wwise_move_sound_id <- read_int_32 true ;;
  run_pattern <- read_int_8 ;;
  task_size <- read_int_16 true ;;
  tasks <- read_class_array Task_from_bytes task_size ;;
  ret {| Bird_default_task_id := default_task_id;
     Bird_search_radius := search_radius;
     Bird_work_rate := work_rate;
     Bird_drop_sites := drop_sites;
     Bird_task_swap_group := task_swap_group;
     Bird_attack_sound := attack_sound;
     Bird_move_sound := move_sound;
     Bird_wwise_attack_sound_id := wwise_attack_sound_id;
     Bird_wwise_move_sound_id := wwise_move_sound_id;
     Bird_run_pattern := run_pattern;
     Bird_tasks := tasks |}.

(** unit.py:176-191 Bird.to_bytes *)
Definition Bird_to_bytes (self : Bird) (version : Version) : res bytes :=
  join [
    write_int_16 (Bird_default_task_id self) true true;
    write_float (Bird_search_radius self);
    write_float (Bird_work_rate self);
    write_int_16 (len (Bird_drop_sites self)) true (version_ge version VER_78);
    write_int_16_array (Bird_drop_sites self);
    write_int_8 (Bird_task_swap_group self);
    write_int_16 (Bird_attack_sound self) true true;
    write_int_16 (Bird_move_sound self) true true;
    write_int_32 (Bird_wwise_attack_sound_id self) true;
    write_int_32 (Bird_wwise_move_sound_id self) true;
    write_int_8 (Bird_run_pattern self);
    write_int_16 (len (Bird_tasks self)) true true;
    write_class_array Task_to_bytes (map Some (Bird_tasks self)) version ].
(** unit.py:194 *)
Definition unit_ATTACK_OR_ARMOR_FORMAT : string := "<hh".
(** unit.py:195 *)
Definition unit_ATTACK_OR_ARMOR_FORMAT_LENGTH : nat := 4%nat.

(** unit.py:199-201 class AttackOrArmor *)
Record AttackOrArmor : Set := mkAttackOrArmor {
  AttackOrArmor_class_ : Z;
  AttackOrArmor_amount : Z }.

(** unit.py:204-209 AttackOrArmor.from_bytes *)
Definition AttackOrArmor_from_bytes : rd AttackOrArmor :=
  vals <- read_struct unit_ATTACK_OR_ARMOR_FORMAT unit_ATTACK_OR_ARMOR_FORMAT_LENGTH ;;
  match vals with
  | [VInt class_; VInt amount] =>
    ret {| AttackOrArmor_class_ := class_;
     AttackOrArmor_amount := amount |}
  | _ => raise ValueError
  end.

(** unit.py:211-212 AttackOrArmor.to_bytes *)
Definition AttackOrArmor_to_bytes (self : AttackOrArmor) (version : Version) : res bytes :=
  (struct_pack unit_ATTACK_OR_ARMOR_FORMAT
      ([VInt (AttackOrArmor_class_ self);
       VInt (AttackOrArmor_amount self)])).

(** unit.py:216-243 class Type50 *)
Record Type50 : Set := mkType50 {
  Type50_base_armor : Z;
  Type50_attacks : list AttackOrArmor;
  Type50_armours : list AttackOrArmor;
  Type50_defense_terrain_bonus : Z;
  Type50_bonus_damage_resistance : f64;
  Type50_max_range : f64;
  Type50_blast_width : f64;
  Type50_reload_time : f64;
  Type50_projectile_unit_id : Z;
  Type50_accuracy_percent : Z;
  Type50_break_off_combat : Z;
  Type50_frame_delay : Z;
  Type50_graphic_displacement : list f64;
  Type50_blast_attack_level : Z;
  Type50_min_range : f64;
  Type50_accuracy_dispersion : f64;
  Type50_attack_graphic : Z;
  Type50_displayed_melee_armour : Z;
  Type50_displayed_attack : Z;
  Type50_displayed_range : f64;
  Type50_displayed_reload_time : f64;
  Type50_blast_damage : f64;
  Type50_damage_reflection : f64;
  Type50_friendly_fire_damage : f64;
  Type50_interrupt_frame : Z;
  Type50_garrison_firepower : f64;
  Type50_attack_graphic_2 : Z }.

(** unit.py:246-310 Type50.from_bytes *)
Definition Type50_from_bytes : rd Type50 :=
  base_armor <- read_int_16 true ;;
  attack_count <- read_int_16 true ;;
  attacks <- read_class_array AttackOrArmor_from_bytes attack_count ;;
  armour_count <- read_int_16 true ;;
  armours <- read_class_array AttackOrArmor_from_bytes armour_count ;;
  defense_terrain_bonus <- read_int_16 true ;;
  bonus_damage_resistance <- read_float ;;
  max_range <- read_float ;;
  blast_width <- read_float ;;
  reload_time <- read_float ;;
  projectile_unit_id <- read_int_16 true ;;
  accuracy_percent <- read_int_16 true ;;
  break_off_combat <- read_int_8 ;;
  frame_delay <- read_int_16 true ;;
  graphic_displacement <- read_float_array_3 ;;
  blast_attack_level <- read_int_8 ;;
  min_range <- read_float ;;
  accuracy_dispersion <- read_float ;;
  attack_graphic <- read_int_16 true ;;
  displayed_melee_armour <- read_int_16 true ;;
  displayed_attack <- read_int_16 true ;;
  displayed_range <- read_float ;;
  displayed_reload_time <- read_float ;;
  blast_damage <- read_float ;;
  let damage_reflection := f64_zero in
  let friendly_fire_damage := f64_one in
  let interrupt_frame := (-1) in
  let garrison_firepower := f64_zero in
  let attack_graphic_2 := (-1) in
  version <- get_version ;;
  '(damage_reflection, friendly_fire_damage, interrupt_frame, garrison_firepower, attack_graphic_2) <-
    (if version_ge version VER_84 then
      damage_reflection <- read_float ;;
      friendly_fire_damage <- read_float ;;
      interrupt_frame <- read_int_16 true ;;
      garrison_firepower <- read_float ;;
      attack_graphic_2 <- read_int_16 true ;;
      ret (damage_reflection, friendly_fire_damage, interrupt_frame, garrison_firepower, attack_graphic_2)
     else ret (damage_reflection, friendly_fire_damage, interrupt_frame, garrison_firepower, attack_graphic_2)) ;;
  ret {| Type50_base_armor := base_armor;
     Type50_attacks := attacks;
     Type50_armours := armours;
     Type50_defense_terrain_bonus := defense_terrain_bonus;
     Type50_bonus_damage_resistance := bonus_damage_resistance;
     Type50_max_range := max_range;
     Type50_blast_width := blast_width;
     Type50_reload_time := reload_time;
     Type50_projectile_unit_id := projectile_unit_id;
     Type50_accuracy_percent := accuracy_percent;
     Type50_break_off_combat := break_off_combat;
     Type50_frame_delay := frame_delay;
     Type50_graphic_displacement := graphic_displacement;
     Type50_blast_attack_level := blast_attack_level;
     Type50_min_range := min_range;
     Type50_accuracy_dispersion := accuracy_dispersion;
     Type50_attack_graphic := attack_graphic;
     Type50_displayed_melee_armour := displayed_melee_armour;
     Type50_displayed_attack := displayed_attack;
     Type50_displayed_range := displayed_range;
     Type50_displayed_reload_time := displayed_reload_time;
     Type50_blast_damage := blast_damage;
     Type50_damage_reflection := damage_reflection;
     Type50_friendly_fire_damage := friendly_fire_damage;
     Type50_interrupt_frame := interrupt_frame;
     Type50_garrison_firepower := garrison_firepower;
     Type50_attack_graphic_2 := attack_graphic_2 |}.

(** unit.py:312-347 Type50.to_bytes *)
Definition Type50_to_bytes (self : Type50) (version : Version) : res bytes :=
  value <-- join [
    write_int_16 (Type50_base_armor self) true true;
    write_int_16 (len (Type50_attacks self)) true true;
    write_class_array AttackOrArmor_to_bytes (map Some (Type50_attacks self)) version;
    write_int_16 (len (Type50_armours self)) true true;
    write_class_array AttackOrArmor_to_bytes (map Some (Type50_armours self)) version;
    write_int_16 (Type50_defense_terrain_bonus self) true true;
    write_float (Type50_bonus_damage_resistance self);
    write_float (Type50_max_range self);
    write_float (Type50_blast_width self);
    write_float (Type50_reload_time self);
    write_int_16 (Type50_projectile_unit_id self) true true;
    write_int_16 (Type50_accuracy_percent self) true true;
    write_int_8 (Type50_break_off_combat self);
    write_int_16 (Type50_frame_delay self) true true;
    write_float_array (Type50_graphic_displacement self);
    write_int_8 (Type50_blast_attack_level self);
    write_float (Type50_min_range self);
    write_float (Type50_accuracy_dispersion self);
    write_int_16 (Type50_attack_graphic self) true true;
    write_int_16 (Type50_displayed_melee_armour self) true true;
    write_int_16 (Type50_displayed_attack self) true true;
    write_float (Type50_displayed_range self);
    write_float (Type50_displayed_reload_time self);
    write_float (Type50_blast_damage self) ] ;;;
  value <--
    (if version_ge version VER_84 then
      value <-- (Ok value +++ join [
    write_float (Type50_damage_reflection self);
    write_float (Type50_friendly_fire_damage self);
    write_int_16 (Type50_interrupt_frame self) true true;
    write_float (Type50_garrison_firepower self);
    write_int_16 (Type50_attack_graphic_2 self) true true ]) ;;;
      Ok value
     else Ok value) ;;;
  Ok value.
(** unit.py:350 *)
Definition unit_PROJECTILE_FORMAT : string := "<bbbbbf".
(** unit.py:351 *)
Definition unit_PROJECTILE_FORMAT_LENGTH : nat := 9%nat.

(** unit.py:355-361 class Projectile *)
Record Projectile : Set := mkProjectile {
  Projectile_projectile_type : Z;
  Projectile_smart_mode : Z;
  Projectile_hit_mode : Z;
  Projectile_vanish_mode : Z;
  Projectile_area_effect_specials : Z;
  Projectile_projectile_arc : f64 }.

(** unit.py:364-378 Projectile.from_bytes *)
Definition Projectile_from_bytes : rd Projectile :=
  vals <- read_struct unit_PROJECTILE_FORMAT unit_PROJECTILE_FORMAT_LENGTH ;;
  match vals with
  | [VInt projectile_type; VInt smart_mode; VInt hit_mode; VInt vanish_mode; VInt area_effect_specials; VFloat projectile_arc] =>
    ret {| Projectile_projectile_type := projectile_type;
     Projectile_smart_mode := smart_mode;
     Projectile_hit_mode := hit_mode;
     Projectile_vanish_mode := vanish_mode;
     Projectile_area_effect_specials := area_effect_specials;
     Projectile_projectile_arc := projectile_arc |}
  | _ => raise ValueError
  end.

(** unit.py:380-388 Projectile.to_bytes *)
Definition Projectile_to_bytes (self : Projectile) (version : Version) : res bytes :=
  (struct_pack unit_PROJECTILE_FORMAT
      ([VInt (Projectile_projectile_type self);
       VInt (Projectile_smart_mode self);
       VInt (Projectile_hit_mode self);
       VInt (Projectile_vanish_mode self);
       VInt (Projectile_area_effect_specials self);
       VFloat (Projectile_projectile_arc self)])).
(** unit.py:391 *)
Definition unit_RESOURCE_COST_FORMAT : string := "<hhh".
(** unit.py:392 *)
Definition unit_RESOURCE_COST_FORMAT_LENGTH : nat := 6%nat.

(** unit.py:396-399 class ResourceCost *)
Record ResourceCost : Set := mkResourceCost {
  ResourceCost_type : Z;
  ResourceCost_amount : Z;
  ResourceCost_flag : Z }.

(** unit.py:402-408 ResourceCost.from_bytes *)
Definition ResourceCost_from_bytes : rd ResourceCost :=
  vals <- read_struct unit_RESOURCE_COST_FORMAT unit_RESOURCE_COST_FORMAT_LENGTH ;;
  match vals with
  | [VInt type_; VInt amount; VInt flag] =>
    ret {| ResourceCost_type := type_;
     ResourceCost_amount := amount;
     ResourceCost_flag := flag |}
  | _ => raise ValueError
  end.

(** unit.py:410-411 ResourceCost.to_bytes *)
Definition ResourceCost_to_bytes (self : ResourceCost) (version : Version) : res bytes :=
  (struct_pack unit_RESOURCE_COST_FORMAT
      ([VInt (ResourceCost_type self);
       VInt (ResourceCost_amount self);
       VInt (ResourceCost_flag self)])).
(** unit.py:414 *)
Definition unit_TRAIN_LOCATION_FORMAT : string := "<hhb".
(** unit.py:415 *)
Definition unit_TRAIN_LOCATOIN_FORMAT_LENGTH : nat := calcsize unit_TRAIN_LOCATION_FORMAT.
(** unit.py:417 *)
Definition unit_TRAIN_LOCATION_FORMAT_88 : string := "<hhbl".
(** unit.py:418 *)
Definition unit_TRAIN_LOCATOIN_FORMAT_LENGTH_88 : nat := calcsize unit_TRAIN_LOCATION_FORMAT_88.

(** unit.py:422-426 class TrainLocation *)
Record TrainLocation : Set := mkTrainLocation {
  TrainLocation_train_time : Z;
  TrainLocation_unit_id : Z;
  TrainLocation_button_id : Z;
  TrainLocation_hot_key_id : Z }.
(** attribute assignment [x.hot_key_id = v] (unit.py:1243-1246) *)
Definition set_TrainLocation_hot_key_id (v : Z) (x : TrainLocation) : TrainLocation :=
  {| TrainLocation_train_time := (TrainLocation_train_time x);
     TrainLocation_unit_id := (TrainLocation_unit_id x);
     TrainLocation_button_id := (TrainLocation_button_id x);
     TrainLocation_hot_key_id := v |}.

(** unit.py:435-444 TrainLocation.from_bytes_84 *)
Definition TrainLocation_from_bytes_84 : rd TrainLocation :=
  vals <- read_struct unit_TRAIN_LOCATION_FORMAT unit_TRAIN_LOCATOIN_FORMAT_LENGTH ;;
  match vals with
  | [VInt train_time; VInt unit_id; VInt button_id] =>
    ret {| TrainLocation_train_time := train_time;
     TrainLocation_unit_id := unit_id;
     TrainLocation_button_id := button_id;
     TrainLocation_hot_key_id := 16000 |}
  | _ => raise ValueError
  end.

(** unit.py:447-457 TrainLocation.from_bytes_88 *)
Definition TrainLocation_from_bytes_88 : rd TrainLocation :=
  vals <- read_struct unit_TRAIN_LOCATION_FORMAT_88 unit_TRAIN_LOCATOIN_FORMAT_LENGTH_88 ;;
  match vals with
  | [VInt train_time; VInt unit_id; VInt button_id; VInt hot_key_id] =>
    ret {| TrainLocation_train_time := train_time;
     TrainLocation_unit_id := unit_id;
     TrainLocation_button_id := button_id;
     TrainLocation_hot_key_id := hot_key_id |}
  | _ => raise ValueError
  end.

(** unit.py:429-432 TrainLocation.from_bytes *)
Definition TrainLocation_from_bytes : rd TrainLocation :=
  version <- get_version ;;
  if version_ge version VER_88 then TrainLocation_from_bytes_88
  else (
    TrainLocation_from_bytes_84).

(** unit.py:459-462 TrainLocation.to_bytes *)
Definition TrainLocation_to_bytes (self : TrainLocation) (version : Version) : res bytes :=
  if version_ge version VER_88 then (struct_pack unit_TRAIN_LOCATION_FORMAT_88
      ([VInt (TrainLocation_train_time self);
       VInt (TrainLocation_unit_id self);
       VInt (TrainLocation_button_id self);
       VInt (TrainLocation_hot_key_id self)]))
  else (
    (struct_pack unit_TRAIN_LOCATION_FORMAT
      ([VInt (TrainLocation_train_time self);
       VInt (TrainLocation_unit_id self);
       VInt (TrainLocation_button_id self)]))).
(** unit.py:465 *)
Definition unit_CREATABLE_FORMAT : string := "<hhbffbblhhhffhhffffbfffllbh".
(** unit.py:466 *)
Definition unit_CREATABLE_FORMAT_LENGTH : nat := 77%nat.
(** unit.py:467 *)
Definition unit_CREATABLE_FORMAT_84 : string := "<hhbffbblhhhhffhhhlbfhllhffffbfffllbh".
(** unit.py:468 *)
Definition unit_CREATABLE_FORMAT_LENGTH_84 : nat := calcsize unit_CREATABLE_FORMAT_84.
(** unit.py:469 *)
Definition unit_CREATABLE_FORMAT_88 : string := "<ffbblhhhhffhhhlbfhllhffffbfffllbh".
(** unit.py:470 *)
Definition unit_CREATABLE_FORMAT_LENGTH_88 : nat := calcsize unit_CREATABLE_FORMAT_88.

(** unit.py:474-507 class Creatable *)
Record Creatable : Set := mkCreatable {
  Creatable_resource_costs : list ResourceCost;
  Creatable_train_locations : list TrainLocation;
  Creatable_rear_attack_modifier : f64;
  Creatable_flank_attack_modifier : f64;
  Creatable_creatable_type : Z;
  Creatable_hero_mode : Z;
  Creatable_garrison_graphic : Z;
  Creatable_spawning_graphic : Z;
  Creatable_upgrade_graphic : Z;
  Creatable_hero_glow_graphic : Z;
  Creatable_idle_attack_graphic : Z;
  Creatable_max_charge : f64;
  Creatable_recharge_rate : f64;
  Creatable_charge_event : Z;
  Creatable_charge_type : Z;
  Creatable_charge_target : Z;
  Creatable_charge_projectile_unit : Z;
  Creatable_attack_priority : Z;
  Creatable_invulnerability_level : f64;
  Creatable_button_icon_id : Z;
  Creatable_button_short_tooltip_id : Z;
  Creatable_button_extended_tooltip_id : Z;
  Creatable_button_hotkey_action : Z;
  Creatable_min_conversion_time_mod : f64;
  Creatable_max_conversion_time_mod : f64;
  Creatable_conversion_chance_mod : f64;
  Creatable_total_projectiles : f64;
  Creatable_max_total_projectiles : Z;
  Creatable_projectile_spawning_area : list f64;
  Creatable_secondary_projectile_unit : Z;
  Creatable_special_graphic : Z;
  Creatable_special_ability : Z;
  Creatable_displayed_pierce_armour : Z }.
(** attribute assignment [x.train_locations = v] (unit.py:1243-1246) *)
Definition set_Creatable_train_locations (v : list TrainLocation) (x : Creatable) : Creatable :=
  {| Creatable_resource_costs := (Creatable_resource_costs x);
     Creatable_train_locations := v;
     Creatable_rear_attack_modifier := (Creatable_rear_attack_modifier x);
     Creatable_flank_attack_modifier := (Creatable_flank_attack_modifier x);
     Creatable_creatable_type := (Creatable_creatable_type x);
     Creatable_hero_mode := (Creatable_hero_mode x);
     Creatable_garrison_graphic := (Creatable_garrison_graphic x);
     Creatable_spawning_graphic := (Creatable_spawning_graphic x);
     Creatable_upgrade_graphic := (Creatable_upgrade_graphic x);
     Creatable_hero_glow_graphic := (Creatable_hero_glow_graphic x);
     Creatable_idle_attack_graphic := (Creatable_idle_attack_graphic x);
     Creatable_max_charge := (Creatable_max_charge x);
     Creatable_recharge_rate := (Creatable_recharge_rate x);
     Creatable_charge_event := (Creatable_charge_event x);
     Creatable_charge_type := (Creatable_charge_type x);
     Creatable_charge_target := (Creatable_charge_target x);
     Creatable_charge_projectile_unit := (Creatable_charge_projectile_unit x);
     Creatable_attack_priority := (Creatable_attack_priority x);
     Creatable_invulnerability_level := (Creatable_invulnerability_level x);
     Creatable_button_icon_id := (Creatable_button_icon_id x);
     Creatable_button_short_tooltip_id := (Creatable_button_short_tooltip_id x);
     Creatable_button_extended_tooltip_id := (Creatable_button_extended_tooltip_id x);
     Creatable_button_hotkey_action := (Creatable_button_hotkey_action x);
     Creatable_min_conversion_time_mod := (Creatable_min_conversion_time_mod x);
     Creatable_max_conversion_time_mod := (Creatable_max_conversion_time_mod x);
     Creatable_conversion_chance_mod := (Creatable_conversion_chance_mod x);
     Creatable_total_projectiles := (Creatable_total_projectiles x);
     Creatable_max_total_projectiles := (Creatable_max_total_projectiles x);
     Creatable_projectile_spawning_area := (Creatable_projectile_spawning_area x);
     Creatable_secondary_projectile_unit := (Creatable_secondary_projectile_unit x);
     Creatable_special_graphic := (Creatable_special_graphic x);
     Creatable_special_ability := (Creatable_special_ability x);
     Creatable_displayed_pierce_armour := (Creatable_displayed_pierce_armour x) |}.

(** unit.py:518-596 Creatable.from_bytes_78 *)
Definition Creatable_from_bytes_78 : rd Creatable :=
  resource_costs <- read_class_array_3 ResourceCost_from_bytes ;;
  vals <- read_struct unit_CREATABLE_FORMAT unit_CREATABLE_FORMAT_LENGTH ;;
  match vals with
  | [VInt train_time; VInt train_location_id; VInt button_id; VFloat rear_attack_modifier; VFloat flank_attack_modifier; VInt creatable_type; VInt hero_mode; VInt garrison_graphic; VInt spawning_graphic; VInt upgrade_graphic; VInt hero_glow_graphic; VFloat max_charge; VFloat recharge_rate; VInt charge_event; VInt charge_type; VFloat min_conversion_time_mod; VFloat max_conversion_time_mod; VFloat conversion_chance_mod; VFloat total_projectiles; VInt max_total_projectiles; VFloat projectile_spawning_area_1; VFloat projectile_spawning_area_2; VFloat projectile_spawning_area_3; VInt secondary_projectile_unit; VInt special_graphic; VInt special_ability; VInt displayed_pierce_armour] =>
    let idle_attack_graphic := (-1) in
    let charge_target := 0 in
    let charge_projectile_unit := (-1) in
    let attack_priority := 0 in
    let invulnerability_level := f64_zero in  (* Python int 0; 0 == 0.0 *)
    let button_icon_id := (-1) in
    let button_short_tooltip_id := (-1) in
    let button_extended_tooltip_id := (-1) in
    let button_hotkey_action := (-1) in
    let train_locations := [{| TrainLocation_train_time := train_time;
     TrainLocation_unit_id := train_location_id;
     TrainLocation_button_id := button_id;
     TrainLocation_hot_key_id := 16000 |}] in
    ret {| Creatable_resource_costs := resource_costs;
     Creatable_train_locations := train_locations;
     Creatable_rear_attack_modifier := rear_attack_modifier;
     Creatable_flank_attack_modifier := flank_attack_modifier;
     Creatable_creatable_type := creatable_type;
     Creatable_hero_mode := hero_mode;
     Creatable_garrison_graphic := garrison_graphic;
     Creatable_spawning_graphic := spawning_graphic;
     Creatable_upgrade_graphic := upgrade_graphic;
     Creatable_hero_glow_graphic := hero_glow_graphic;
     Creatable_idle_attack_graphic := idle_attack_graphic;
     Creatable_max_charge := max_charge;
     Creatable_recharge_rate := recharge_rate;
     Creatable_charge_event := charge_event;
     Creatable_charge_type := charge_type;
     Creatable_charge_target := charge_target;
     Creatable_charge_projectile_unit := charge_projectile_unit;
     Creatable_attack_priority := attack_priority;
     Creatable_invulnerability_level := invulnerability_level;
     Creatable_button_icon_id := button_icon_id;
     Creatable_button_short_tooltip_id := button_short_tooltip_id;
     Creatable_button_extended_tooltip_id := button_extended_tooltip_id;
     Creatable_button_hotkey_action := button_hotkey_action;
     Creatable_min_conversion_time_mod := min_conversion_time_mod;
     Creatable_max_conversion_time_mod := max_conversion_time_mod;
     Creatable_conversion_chance_mod := conversion_chance_mod;
     Creatable_total_projectiles := total_projectiles;
     Creatable_max_total_projectiles := max_total_projectiles;
     Creatable_projectile_spawning_area := [projectile_spawning_area_1; projectile_spawning_area_2; projectile_spawning_area_3];
     Creatable_secondary_projectile_unit := secondary_projectile_unit;
     Creatable_special_graphic := special_graphic;
     Creatable_special_ability := special_ability;
     Creatable_displayed_pierce_armour := displayed_pierce_armour |}
  | _ => raise ValueError
  end.

(** unit.py:599-678 Creatable.from_bytes_84 *)
Definition Creatable_from_bytes_84 : rd Creatable :=
  resource_costs <- read_class_array_3 ResourceCost_from_bytes ;;
  vals <- read_struct unit_CREATABLE_FORMAT_84 unit_CREATABLE_FORMAT_LENGTH_84 ;;
  match vals with
  | [VInt train_time; VInt train_location_id; VInt button_id; VFloat rear_attack_modifier; VFloat flank_attack_modifier; VInt creatable_type; VInt hero_mode; VInt garrison_graphic; VInt spawning_graphic; VInt upgrade_graphic; VInt hero_glow_graphic; VInt idle_attack_graphic; VFloat max_charge; VFloat recharge_rate; VInt charge_event; VInt charge_type; VInt charge_target; VInt charge_projectile_unit; VInt attack_priority; VFloat invulnerability_level; VInt button_icon_id; VInt button_short_tooltip_id; VInt button_extended_tooltip_id; VInt button_hotkey_action; VFloat min_conversion_time_mod; VFloat max_conversion_time_mod; VFloat conversion_chance_mod; VFloat total_projectiles; VInt max_total_projectiles; VFloat projectile_spawning_area_1; VFloat projectile_spawning_area_2; VFloat projectile_spawning_area_3; VInt secondary_projectile_unit; VInt special_graphic; VInt special_ability; VInt displayed_pierce_armour] =>
    let train_locations := [{| TrainLocation_train_time := train_time;
     TrainLocation_unit_id := train_location_id;
     TrainLocation_button_id := button_id;
     TrainLocation_hot_key_id := 16000 |}] in
    ret {| Creatable_resource_costs := resource_costs;
     Creatable_train_locations := train_locations;
     Creatable_rear_attack_modifier := rear_attack_modifier;
     Creatable_flank_attack_modifier := flank_attack_modifier;
     Creatable_creatable_type := creatable_type;
     Creatable_hero_mode := hero_mode;
     Creatable_garrison_graphic := garrison_graphic;
     Creatable_spawning_graphic := spawning_graphic;
     Creatable_upgrade_graphic := upgrade_graphic;
     Creatable_hero_glow_graphic := hero_glow_graphic;
     Creatable_idle_attack_graphic := idle_attack_graphic;
     Creatable_max_charge := max_charge;
     Creatable_recharge_rate := recharge_rate;
     Creatable_charge_event := charge_event;
     Creatable_charge_type := charge_type;
     Creatable_charge_target := charge_target;
     Creatable_charge_projectile_unit := charge_projectile_unit;
     Creatable_attack_priority := attack_priority;
     Creatable_invulnerability_level := invulnerability_level;
     Creatable_button_icon_id := button_icon_id;
     Creatable_button_short_tooltip_id := button_short_tooltip_id;
     Creatable_button_extended_tooltip_id := button_extended_tooltip_id;
     Creatable_button_hotkey_action := button_hotkey_action;
     Creatable_min_conversion_time_mod := min_conversion_time_mod;
     Creatable_max_conversion_time_mod := max_conversion_time_mod;
     Creatable_conversion_chance_mod := conversion_chance_mod;
     Creatable_total_projectiles := total_projectiles;
     Creatable_max_total_projectiles := max_total_projectiles;
     Creatable_projectile_spawning_area := [projectile_spawning_area_1; projectile_spawning_area_2; projectile_spawning_area_3];
     Creatable_secondary_projectile_unit := secondary_projectile_unit;
     Creatable_special_graphic := special_graphic;
     Creatable_special_ability := special_ability;
     Creatable_displayed_pierce_armour := displayed_pierce_armour |}
  | _ => raise ValueError
  end.

(** unit.py:681-756 Creatable.from_bytes_88 *)
Definition Creatable_from_bytes_88 : rd Creatable :=
  resource_costs <- read_class_array_3 ResourceCost_from_bytes ;;
  train_location_count <- read_int_16 true ;;
  train_locations <- read_class_array TrainLocation_from_bytes train_location_count ;;
  vals <- read_struct unit_CREATABLE_FORMAT_88 unit_CREATABLE_FORMAT_LENGTH_88 ;;
  match vals with
  | [VFloat rear_attack_modifier; VFloat flank_attack_modifier; VInt creatable_type; VInt hero_mode; VInt garrison_graphic; VInt spawning_graphic; VInt upgrade_graphic; VInt hero_glow_graphic; VInt idle_attack_graphic; VFloat max_charge; VFloat recharge_rate; VInt charge_event; VInt charge_type; VInt charge_target; VInt charge_projectile_unit; VInt attack_priority; VFloat invulnerability_level; VInt button_icon_id; VInt button_short_tooltip_id; VInt button_extended_tooltip_id; VInt button_hotkey_action; VFloat min_conversion_time_mod; VFloat max_conversion_time_mod; VFloat conversion_chance_mod; VFloat total_projectiles; VInt max_total_projectiles; VFloat projectile_spawning_area_1; VFloat projectile_spawning_area_2; VFloat projectile_spawning_area_3; VInt secondary_projectile_unit; VInt special_graphic; VInt special_ability; VInt displayed_pierce_armour] =>
    ret {| Creatable_resource_costs := resource_costs;
     Creatable_train_locations := train_locations;
     Creatable_rear_attack_modifier := rear_attack_modifier;
     Creatable_flank_attack_modifier := flank_attack_modifier;
     Creatable_creatable_type := creatable_type;
     Creatable_hero_mode := hero_mode;
     Creatable_garrison_graphic := garrison_graphic;
     Creatable_spawning_graphic := spawning_graphic;
     Creatable_upgrade_graphic := upgrade_graphic;
     Creatable_hero_glow_graphic := hero_glow_graphic;
     Creatable_idle_attack_graphic := idle_attack_graphic;
     Creatable_max_charge := max_charge;
     Creatable_recharge_rate := recharge_rate;
     Creatable_charge_event := charge_event;
     Creatable_charge_type := charge_type;
     Creatable_charge_target := charge_target;
     Creatable_charge_projectile_unit := charge_projectile_unit;
     Creatable_attack_priority := attack_priority;
     Creatable_invulnerability_level := invulnerability_level;
     Creatable_button_icon_id := button_icon_id;
     Creatable_button_short_tooltip_id := button_short_tooltip_id;
     Creatable_button_extended_tooltip_id := button_extended_tooltip_id;
     Creatable_button_hotkey_action := button_hotkey_action;
     Creatable_min_conversion_time_mod := min_conversion_time_mod;
     Creatable_max_conversion_time_mod := max_conversion_time_mod;
     Creatable_conversion_chance_mod := conversion_chance_mod;
     Creatable_total_projectiles := total_projectiles;
     Creatable_max_total_projectiles := max_total_projectiles;
     Creatable_projectile_spawning_area := [projectile_spawning_area_1; projectile_spawning_area_2; projectile_spawning_area_3];
     Creatable_secondary_projectile_unit := secondary_projectile_unit;
     Creatable_special_graphic := special_graphic;
     Creatable_special_ability := special_ability;
     Creatable_displayed_pierce_armour := displayed_pierce_armour |}
  | _ => raise ValueError
  end.

(** unit.py:510-515 Creatable.from_bytes *)
Definition Creatable_from_bytes : rd Creatable :=
  version <- get_version ;;
  if version_ge version VER_88 then Creatable_from_bytes_88
  else (
    version <- get_version ;;
    if version_ge version VER_84 then Creatable_from_bytes_84
    else (
      Creatable_from_bytes_78)).

(** unit.py:765-793 Creatable.to_bytes_78 *)
Definition Creatable_to_bytes_78 (self : Creatable) (version : Version) : res bytes :=
  (write_class_array ResourceCost_to_bytes (map Some (Creatable_resource_costs self)) version +++ (first <-- py_index (Creatable_train_locations self) 0 ;;; struct_pack unit_CREATABLE_FORMAT
      ([VInt (TrainLocation_train_time first);
       VInt (TrainLocation_unit_id first);
       VInt (TrainLocation_button_id first);
       VFloat (Creatable_rear_attack_modifier self);
       VFloat (Creatable_flank_attack_modifier self);
       VInt (Creatable_creatable_type self);
       VInt (Creatable_hero_mode self);
       VInt (Creatable_garrison_graphic self);
       VInt (Creatable_spawning_graphic self);
       VInt (Creatable_upgrade_graphic self);
       VInt (Creatable_hero_glow_graphic self);
       VFloat (Creatable_max_charge self);
       VFloat (Creatable_recharge_rate self);
       VInt (Creatable_charge_event self);
       VInt (Creatable_charge_type self);
       VFloat (Creatable_min_conversion_time_mod self);
       VFloat (Creatable_max_conversion_time_mod self);
       VFloat (Creatable_conversion_chance_mod self);
       VFloat (Creatable_total_projectiles self);
       VInt (Creatable_max_total_projectiles self)]
       ++ map VFloat (Creatable_projectile_spawning_area self)
       ++ [VInt (Creatable_secondary_projectile_unit self);
       VInt (Creatable_special_graphic self);
       VInt (Creatable_special_ability self);
       VInt (Creatable_displayed_pierce_armour self)]))).

(** unit.py:795-832 Creatable.to_bytes_84 *)
Definition Creatable_to_bytes_84 (self : Creatable) (version : Version) : res bytes :=
  (write_class_array ResourceCost_to_bytes (map Some (Creatable_resource_costs self)) version +++ (first <-- py_index (Creatable_train_locations self) 0 ;;; struct_pack unit_CREATABLE_FORMAT_84
      ([VInt (TrainLocation_train_time first);
       VInt (TrainLocation_unit_id first);
       VInt (TrainLocation_button_id first);
       VFloat (Creatable_rear_attack_modifier self);
       VFloat (Creatable_flank_attack_modifier self);
       VInt (Creatable_creatable_type self);
       VInt (Creatable_hero_mode self);
       VInt (Creatable_garrison_graphic self);
       VInt (Creatable_spawning_graphic self);
       VInt (Creatable_upgrade_graphic self);
       VInt (Creatable_hero_glow_graphic self);
       VInt (Creatable_idle_attack_graphic self);
       VFloat (Creatable_max_charge self);
       VFloat (Creatable_recharge_rate self);
       VInt (Creatable_charge_event self);
       VInt (Creatable_charge_type self);
       VInt (Creatable_charge_target self);
       VInt (Creatable_charge_projectile_unit self);
       VInt (Creatable_attack_priority self);
       VFloat (Creatable_invulnerability_level self);
       VInt (Creatable_button_icon_id self);
       VInt (Creatable_button_short_tooltip_id self);
       VInt (Creatable_button_extended_tooltip_id self);
       VInt (Creatable_button_hotkey_action self);
       VFloat (Creatable_min_conversion_time_mod self);
       VFloat (Creatable_max_conversion_time_mod self);
       VFloat (Creatable_conversion_chance_mod self);
       VFloat (Creatable_total_projectiles self);
       VInt (Creatable_max_total_projectiles self)]
       ++ map VFloat (Creatable_projectile_spawning_area self)
       ++ [VInt (Creatable_secondary_projectile_unit self);
       VInt (Creatable_special_graphic self);
       VInt (Creatable_special_ability self);
       VInt (Creatable_displayed_pierce_armour self)]))).

(** unit.py:834-870 Creatable.to_bytes_88 *)
Definition Creatable_to_bytes_88 (self : Creatable) (version : Version) : res bytes :=
  (((write_class_array ResourceCost_to_bytes (map Some (Creatable_resource_costs self)) version +++ write_int_16 (len (Creatable_train_locations self)) true true) +++ write_class_array TrainLocation_to_bytes (map Some (Creatable_train_locations self)) version) +++ (struct_pack unit_CREATABLE_FORMAT_88
      ([VFloat (Creatable_rear_attack_modifier self);
       VFloat (Creatable_flank_attack_modifier self);
       VInt (Creatable_creatable_type self);
       VInt (Creatable_hero_mode self);
       VInt (Creatable_garrison_graphic self);
       VInt (Creatable_spawning_graphic self);
       VInt (Creatable_upgrade_graphic self);
       VInt (Creatable_hero_glow_graphic self);
       VInt (Creatable_idle_attack_graphic self);
       VFloat (Creatable_max_charge self);
       VFloat (Creatable_recharge_rate self);
       VInt (Creatable_charge_event self);
       VInt (Creatable_charge_type self);
       VInt (Creatable_charge_target self);
       VInt (Creatable_charge_projectile_unit self);
       VInt (Creatable_attack_priority self);
       VFloat (Creatable_invulnerability_level self);
       VInt (Creatable_button_icon_id self);
       VInt (Creatable_button_short_tooltip_id self);
       VInt (Creatable_button_extended_tooltip_id self);
       VInt (Creatable_button_hotkey_action self);
       VFloat (Creatable_min_conversion_time_mod self);
       VFloat (Creatable_max_conversion_time_mod self);
       VFloat (Creatable_conversion_chance_mod self);
       VFloat (Creatable_total_projectiles self);
       VInt (Creatable_max_total_projectiles self)]
       ++ map VFloat (Creatable_projectile_spawning_area self)
       ++ [VInt (Creatable_secondary_projectile_unit self);
       VInt (Creatable_special_graphic self);
       VInt (Creatable_special_ability self);
       VInt (Creatable_displayed_pierce_armour self)]))).

(** unit.py:758-763 Creatable.to_bytes *)
Definition Creatable_to_bytes (self : Creatable) (version : Version) : res bytes :=
  if version_ge version VER_88 then Creatable_to_bytes_88 self version
  else (
    if version_ge version VER_84 then Creatable_to_bytes_84 self version
    else (
      Creatable_to_bytes_78 self version)).
(** unit.py:873 *)
Definition unit_BUILDING_ANNEX_FORMAT : string := "<hff".
(** unit.py:874 *)
Definition unit_BUILDING_ANNEX_FORMAT_LENGTH : nat := 10%nat.

(** unit.py:878-881 class BuildingAnnex *)
Record BuildingAnnex : Set := mkBuildingAnnex {
  BuildingAnnex_unit_id : Z;
  BuildingAnnex_misplacement_x : f64;
  BuildingAnnex_misplacement_y : f64 }.

(** unit.py:884-891 BuildingAnnex.from_bytes *)
Definition BuildingAnnex_from_bytes : rd BuildingAnnex :=
  vals <- read_struct unit_BUILDING_ANNEX_FORMAT unit_BUILDING_ANNEX_FORMAT_LENGTH ;;
  match vals with
  | [VInt unit_id; VFloat misplacement_x; VFloat misplacement_y] =>
    ret {| BuildingAnnex_unit_id := unit_id;
     BuildingAnnex_misplacement_x := misplacement_x;
     BuildingAnnex_misplacement_y := misplacement_y |}
  | _ => raise ValueError
  end.

(** unit.py:893-898 BuildingAnnex.to_bytes *)
Definition BuildingAnnex_to_bytes (self : BuildingAnnex) (version : Version) : res bytes :=
  (struct_pack unit_BUILDING_ANNEX_FORMAT
      ([VInt (BuildingAnnex_unit_id self);
       VFloat (BuildingAnnex_misplacement_x self);
       VFloat (BuildingAnnex_misplacement_y self)])).
(** unit.py:901 *)
Definition unit_BUILDING_ANNEX_FORMAT_1 : string := "<hhhhhhbhbhhhhb".
(** unit.py:902 *)
Definition unit_BUILDING_ANNEX_FORMAT_1_LENGTH : nat := 25%nat.
(** unit.py:904 *)
Definition unit_BUILDING_ANNEX_FORMAT_2 : string := "<hhhhllbffhbbbbbb".
(** unit.py:905 *)
Definition unit_BUILDING_ANNEX_FORMAT_2_LENGTH : nat := 33%nat.

(** unit.py:909-935 class Building *)
Record Building : Set := mkBuilding {
  Building_construction_graphic_id : Z;
  Building_snow_graphic_id : Z;
  Building_destruction_graphic_id : Z;
  Building_destruction_rubble_graphic_id : Z;
  Building_researching_graphic : Z;
  Building_research_completed_graphic : Z;
  Building_adjacent_mode : Z;
  Building_graphics_angle : Z;
  Building_disappears_when_built : Z;
  Building_stack_unit_id : Z;
  Building_foundation_terrain_id : Z;
  Building_old_overlap_id : Z;
  Building_tech_id : Z;
  Building_can_burn : Z;
  Building_annexes : list BuildingAnnex;
  Building_head_unit : Z;
  Building_transform_unit : Z;
  Building_transform_sound : Z;
  Building_construction_sound : Z;
  Building_wwise_transform_sound_id : Z;
  Building_wwise_construction_sound_id : Z;
  Building_garrison_type : Z;
  Building_garrison_heal_rate : f64;
  Building_garrison_repair_rate : f64;
  Building_pile_unit : Z;
  Building_looting_table : list Z }.

(** unit.py:938-1008 Building.from_bytes *)
Definition Building_from_bytes : rd Building :=
  vals <- read_struct unit_BUILDING_ANNEX_FORMAT_1 unit_BUILDING_ANNEX_FORMAT_1_LENGTH ;;
  match vals with
  | [VInt construction_graphic_id; VInt snow_graphic_id; VInt destruction_graphic_id; VInt destruction_rubble_graphic_id; VInt researching_graphic; VInt research_completed_graphic; VInt adjacent_mode; VInt graphics_angle; VInt disappears_when_built; VInt stack_unit_id; VInt foundation_terrain_id; VInt old_overlap_id; VInt tech_id; VInt can_burn] =>
    annexes <- read_class_array_4 BuildingAnnex_from_bytes ;;
    vals <- read_struct unit_BUILDING_ANNEX_FORMAT_2 unit_BUILDING_ANNEX_FORMAT_2_LENGTH ;;
    match vals with
    | [VInt head_unit; VInt transform_unit; VInt transform_sound; VInt construction_sound; VInt wwise_transform_sound_id; VInt wwise_construction_sound_id; VInt garrison_type; VFloat garrison_heal_rate; VFloat garrison_repair_rate; VInt pile_unit; VInt looting_table_1; VInt looting_table_2; VInt looting_table_3; VInt looting_table_4; VInt looting_table_5; VInt looting_table_6] =>
      ret {| Building_construction_graphic_id := construction_graphic_id;
     Building_snow_graphic_id := snow_graphic_id;
     Building_destruction_graphic_id := destruction_graphic_id;
     Building_destruction_rubble_graphic_id := destruction_rubble_graphic_id;
     Building_researching_graphic := researching_graphic;
     Building_research_completed_graphic := research_completed_graphic;
     Building_adjacent_mode := adjacent_mode;
     Building_graphics_angle := graphics_angle;
     Building_disappears_when_built := disappears_when_built;
     Building_stack_unit_id := stack_unit_id;
     Building_foundation_terrain_id := foundation_terrain_id;
     Building_old_overlap_id := old_overlap_id;
     Building_tech_id := tech_id;
     Building_can_burn := can_burn;
     Building_annexes := annexes;
     Building_head_unit := head_unit;
     Building_transform_unit := transform_unit;
     Building_transform_sound := transform_sound;
     Building_construction_sound := construction_sound;
     Building_wwise_transform_sound_id := wwise_transform_sound_id;
     Building_wwise_construction_sound_id := wwise_construction_sound_id;
     Building_garrison_type := garrison_type;
     Building_garrison_heal_rate := garrison_heal_rate;
     Building_garrison_repair_rate := garrison_repair_rate;
     Building_pile_unit := pile_unit;
     Building_looting_table := [looting_table_1; looting_table_2; looting_table_3; looting_table_4; looting_table_5; looting_table_6] |}
    | _ => raise ValueError
    end
  | _ => raise ValueError
  end.

(** unit.py:1010-1040 Building.to_bytes *)
Definition Building_to_bytes (self : Building) (version : Version) : res bytes :=
  (((struct_pack unit_BUILDING_ANNEX_FORMAT_1
      ([VInt (Building_construction_graphic_id self);
       VInt (Building_snow_graphic_id self);
       VInt (Building_destruction_graphic_id self);
       VInt (Building_destruction_rubble_graphic_id self);
       VInt (Building_researching_graphic self);
       VInt (Building_research_completed_graphic self);
       VInt (Building_adjacent_mode self);
       VInt (Building_graphics_angle self);
       VInt (Building_disappears_when_built self);
       VInt (Building_stack_unit_id self);
       VInt (Building_foundation_terrain_id self);
       VInt (Building_old_overlap_id self);
       VInt (Building_tech_id self);
       VInt (Building_can_burn self)])) +++ write_class_array BuildingAnnex_to_bytes (map Some (Building_annexes self)) version) +++ (struct_pack unit_BUILDING_ANNEX_FORMAT_2
      ([VInt (Building_head_unit self);
       VInt (Building_transform_unit self);
       VInt (Building_transform_sound self);
       VInt (Building_construction_sound self);
       VInt (Building_wwise_transform_sound_id self);
       VInt (Building_wwise_construction_sound_id self);
       VInt (Building_garrison_type self);
       VFloat (Building_garrison_heal_rate self);
       VFloat (Building_garrison_repair_rate self);
       VInt (Building_pile_unit self)]
       ++ map VInt (Building_looting_table self)))).
(** unit.py:1043 *)
Definition unit_FORMAT : string := "<bhllhhhhhbhfbfffhhhhbbhbhbbhhhhffbbhbhfbbbbbfblllbbbbbbbbbhbbfffll".
(** unit.py:1044 *)
Definition unit_FORMAT_LENGTH : nat := 140%nat.
(** unit.py:1046 *)
Definition unit_FORMAT_88 : string := "<bhllhhhhhbhfbfffhhhhbbhbhbbhhhhffbbhbhfbbbbbfbllbbbbbbbbbhbbfffll".
(** unit.py:1047 *)
Definition unit_FORMAT_LENGTH_88 : nat := calcsize unit_FORMAT_88.

(** unit.py:1051-1133 class Unit *)
Record Unit : Set := mkUnit {
  Unit_type : Z;
  Unit_id : Z;
  Unit_language_dll_name : Z;
  Unit_language_dll_creation : Z;
  Unit_class_ : Z;
  Unit_standing_graphic : list Z;
  Unit_dying_graphic : Z;
  Unit_undead_graphic : Z;
  Unit_undead_mode : Z;
  Unit_hit_points : Z;
  Unit_line_of_sight : f64;
  Unit_garrison_capacity : Z;
  Unit_collision_size_x : f64;
  Unit_collision_size_y : f64;
  Unit_collision_size_z : f64;
  Unit_train_sound : Z;
  Unit_damage_sound : Z;
  Unit_dead_unit_id : Z;
  Unit_blood_unit_id : Z;
  Unit_sort_number : Z;
  Unit_can_be_built_on : Z;
  Unit_icon_id : Z;
  Unit_hide_in_editor : Z;
  Unit_old_portrait_pict : Z;
  Unit_enabled : Z;
  Unit_disabled : Z;
  Unit_placement_side_terrain : list Z;
  Unit_placement_terrain : list Z;
  Unit_clearance_size : list f64;
  Unit_hill_mode : Z;
  Unit_fog_visibility : Z;
  Unit_terrain_restriction : Z;
  Unit_fly_mode : Z;
  Unit_resource_capacity : Z;
  Unit_resource_decay : f64;
  Unit_blast_defense_level : Z;
  Unit_combat_level : Z;
  Unit_interaction_mode : Z;
  Unit_minimap_mode : Z;
  Unit_interface_kind : Z;
  Unit_multiple_attribute_mode : f64;
  Unit_minimap_color : Z;
  Unit_language_dll_help : Z;
  Unit_language_dll_hotkey_text : Z;
  Unit_hot_key : Z;
  Unit_recyclable : Z;
  Unit_enable_auto_gather : Z;
  Unit_create_doppelganger_on_death : Z;
  Unit_resource_gather_group : Z;
  Unit_occlusion_mode : Z;
  Unit_obstruction_type : Z;
  Unit_obstruction_class : Z;
  Unit_trait : Z;
  Unit_civilization : Z;
  Unit_nothing : Z;
  Unit_selection_effect : Z;
  Unit_editor_selection_colour : Z;
  Unit_outline_size_x : f64;
  Unit_outline_size_y : f64;
  Unit_outline_size_z : f64;
  Unit_scenario_triggers_1 : Z;
  Unit_scenario_triggers_2 : Z;
  Unit_resource_storages : list ResourceStorage;
  Unit_damage_graphics : list DamageGraphic;
  Unit_selection_sound : Z;
  Unit_dying_sound : Z;
  Unit_wwise_train_sound_id : Z;
  Unit_wwise_damage_sound_id : Z;
  Unit_wwise_selection_sound_id : Z;
  Unit_wwise_dying_sound_id : Z;
  Unit_old_attack_reaction : Z;
  Unit_convert_terrain : Z;
  Unit_name : pystr;
  Unit_copy_id : Z;
  Unit_base_id : Z;
  Unit_speed : option f64;
  Unit_dead_fish : option DeadFish;
  Unit_bird : option Bird;
  Unit_type_50 : option Type50;
  Unit_projectile : option Projectile;
  Unit_creatable : option Creatable;
  Unit_building : option Building }.

(** unit.py:1142-1331 Unit.from_bytes_84 *)
Definition Unit_from_bytes_84 : rd Unit :=
  vals <- read_struct unit_FORMAT unit_FORMAT_LENGTH ;;
  match vals with
  | [VInt type_; VInt id_; VInt language_dll_name; VInt language_dll_creation; VInt class_; VInt standing_graphic_1; VInt standing_graphic_2; VInt dying_graphic; VInt undead_graphic; VInt undead_mode; VInt hit_points; VFloat line_of_sight; VInt garrison_capacity; VFloat collision_size_x; VFloat collision_size_y; VFloat collision_size_z; VInt train_sound; VInt damage_sound; VInt dead_unit_id; VInt blood_unit_id; VInt sort_number; VInt can_be_built_on; VInt icon_id; VInt hide_in_editor; VInt old_portrait_pict; VInt enabled; VInt disabled; VInt placement_side_terrain_1; VInt placement_side_terrain_2; VInt placement_terrain_1; VInt placement_terrain_2; VFloat clearance_size_1; VFloat clearance_size_2; VInt hill_mode; VInt fog_visibility; VInt terrain_restriction; VInt fly_mode; VInt resource_capacity; VFloat resource_decay; VInt blast_defense_level; VInt combat_level; VInt interaction_mode; VInt minimap_mode; VInt interface_kind; VFloat multiple_attribute_mode; VInt minimap_color; VInt language_dll_help; VInt language_dll_hotkey_text; VInt hot_key; VInt recyclable; VInt enable_auto_gather; VInt create_doppelganger_on_death; VInt resource_gather_group; VInt occlusion_mode; VInt obstruction_type; VInt obstruction_class; VInt trait; VInt civilization; VInt nothing; VInt selection_effect; VInt editor_selection_colour; VFloat outline_size_x; VFloat outline_size_y; VFloat outline_size_z; VInt scenario_triggers_1; VInt scenario_triggers_2] =>
    resource_storages <- read_class_array_3 ResourceStorage_from_bytes ;;
    damage_graphic_size <- read_int_8 ;;
    damage_graphics <- read_class_array DamageGraphic_from_bytes damage_graphic_size ;;
    selection_sound <- read_int_16 true ;;
    dying_sound <- read_int_16 true ;;
    wwise_train_sound_id <- read_int_32 true ;;
    wwise_damage_sound_id <- read_int_32 true ;;
    wwise_selection_sound_id <- read_int_32 true ;;
    wwise_dying_sound_id <- read_int_32 true ;;
    old_attack_reaction <- read_int_8 ;;
    convert_terrain <- read_int_8 ;;
    name <- read_debug_string ;;
    copy_id <- read_int_16 true ;;
    base_id <- read_int_16 true ;;
    let speed : option f64 := None in
    let dead_fish : option DeadFish := None in
    let bird : option Bird := None in
    let type_50 : option Type50 := None in
    let projectile : option Projectile := None in
    let creatable : option Creatable := None in
    let building : option Building := None in
    '(speed, dead_fish, bird, type_50, projectile, creatable, building) <-
      (if negb (type_ =? UnitType_AoeTrees) then
        '(speed, dead_fish, bird, type_50, projectile, creatable, building) <-
          (if UnitType_Flag <=? type_ then
            speed <- read_float ;;
            let speed := Some speed in
            dead_fish <-
              (if UnitType_DeadFish <=? type_ then
                dead_fish <- read_class DeadFish_from_bytes ;;
                let dead_fish := Some dead_fish in
                ret dead_fish
               else ret dead_fish) ;;
            bird <-
              (if UnitType_Bird <=? type_ then
                bird <- read_class Bird_from_bytes ;;
                let bird := Some bird in
                ret bird
               else ret bird) ;;
            type_50 <-
              (if UnitType_Combatant <=? type_ then
                type_50 <- read_class Type50_from_bytes ;;
                let type_50 := Some type_50 in
                ret type_50
               else ret type_50) ;;
            projectile <-
              (if type_ =? UnitType_Projectile then
                projectile <- read_class Projectile_from_bytes ;;
                let projectile := Some projectile in
                ret projectile
               else ret projectile) ;;
            creatable <-
              (if UnitType_Creatable <=? type_ then
                creatable <- read_class Creatable_from_bytes ;;
                let creatable := Some creatable in
                ret creatable
               else ret creatable) ;;
            building <-
              (if type_ =? UnitType_Building then
                building <- read_class Building_from_bytes ;;
                let building := Some building in
                ret building
               else ret building) ;;
            ret (speed, dead_fish, bird, type_50, projectile, creatable, building)
           else ret (speed, dead_fish, bird, type_50, projectile, creatable, building)) ;;
        ret (speed, dead_fish, bird, type_50, projectile, creatable, building)
       else ret (speed, dead_fish, bird, type_50, projectile, creatable, building)) ;;
    creatable <- lift
      (match creatable with
       | Some c =>
           let c := if nonempty (Creatable_train_locations c) then c
                    else set_Creatable_train_locations
                           [{| TrainLocation_train_time := 0; TrainLocation_unit_id := (-1);
                               TrainLocation_button_id := 0; TrainLocation_hot_key_id := 16000 |}] c in
           first <-- py_index (Creatable_train_locations c) 0 ;;;
           Ok (Some (set_Creatable_train_locations
                       (set_TrainLocation_hot_key_id hot_key first :: tl (Creatable_train_locations c)) c))
       | None => Ok None
       end) ;;
    ret {| Unit_type := type_;
     Unit_id := id_;
     Unit_language_dll_name := language_dll_name;
     Unit_language_dll_creation := language_dll_creation;
     Unit_class_ := class_;
     Unit_standing_graphic := [standing_graphic_1; standing_graphic_2];
     Unit_dying_graphic := dying_graphic;
     Unit_undead_graphic := undead_graphic;
     Unit_undead_mode := undead_mode;
     Unit_hit_points := hit_points;
     Unit_line_of_sight := line_of_sight;
     Unit_garrison_capacity := garrison_capacity;
     Unit_collision_size_x := collision_size_x;
     Unit_collision_size_y := collision_size_y;
     Unit_collision_size_z := collision_size_z;
     Unit_train_sound := train_sound;
     Unit_damage_sound := damage_sound;
     Unit_dead_unit_id := dead_unit_id;
     Unit_blood_unit_id := blood_unit_id;
     Unit_sort_number := sort_number;
     Unit_can_be_built_on := can_be_built_on;
     Unit_icon_id := icon_id;
     Unit_hide_in_editor := hide_in_editor;
     Unit_old_portrait_pict := old_portrait_pict;
     Unit_enabled := enabled;
     Unit_disabled := disabled;
     Unit_placement_side_terrain := [placement_side_terrain_1; placement_side_terrain_2];
     Unit_placement_terrain := [placement_terrain_1; placement_terrain_2];
     Unit_clearance_size := [clearance_size_1; clearance_size_2];
     Unit_hill_mode := hill_mode;
     Unit_fog_visibility := fog_visibility;
     Unit_terrain_restriction := terrain_restriction;
     Unit_fly_mode := fly_mode;
     Unit_resource_capacity := resource_capacity;
     Unit_resource_decay := resource_decay;
     Unit_blast_defense_level := blast_defense_level;
     Unit_combat_level := combat_level;
     Unit_interaction_mode := interaction_mode;
     Unit_minimap_mode := minimap_mode;
     Unit_interface_kind := interface_kind;
     Unit_multiple_attribute_mode := multiple_attribute_mode;
     Unit_minimap_color := minimap_color;
     Unit_language_dll_help := language_dll_help;
     Unit_language_dll_hotkey_text := language_dll_hotkey_text;
     Unit_hot_key := hot_key;
     Unit_recyclable := recyclable;
     Unit_enable_auto_gather := enable_auto_gather;
     Unit_create_doppelganger_on_death := create_doppelganger_on_death;
     Unit_resource_gather_group := resource_gather_group;
     Unit_occlusion_mode := occlusion_mode;
     Unit_obstruction_type := obstruction_type;
     Unit_obstruction_class := obstruction_class;
     Unit_trait := trait;
     Unit_civilization := civilization;
     Unit_nothing := nothing;
     Unit_selection_effect := selection_effect;
     Unit_editor_selection_colour := editor_selection_colour;
     Unit_outline_size_x := outline_size_x;
     Unit_outline_size_y := outline_size_y;
     Unit_outline_size_z := outline_size_z;
     Unit_scenario_triggers_1 := scenario_triggers_1;
     Unit_scenario_triggers_2 := scenario_triggers_2;
     Unit_resource_storages := resource_storages;
     Unit_damage_graphics := damage_graphics;
     Unit_selection_sound := selection_sound;
     Unit_dying_sound := dying_sound;
     Unit_wwise_train_sound_id := wwise_train_sound_id;
     Unit_wwise_damage_sound_id := wwise_damage_sound_id;
     Unit_wwise_selection_sound_id := wwise_selection_sound_id;
     Unit_wwise_dying_sound_id := wwise_dying_sound_id;
     Unit_old_attack_reaction := old_attack_reaction;
     Unit_convert_terrain := convert_terrain;
     Unit_name := name;
     Unit_copy_id := copy_id;
     Unit_base_id := base_id;
     Unit_speed := speed;
     Unit_dead_fish := dead_fish;
     Unit_bird := bird;
     Unit_type_50 := type_50;
     Unit_projectile := projectile;
     Unit_creatable := creatable;
     Unit_building := building |}
  | _ => raise ValueError
  end.

(** unit.py:1334-1520 Unit.from_bytes_88 *)
Definition Unit_from_bytes_88 : rd Unit :=
  vals <- read_struct unit_FORMAT_88 unit_FORMAT_LENGTH_88 ;;
  match vals with
  | [VInt type_; VInt id_; VInt language_dll_name; VInt language_dll_creation; VInt class_; VInt standing_graphic_1; VInt standing_graphic_2; VInt dying_graphic; VInt undead_graphic; VInt undead_mode; VInt hit_points; VFloat line_of_sight; VInt garrison_capacity; VFloat collision_size_x; VFloat collision_size_y; VFloat collision_size_z; VInt train_sound; VInt damage_sound; VInt dead_unit_id; VInt blood_unit_id; VInt sort_number; VInt can_be_built_on; VInt icon_id; VInt hide_in_editor; VInt old_portrait_pict; VInt enabled; VInt disabled; VInt placement_side_terrain_1; VInt placement_side_terrain_2; VInt placement_terrain_1; VInt placement_terrain_2; VFloat clearance_size_1; VFloat clearance_size_2; VInt hill_mode; VInt fog_visibility; VInt terrain_restriction; VInt fly_mode; VInt resource_capacity; VFloat resource_decay; VInt blast_defense_level; VInt combat_level; VInt interaction_mode; VInt minimap_mode; VInt interface_kind; VFloat multiple_attribute_mode; VInt minimap_color; VInt language_dll_help; VInt language_dll_hotkey_text; VInt recyclable; VInt enable_auto_gather; VInt create_doppelganger_on_death; VInt resource_gather_group; VInt occlusion_mode; VInt obstruction_type; VInt obstruction_class; VInt trait; VInt civilization; VInt nothing; VInt selection_effect; VInt editor_selection_colour; VFloat outline_size_x; VFloat outline_size_y; VFloat outline_size_z; VInt scenario_triggers_1; VInt scenario_triggers_2] =>
    let hot_key := 16000 in
    resource_storages <- read_class_array_3 ResourceStorage_from_bytes ;;
    damage_graphic_size <- read_int_8 ;;
    damage_graphics <- read_class_array DamageGraphic_from_bytes damage_graphic_size ;;
    selection_sound <- read_int_16 true ;;
    dying_sound <- read_int_16 true ;;
    wwise_train_sound_id <- read_int_32 true ;;
    wwise_damage_sound_id <- read_int_32 true ;;
    wwise_selection_sound_id <- read_int_32 true ;;
    wwise_dying_sound_id <- read_int_32 true ;;
    old_attack_reaction <- read_int_8 ;;
    convert_terrain <- read_int_8 ;;
    name <- read_debug_string ;;
    copy_id <- read_int_16 true ;;
    base_id <- read_int_16 true ;;
    let speed : option f64 := None in
    let dead_fish : option DeadFish := None in
    let bird : option Bird := None in
    let type_50 : option Type50 := None in
    let projectile : option Projectile := None in
    let creatable : option Creatable := None in
    let building : option Building := None in
    '(speed, dead_fish, bird, type_50, projectile, creatable, building) <-
      (if negb (type_ =? UnitType_AoeTrees) then
        '(speed, dead_fish, bird, type_50, projectile, creatable, building) <-
          (if UnitType_Flag <=? type_ then
            speed <- read_float ;;
            let speed := Some speed in
            dead_fish <-
              (if UnitType_DeadFish <=? type_ then
                dead_fish <- read_class DeadFish_from_bytes ;;
                let dead_fish := Some dead_fish in
                ret dead_fish
               else ret dead_fish) ;;
            bird <-
              (if UnitType_Bird <=? type_ then
                bird <- read_class Bird_from_bytes ;;
                let bird := Some bird in
                ret bird
               else ret bird) ;;
            type_50 <-
              (if UnitType_Combatant <=? type_ then
                type_50 <- read_class Type50_from_bytes ;;
                let type_50 := Some type_50 in
                ret type_50
               else ret type_50) ;;
            projectile <-
              (if type_ =? UnitType_Projectile then
                projectile <- read_class Projectile_from_bytes ;;
                let projectile := Some projectile in
                ret projectile
               else ret projectile) ;;
            creatable <-
              (if UnitType_Creatable <=? type_ then
                creatable <- read_class Creatable_from_bytes ;;
                let creatable := Some creatable in
                ret creatable
               else ret creatable) ;;
            building <-
              (if type_ =? UnitType_Building then
                building <- read_class Building_from_bytes ;;
                let building := Some building in
                ret building
               else ret building) ;;
            ret (speed, dead_fish, bird, type_50, projectile, creatable, building)
           else ret (speed, dead_fish, bird, type_50, projectile, creatable, building)) ;;
        ret (speed, dead_fish, bird, type_50, projectile, creatable, building)
       else ret (speed, dead_fish, bird, type_50, projectile, creatable, building)) ;;
    hot_key <- lift
      (match creatable with
       | Some c =>
           if nonempty (Creatable_train_locations c)
           then first <-- py_index (Creatable_train_locations c) 0 ;;; Ok (TrainLocation_hot_key_id first)
           else Ok hot_key
       | None => Ok hot_key
       end) ;;
    ret {| Unit_type := type_;
     Unit_id := id_;
     Unit_language_dll_name := language_dll_name;
     Unit_language_dll_creation := language_dll_creation;
     Unit_class_ := class_;
     Unit_standing_graphic := [standing_graphic_1; standing_graphic_2];
     Unit_dying_graphic := dying_graphic;
     Unit_undead_graphic := undead_graphic;
     Unit_undead_mode := undead_mode;
     Unit_hit_points := hit_points;
     Unit_line_of_sight := line_of_sight;
     Unit_garrison_capacity := garrison_capacity;
     Unit_collision_size_x := collision_size_x;
     Unit_collision_size_y := collision_size_y;
     Unit_collision_size_z := collision_size_z;
     Unit_train_sound := train_sound;
     Unit_damage_sound := damage_sound;
     Unit_dead_unit_id := dead_unit_id;
     Unit_blood_unit_id := blood_unit_id;
     Unit_sort_number := sort_number;
     Unit_can_be_built_on := can_be_built_on;
     Unit_icon_id := icon_id;
     Unit_hide_in_editor := hide_in_editor;
     Unit_old_portrait_pict := old_portrait_pict;
     Unit_enabled := enabled;
     Unit_disabled := disabled;
     Unit_placement_side_terrain := [placement_side_terrain_1; placement_side_terrain_2];
     Unit_placement_terrain := [placement_terrain_1; placement_terrain_2];
     Unit_clearance_size := [clearance_size_1; clearance_size_2];
     Unit_hill_mode := hill_mode;
     Unit_fog_visibility := fog_visibility;
     Unit_terrain_restriction := terrain_restriction;
     Unit_fly_mode := fly_mode;
     Unit_resource_capacity := resource_capacity;
     Unit_resource_decay := resource_decay;
     Unit_blast_defense_level := blast_defense_level;
     Unit_combat_level := combat_level;
     Unit_interaction_mode := interaction_mode;
     Unit_minimap_mode := minimap_mode;
     Unit_interface_kind := interface_kind;
     Unit_multiple_attribute_mode := multiple_attribute_mode;
     Unit_minimap_color := minimap_color;
     Unit_language_dll_help := language_dll_help;
     Unit_language_dll_hotkey_text := language_dll_hotkey_text;
     Unit_hot_key := hot_key;
     Unit_recyclable := recyclable;
     Unit_enable_auto_gather := enable_auto_gather;
     Unit_create_doppelganger_on_death := create_doppelganger_on_death;
     Unit_resource_gather_group := resource_gather_group;
     Unit_occlusion_mode := occlusion_mode;
     Unit_obstruction_type := obstruction_type;
     Unit_obstruction_class := obstruction_class;
     Unit_trait := trait;
     Unit_civilization := civilization;
     Unit_nothing := nothing;
     Unit_selection_effect := selection_effect;
     Unit_editor_selection_colour := editor_selection_colour;
     Unit_outline_size_x := outline_size_x;
     Unit_outline_size_y := outline_size_y;
     Unit_outline_size_z := outline_size_z;
     Unit_scenario_triggers_1 := scenario_triggers_1;
     Unit_scenario_triggers_2 := scenario_triggers_2;
     Unit_resource_storages := resource_storages;
     Unit_damage_graphics := damage_graphics;
     Unit_selection_sound := selection_sound;
     Unit_dying_sound := dying_sound;
     Unit_wwise_train_sound_id := wwise_train_sound_id;
     Unit_wwise_damage_sound_id := wwise_damage_sound_id;
     Unit_wwise_selection_sound_id := wwise_selection_sound_id;
     Unit_wwise_dying_sound_id := wwise_dying_sound_id;
     Unit_old_attack_reaction := old_attack_reaction;
     Unit_convert_terrain := convert_terrain;
     Unit_name := name;
     Unit_copy_id := copy_id;
     Unit_base_id := base_id;
     Unit_speed := speed;
     Unit_dead_fish := dead_fish;
     Unit_bird := bird;
     Unit_type_50 := type_50;
     Unit_projectile := projectile;
     Unit_creatable := creatable;
     Unit_building := building |}
  | _ => raise ValueError
  end.

(** unit.py:1136-1139 Unit.from_bytes *)
Definition Unit_from_bytes : rd Unit :=
  version <- get_version ;;
  if version_ge version VER_88 then Unit_from_bytes_88
  else (
    Unit_from_bytes_84).

(** unit.py:1527-1635 Unit.to_bytes_84 *)
Definition Unit_to_bytes_84 (self : Unit) (version : Version) : res bytes :=
  speed <-- Ok [] ;;;
  dead_fish <-- Ok [] ;;;
  bird <-- Ok [] ;;;
  type_50 <-- Ok [] ;;;
  projectile <-- Ok [] ;;;
  creatable <-- Ok [] ;;;
  building <-- Ok [] ;;;
  '(speed, dead_fish, bird, type_50, projectile, creatable, building) <--
    (if negb ((Unit_type self) =? UnitType_AoeTrees) then
      '(speed, dead_fish, bird, type_50, projectile, creatable, building) <--
        (if UnitType_Flag <=? (Unit_type self) then
          speed <-- (match (Unit_speed self) with Some speed => write_float speed | None => Ok [] end) ;;;
          dead_fish <--
            (if UnitType_DeadFish <=? (Unit_type self) then
              dead_fish <-- (match (Unit_dead_fish self) with Some dead_fish => write_class DeadFish_to_bytes dead_fish version | None => Ok [] end) ;;;
              Ok dead_fish
             else Ok dead_fish) ;;;
          bird <--
            (if UnitType_Bird <=? (Unit_type self) then
              bird <-- (match (Unit_bird self) with Some bird => write_class Bird_to_bytes bird version | None => Ok [] end) ;;;
              Ok bird
             else Ok bird) ;;;
          type_50 <--
            (if UnitType_Combatant <=? (Unit_type self) then
              type_50 <-- (match (Unit_type_50 self) with Some type_50 => write_class Type50_to_bytes type_50 version | None => Ok [] end) ;;;
              Ok type_50
             else Ok type_50) ;;;
          projectile <--
            (if (Unit_type self) =? UnitType_Projectile then
              projectile <-- (match (Unit_projectile self) with Some projectile => write_class Projectile_to_bytes projectile version | None => Ok [] end) ;;;
              Ok projectile
             else Ok projectile) ;;;
          creatable <--
            (if UnitType_Creatable <=? (Unit_type self) then
              creatable <-- (match (Unit_creatable self) with Some creatable => write_class Creatable_to_bytes creatable version | None => Ok [] end) ;;;
              Ok creatable
             else Ok creatable) ;;;
          building <--
            (if (Unit_type self) =? UnitType_Building then
              building <-- (match (Unit_building self) with Some building => write_class Building_to_bytes building version | None => Ok [] end) ;;;
              Ok building
             else Ok building) ;;;
          Ok (speed, dead_fish, bird, type_50, projectile, creatable, building)
         else Ok (speed, dead_fish, bird, type_50, projectile, creatable, building)) ;;;
      Ok (speed, dead_fish, bird, type_50, projectile, creatable, building)
     else Ok (speed, dead_fish, bird, type_50, projectile, creatable, building)) ;;;
  ((struct_pack unit_FORMAT
      ([VInt (Unit_type self);
       VInt (Unit_id self);
       VInt (Unit_language_dll_name self);
       VInt (Unit_language_dll_creation self);
       VInt (Unit_class_ self)]
       ++ map VInt (Unit_standing_graphic self)
       ++ [VInt (Unit_dying_graphic self);
       VInt (Unit_undead_graphic self);
       VInt (Unit_undead_mode self);
       VInt (Unit_hit_points self);
       VFloat (Unit_line_of_sight self);
       VInt (Unit_garrison_capacity self);
       VFloat (Unit_collision_size_x self);
       VFloat (Unit_collision_size_y self);
       VFloat (Unit_collision_size_z self);
       VInt (Unit_train_sound self);
       VInt (Unit_damage_sound self);
       VInt (Unit_dead_unit_id self);
       VInt (Unit_blood_unit_id self);
       VInt (Unit_sort_number self);
       VInt (Unit_can_be_built_on self);
       VInt (Unit_icon_id self);
       VInt (Unit_hide_in_editor self);
       VInt (Unit_old_portrait_pict self);
       VInt (Unit_enabled self);
       VInt (Unit_disabled self)]
       ++ map VInt (Unit_placement_side_terrain self)
       ++ map VInt (Unit_placement_terrain self)
       ++ map VFloat (Unit_clearance_size self)
       ++ [VInt (Unit_hill_mode self);
       VInt (Unit_fog_visibility self);
       VInt (Unit_terrain_restriction self);
       VInt (Unit_fly_mode self);
       VInt (Unit_resource_capacity self);
       VFloat (Unit_resource_decay self);
       VInt (Unit_blast_defense_level self);
       VInt (Unit_combat_level self);
       VInt (Unit_interaction_mode self);
       VInt (Unit_minimap_mode self);
       VInt (Unit_interface_kind self);
       VFloat (Unit_multiple_attribute_mode self);
       VInt (Unit_minimap_color self);
       VInt (Unit_language_dll_help self);
       VInt (Unit_language_dll_hotkey_text self);
       VInt (Unit_hot_key self);
       VInt (Unit_recyclable self);
       VInt (Unit_enable_auto_gather self);
       VInt (Unit_create_doppelganger_on_death self);
       VInt (Unit_resource_gather_group self);
       VInt (Unit_occlusion_mode self);
       VInt (Unit_obstruction_type self);
       VInt (Unit_obstruction_class self);
       VInt (Unit_trait self);
       VInt (Unit_civilization self);
       VInt (Unit_nothing self);
       VInt (Unit_selection_effect self);
       VInt (Unit_editor_selection_colour self);
       VFloat (Unit_outline_size_x self);
       VFloat (Unit_outline_size_y self);
       VFloat (Unit_outline_size_z self);
       VInt (Unit_scenario_triggers_1 self);
       VInt (Unit_scenario_triggers_2 self)])) +++ join [
    write_class_array ResourceStorage_to_bytes (map Some (Unit_resource_storages self)) version;
    write_int_8 (len (Unit_damage_graphics self));
    write_class_array DamageGraphic_to_bytes (map Some (Unit_damage_graphics self)) version;
    write_int_16 (Unit_selection_sound self) true true;
    write_int_16 (Unit_dying_sound self) true true;
    write_int_32 (Unit_wwise_train_sound_id self) true;
    write_int_32 (Unit_wwise_damage_sound_id self) true;
    write_int_32 (Unit_wwise_selection_sound_id self) true;
    write_int_32 (Unit_wwise_dying_sound_id self) true;
    write_int_8 (Unit_old_attack_reaction self);
    write_int_8 (Unit_convert_terrain self);
    write_debug_string (Unit_name self);
    write_int_16 (Unit_copy_id self) true true;
    write_int_16 (Unit_base_id self) true true;
    Ok speed;
    Ok dead_fish;
    Ok bird;
    Ok type_50;
    Ok projectile;
    Ok creatable;
    Ok building ]).

(** unit.py:1637-1744 Unit.to_bytes_88 *)
Definition Unit_to_bytes_88 (self : Unit) (version : Version) : res bytes :=
  speed <-- Ok [] ;;;
  dead_fish <-- Ok [] ;;;
  bird <-- Ok [] ;;;
  type_50 <-- Ok [] ;;;
  projectile <-- Ok [] ;;;
  creatable <-- Ok [] ;;;
  building <-- Ok [] ;;;
  '(speed, dead_fish, bird, type_50, projectile, creatable, building) <--
    (if negb ((Unit_type self) =? UnitType_AoeTrees) then
      '(speed, dead_fish, bird, type_50, projectile, creatable, building) <--
        (if UnitType_Flag <=? (Unit_type self) then
          speed <-- (match (Unit_speed self) with Some speed => write_float speed | None => Ok [] end) ;;;
          dead_fish <--
            (if UnitType_DeadFish <=? (Unit_type self) then
              dead_fish <-- (match (Unit_dead_fish self) with Some dead_fish => write_class DeadFish_to_bytes dead_fish version | None => Ok [] end) ;;;
              Ok dead_fish
             else Ok dead_fish) ;;;
          bird <--
            (if UnitType_Bird <=? (Unit_type self) then
              bird <-- (match (Unit_bird self) with Some bird => write_class Bird_to_bytes bird version | None => Ok [] end) ;;;
              Ok bird
             else Ok bird) ;;;
          type_50 <--
            (if UnitType_Combatant <=? (Unit_type self) then
              type_50 <-- (match (Unit_type_50 self) with Some type_50 => write_class Type50_to_bytes type_50 version | None => Ok [] end) ;;;
              Ok type_50
             else Ok type_50) ;;;
          projectile <--
            (if (Unit_type self) =? UnitType_Projectile then
              projectile <-- (match (Unit_projectile self) with Some projectile => write_class Projectile_to_bytes projectile version | None => Ok [] end) ;;;
              Ok projectile
             else Ok projectile) ;;;
          creatable <--
            (if UnitType_Creatable <=? (Unit_type self) then
              creatable <-- (match (Unit_creatable self) with Some creatable => write_class Creatable_to_bytes creatable version | None => Ok [] end) ;;;
              Ok creatable
             else Ok creatable) ;;;
          building <--
            (if (Unit_type self) =? UnitType_Building then
              building <-- (match (Unit_building self) with Some building => write_class Building_to_bytes building version | None => Ok [] end) ;;;
              Ok building
             else Ok building) ;;;
          Ok (speed, dead_fish, bird, type_50, projectile, creatable, building)
         else Ok (speed, dead_fish, bird, type_50, projectile, creatable, building)) ;;;
      Ok (speed, dead_fish, bird, type_50, projectile, creatable, building)
     else Ok (speed, dead_fish, bird, type_50, projectile, creatable, building)) ;;;
  ((struct_pack unit_FORMAT_88
      ([VInt (Unit_type self);
       VInt (Unit_id self);
       VInt (Unit_language_dll_name self);
       VInt (Unit_language_dll_creation self);
       VInt (Unit_class_ self)]
       ++ map VInt (Unit_standing_graphic self)
       ++ [VInt (Unit_dying_graphic self);
       VInt (Unit_undead_graphic self);
       VInt (Unit_undead_mode self);
       VInt (Unit_hit_points self);
       VFloat (Unit_line_of_sight self);
       VInt (Unit_garrison_capacity self);
       VFloat (Unit_collision_size_x self);
       VFloat (Unit_collision_size_y self);
       VFloat (Unit_collision_size_z self);
       VInt (Unit_train_sound self);
       VInt (Unit_damage_sound self);
       VInt (Unit_dead_unit_id self);
       VInt (Unit_blood_unit_id self);
       VInt (Unit_sort_number self);
       VInt (Unit_can_be_built_on self);
       VInt (Unit_icon_id self);
       VInt (Unit_hide_in_editor self);
       VInt (Unit_old_portrait_pict self);
       VInt (Unit_enabled self);
       VInt (Unit_disabled self)]
       ++ map VInt (Unit_placement_side_terrain self)
       ++ map VInt (Unit_placement_terrain self)
       ++ map VFloat (Unit_clearance_size self)
       ++ [VInt (Unit_hill_mode self);
       VInt (Unit_fog_visibility self);
       VInt (Unit_terrain_restriction self);
       VInt (Unit_fly_mode self);
       VInt (Unit_resource_capacity self);
       VFloat (Unit_resource_decay self);
       VInt (Unit_blast_defense_level self);
       VInt (Unit_combat_level self);
       VInt (Unit_interaction_mode self);
       VInt (Unit_minimap_mode self);
       VInt (Unit_interface_kind self);
       VFloat (Unit_multiple_attribute_mode self);
       VInt (Unit_minimap_color self);
       VInt (Unit_language_dll_help self);
       VInt (Unit_language_dll_hotkey_text self);
       VInt (Unit_recyclable self);
       VInt (Unit_enable_auto_gather self);
       VInt (Unit_create_doppelganger_on_death self);
       VInt (Unit_resource_gather_group self);
       VInt (Unit_occlusion_mode self);
       VInt (Unit_obstruction_type self);
       VInt (Unit_obstruction_class self);
       VInt (Unit_trait self);
       VInt (Unit_civilization self);
       VInt (Unit_nothing self);
       VInt (Unit_selection_effect self);
       VInt (Unit_editor_selection_colour self);
       VFloat (Unit_outline_size_x self);
       VFloat (Unit_outline_size_y self);
       VFloat (Unit_outline_size_z self);
       VInt (Unit_scenario_triggers_1 self);
       VInt (Unit_scenario_triggers_2 self)])) +++ join [
    write_class_array ResourceStorage_to_bytes (map Some (Unit_resource_storages self)) version;
    write_int_8 (len (Unit_damage_graphics self));
    write_class_array DamageGraphic_to_bytes (map Some (Unit_damage_graphics self)) version;
    write_int_16 (Unit_selection_sound self) true true;
    write_int_16 (Unit_dying_sound self) true true;
    write_int_32 (Unit_wwise_train_sound_id self) true;
    write_int_32 (Unit_wwise_damage_sound_id self) true;
    write_int_32 (Unit_wwise_selection_sound_id self) true;
    write_int_32 (Unit_wwise_dying_sound_id self) true;
    write_int_8 (Unit_old_attack_reaction self);
    write_int_8 (Unit_convert_terrain self);
    write_debug_string (Unit_name self);
    write_int_16 (Unit_copy_id self) true true;
    write_int_16 (Unit_base_id self) true true;
    Ok speed;
    Ok dead_fish;
    Ok bird;
    Ok type_50;
    Ok projectile;
    Ok creatable;
    Ok building ]).

(** unit.py:1522-1525 Unit.to_bytes *)
Definition Unit_to_bytes (self : Unit) (version : Version) : res bytes :=
  if version_ge version VER_88 then Unit_to_bytes_88 self version
  else (
    Unit_to_bytes_84 self version).
