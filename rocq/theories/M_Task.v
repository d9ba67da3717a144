(** * Model of /repo/src/genieutils/task.py

    Transcribed statement by statement (tools/gen_model.py); readers and writers come
    from the Python [from_bytes*] and [to_bytes*] respectively. *)
From Verif Require Import Base PyInt PyFloat PyStr PyStruct DataTypes Versions Common.
From Coq Require Import String.
Open Scope Z_scope.
Local Open Scope list_scope.

(** task.py:7 *)
Definition task_FORMAT : string := "<hhbhhhhhhhhfffbfbbhhbbbhhhhhhll".
(** task.py:8 *)
Definition task_FORMAT_LENGTH : nat := 67%nat.
(** task.py:10 *)
Definition task_FORMAT_88 : string := "<hhbhhhhhhhhfffbfbbhhbbbhhhhhhllh".
(** task.py:11 *)
Definition task_FORMAT_LENGTH_88 : nat := calcsize task_FORMAT_88.

(** task.py:15-47 class Task *)
Record Task : Set := mkTask {
  Task_task_type : Z;
  Task_id : Z;
  Task_is_default : Z;
  Task_action_type : Z;
  Task_class_id : Z;
  Task_unit_id : Z;
  Task_terrain_id : Z;
  Task_resource_in : Z;
  Task_resource_multiplier : Z;
  Task_resource_out : Z;
  Task_unused_resource : Z;
  Task_work_value_1 : f64;
  Task_work_value_2 : f64;
  Task_work_range : f64;
  Task_auto_search_targets : Z;
  Task_search_wait_time : f64;
  Task_enable_targeting : Z;
  Task_combat_level_flag : Z;
  Task_gather_type : Z;
  Task_work_flag_2 : Z;
  Task_target_diplomacy : Z;
  Task_carry_check : Z;
  Task_pick_for_construction : Z;
  Task_moving_graphic_id : Z;
  Task_proceeding_graphic_id : Z;
  Task_working_graphic_id : Z;
  Task_carrying_graphic_id : Z;
  Task_resource_gathering_sound_id : Z;
  Task_resource_deposit_sound_id : Z;
  Task_wwise_resource_gathering_sound_id : Z;
  Task_wwise_resource_deposit_sound_id : Z;
  Task_enabled : Z }.

(** task.py:56-125 Task.from_bytes_84 *)
Definition Task_from_bytes_84 : rd Task :=
  vals <- read_struct task_FORMAT task_FORMAT_LENGTH ;;
  match vals with
  | [VInt task_type; VInt id_; VInt is_default; VInt action_type; VInt class_id; VInt unit_id; VInt terrain_id; VInt resource_in; VInt resource_multiplier; VInt resource_out; VInt unused_resource; VFloat work_value_1; VFloat work_value_2; VFloat work_range; VInt auto_search_targets; VFloat search_wait_time; VInt enable_targeting; VInt combat_level_flag; VInt gather_type; VInt work_flag_2; VInt target_diplomacy; VInt carry_check; VInt pick_for_construction; VInt moving_graphic_id; VInt proceeding_graphic_id; VInt working_graphic_id; VInt carrying_graphic_id; VInt resource_gathering_sound_id; VInt resource_deposit_sound_id; VInt wwise_resource_gathering_sound_id; VInt wwise_resource_deposit_sound_id] =>
    ret {| Task_task_type := task_type;
     Task_id := id_;
     Task_is_default := is_default;
     Task_action_type := action_type;
     Task_class_id := class_id;
     Task_unit_id := unit_id;
     Task_terrain_id := terrain_id;
     Task_resource_in := resource_in;
     Task_resource_multiplier := resource_multiplier;
     Task_resource_out := resource_out;
     Task_unused_resource := unused_resource;
     Task_work_value_1 := work_value_1;
     Task_work_value_2 := work_value_2;
     Task_work_range := work_range;
     Task_auto_search_targets := auto_search_targets;
     Task_search_wait_time := search_wait_time;
     Task_enable_targeting := enable_targeting;
     Task_combat_level_flag := combat_level_flag;
     Task_gather_type := gather_type;
     Task_work_flag_2 := work_flag_2;
     Task_target_diplomacy := target_diplomacy;
     Task_carry_check := carry_check;
     Task_pick_for_construction := pick_for_construction;
     Task_moving_graphic_id := moving_graphic_id;
     Task_proceeding_graphic_id := proceeding_graphic_id;
     Task_working_graphic_id := working_graphic_id;
     Task_carrying_graphic_id := carrying_graphic_id;
     Task_resource_gathering_sound_id := resource_gathering_sound_id;
     Task_resource_deposit_sound_id := resource_deposit_sound_id;
     Task_wwise_resource_gathering_sound_id := wwise_resource_gathering_sound_id;
     Task_wwise_resource_deposit_sound_id := wwise_resource_deposit_sound_id;
     Task_enabled := (-1) |}
  | _ => raise ValueError
  end.

(** task.py:128-198 Task.from_bytes_88 *)
Definition Task_from_bytes_88 : rd Task :=
  vals <- read_struct task_FORMAT_88 task_FORMAT_LENGTH_88 ;;
  match vals with
  | [VInt task_type; VInt id_; VInt is_default; VInt action_type; VInt class_id; VInt unit_id; VInt terrain_id; VInt resource_in; VInt resource_multiplier; VInt resource_out; VInt unused_resource; VFloat work_value_1; VFloat work_value_2; VFloat work_range; VInt auto_search_targets; VFloat search_wait_time; VInt enable_targeting; VInt combat_level_flag; VInt gather_type; VInt work_flag_2; VInt target_diplomacy; VInt carry_check; VInt pick_for_construction; VInt moving_graphic_id; VInt proceeding_graphic_id; VInt working_graphic_id; VInt carrying_graphic_id; VInt resource_gathering_sound_id; VInt resource_deposit_sound_id; VInt wwise_resource_gathering_sound_id; VInt wwise_resource_deposit_sound_id; VInt enabled] =>
    ret {| Task_task_type := task_type;
     Task_id := id_;
     Task_is_default := is_default;
     Task_action_type := action_type;
     Task_class_id := class_id;
     Task_unit_id := unit_id;
     Task_terrain_id := terrain_id;
     Task_resource_in := resource_in;
     Task_resource_multiplier := resource_multiplier;
     Task_resource_out := resource_out;
     Task_unused_resource := unused_resource;
     Task_work_value_1 := work_value_1;
     Task_work_value_2 := work_value_2;
     Task_work_range := work_range;
     Task_auto_search_targets := auto_search_targets;
     Task_search_wait_time := search_wait_time;
     Task_enable_targeting := enable_targeting;
     Task_combat_level_flag := combat_level_flag;
     Task_gather_type := gather_type;
     Task_work_flag_2 := work_flag_2;
     Task_target_diplomacy := target_diplomacy;
     Task_carry_check := carry_check;
     Task_pick_for_construction := pick_for_construction;
     Task_moving_graphic_id := moving_graphic_id;
     Task_proceeding_graphic_id := proceeding_graphic_id;
     Task_working_graphic_id := working_graphic_id;
     Task_carrying_graphic_id := carrying_graphic_id;
     Task_resource_gathering_sound_id := resource_gathering_sound_id;
     Task_resource_deposit_sound_id := resource_deposit_sound_id;
     Task_wwise_resource_gathering_sound_id := wwise_resource_gathering_sound_id;
     Task_wwise_resource_deposit_sound_id := wwise_resource_deposit_sound_id;
     Task_enabled := enabled |}
  | _ => raise ValueError
  end.

(** task.py:50-53 Task.from_bytes *)
Definition Task_from_bytes : rd Task :=
  version <- get_version ;;
  if version_ge version VER_88 then Task_from_bytes_88
  else (
    Task_from_bytes_84).

(** task.py:206-239 Task.to_bytes_84 *)
Definition Task_to_bytes_84 (self : Task) (version : Version) : res bytes :=
  (struct_pack task_FORMAT
      ([VInt (Task_task_type self);
       VInt (Task_id self);
       VInt (Task_is_default self);
       VInt (Task_action_type self);
       VInt (Task_class_id self);
       VInt (Task_unit_id self);
       VInt (Task_terrain_id self);
       VInt (Task_resource_in self);
       VInt (Task_resource_multiplier self);
       VInt (Task_resource_out self);
       VInt (Task_unused_resource self);
       VFloat (Task_work_value_1 self);
       VFloat (Task_work_value_2 self);
       VFloat (Task_work_range self);
       VInt (Task_auto_search_targets self);
       VFloat (Task_search_wait_time self);
       VInt (Task_enable_targeting self);
       VInt (Task_combat_level_flag self);
       VInt (Task_gather_type self);
       VInt (Task_work_flag_2 self);
       VInt (Task_target_diplomacy self);
       VInt (Task_carry_check self);
       VInt (Task_pick_for_construction self);
       VInt (Task_moving_graphic_id self);
       VInt (Task_proceeding_graphic_id self);
       VInt (Task_working_graphic_id self);
       VInt (Task_carrying_graphic_id self);
       VInt (Task_resource_gathering_sound_id self);
       VInt (Task_resource_deposit_sound_id self);
       VInt (Task_wwise_resource_gathering_sound_id self);
       VInt (Task_wwise_resource_deposit_sound_id self)])).

(** task.py:242-276 Task.to_bytes_88 *)
Definition Task_to_bytes_88 (self : Task) (version : Version) : res bytes :=
  (struct_pack task_FORMAT_88
      ([VInt (Task_task_type self);
       VInt (Task_id self);
       VInt (Task_is_default self);
       VInt (Task_action_type self);
       VInt (Task_class_id self);
       VInt (Task_unit_id self);
       VInt (Task_terrain_id self);
       VInt (Task_resource_in self);
       VInt (Task_resource_multiplier self);
       VInt (Task_resource_out self);
       VInt (Task_unused_resource self);
       VFloat (Task_work_value_1 self);
       VFloat (Task_work_value_2 self);
       VFloat (Task_work_range self);
       VInt (Task_auto_search_targets self);
       VFloat (Task_search_wait_time self);
       VInt (Task_enable_targeting self);
       VInt (Task_combat_level_flag self);
       VInt (Task_gather_type self);
       VInt (Task_work_flag_2 self);
       VInt (Task_target_diplomacy self);
       VInt (Task_carry_check self);
       VInt (Task_pick_for_construction self);
       VInt (Task_moving_graphic_id self);
       VInt (Task_proceeding_graphic_id self);
       VInt (Task_working_graphic_id self);
       VInt (Task_carrying_graphic_id self);
       VInt (Task_resource_gathering_sound_id self);
       VInt (Task_resource_deposit_sound_id self);
       VInt (Task_wwise_resource_gathering_sound_id self);
       VInt (Task_wwise_resource_deposit_sound_id self);
       VInt (Task_enabled self)])).

(** task.py:200-203 Task.to_bytes *)
Definition Task_to_bytes (self : Task) (version : Version) : res bytes :=
  if version_ge version VER_88 then Task_to_bytes_88 self version
  else (
    Task_to_bytes_84 self version).
