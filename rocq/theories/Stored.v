(** * Specification: which part of an object a version stores.

    [Y_stored v y] is [y] with everything that version [v] has no place for replaced by
    fixed values. *)
From Verif Require Import Base PyFloat PyStr Versions Wire Layout Update Convert.
From Verif Require Import M_Task M_UnitHeaders M_Unit M_Civ M_Tech M_DatFile.
Open Scope Z_scope.
Local Open Scope list_scope.

(** [enabled] from 8.8 on. *)
Definition Task_stored (v : Version) (x : Task) : Task :=
  if since 88 v then x else with_Task_enabled (-1) x.
(** No tasks of a unit that does not exist. *)
Definition UnitHeaders_stored (v : Version) (x : UnitHeaders) : UnitHeaders :=
  with_UnitHeaders_task_list
    (if UnitHeaders_exists_ x =? 0 then None
     else option_map (map (Task_stored v)) (UnitHeaders_task_list x)) x.
Definition Bird_stored (v : Version) (x : Bird) : Bird :=
  with_Bird_tasks (map (Task_stored v) (Bird_tasks x)) x.
(** Five fields from 8.4 on. *)
Definition Type50_stored (v : Version) (x : Type50) : Type50 :=
  if since 84 v then x else
  with_Type50_damage_reflection f64_zero (with_Type50_friendly_fire_damage f64_one
  (with_Type50_interrupt_frame (-1) (with_Type50_garrison_firepower f64_zero
  (with_Type50_attack_graphic_2 (-1) x)))).
(** The hot key from 8.8 on. *)
Definition TrainLocation_stored (v : Version) (x : TrainLocation) : TrainLocation :=
  if since 88 v then x else with_TrainLocation_hot_key_id 16000 x.
(** Nine fields from 8.4 on; only the first train location before 8.8. *)
Definition Creatable_stored (v : Version) (x : Creatable) : Creatable :=
  let x := if since 84 v then x else
    with_Creatable_idle_attack_graphic (-1) (with_Creatable_charge_target 0
    (with_Creatable_charge_projectile_unit (-1) (with_Creatable_attack_priority 0
    (with_Creatable_invulnerability_level f64_zero (with_Creatable_button_icon_id (-1)
    (with_Creatable_button_short_tooltip_id (-1) (with_Creatable_button_extended_tooltip_id (-1)
    (with_Creatable_button_hotkey_action (-1) x)))))))) in
  if since 88 v then x
  else with_Creatable_train_locations (map (TrainLocation_stored v) (firstn 1 (Creatable_train_locations x))) x.
(** Only the sections the unit type calls for; the unit's own hot key before 8.8. *)
Definition Unit_stored (v : Version) (x : Unit) : Unit :=
  let t := Unit_type x in
  with_Unit_hot_key (if since 88 v then 16000 else Unit_hot_key x)
  (with_Unit_speed (if has_speed t then Unit_speed x else None)
  (with_Unit_dead_fish (if has_dead_fish t then Unit_dead_fish x else None)
  (with_Unit_bird (if has_bird t then option_map (Bird_stored v) (Unit_bird x) else None)
  (with_Unit_type_50 (if has_type_50 t then option_map (Type50_stored v) (Unit_type_50 x) else None)
  (with_Unit_projectile (if has_projectile t then Unit_projectile x else None)
  (with_Unit_creatable (if has_creatable t then option_map (Creatable_stored v) (Unit_creatable x) else None)
  (with_Unit_building (if has_building t then Unit_building x else None) x))))))).
Definition Civ_stored (v : Version) (x : Civ) : Civ :=
  with_Civ_units (map (option_map (Unit_stored v)) (Civ_units x)) x.
(** Before 8.8 only the first research location; none is stored like the placeholder. *)
Definition Tech_stored (v : Version) (x : Tech) : Tech :=
  if since 88 v then x
  else with_Tech_research_locations [hd no_research_location (Tech_research_locations x)] x.
Definition DatFile_stored (v : Version) (x : DatFile) : DatFile :=
  with_DatFile_unit_headers (map (UnitHeaders_stored v) (DatFile_unit_headers x))
  (with_DatFile_civs (map (Civ_stored v) (DatFile_civs x))
  (with_DatFile_techs (map (Tech_stored v) (DatFile_techs x)) x)).

(** All tasks, combat sections, creatable sections and units in a file. *)
Definition units_of (x : DatFile) : list Unit :=
  flat_map (fun c => flat_map (fun o => match o with Some u => [u] | None => [] end) (Civ_units c)) (DatFile_civs x).
Definition opt_list {A} (o : option A) : list A := match o with Some a => [a] | None => [] end.
Definition birds_of (x : DatFile) : list Bird := flat_map (fun u => opt_list (Unit_bird u)) (units_of x).
Definition type_50s_of (x : DatFile) : list Type50 := flat_map (fun u => opt_list (Unit_type_50 u)) (units_of x).
Definition creatables_of (x : DatFile) : list Creatable := flat_map (fun u => opt_list (Unit_creatable u)) (units_of x).
Definition tasks_of (x : DatFile) : list Task :=
  flat_map (fun h => match UnitHeaders_task_list h with Some l => l | None => [] end) (DatFile_unit_headers x)
  ++ flat_map Bird_tasks (birds_of x).
