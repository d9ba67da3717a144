(** * Specification: what changing the version of a data file does to it.

    [x.version = "VER 8.8"; x.save(..)] and loading the result.  [Y_converted v y] is the
    record that comes back when [y] is saved as version [v]. *)
From Verif Require Import Base PyFloat PyStr Versions Wire Layout Update.
From Verif Require Import M_Task M_UnitHeaders M_Unit M_Civ M_Tech M_DatFile.
Open Scope Z_scope.
Local Open Scope list_scope.

(** [enabled] does not exist before 8.8. *)
Definition Task_converted (v : Version) (x : Task) : Task :=
  if since 88 v then x else with_Task_enabled (-1) x.
Definition UnitHeaders_converted (v : Version) (x : UnitHeaders) : UnitHeaders :=
  with_UnitHeaders_task_list (option_map (map (Task_converted v)) (UnitHeaders_task_list x)) x.
Definition Bird_converted (v : Version) (x : Bird) : Bird :=
  with_Bird_tasks (map (Task_converted v) (Bird_tasks x)) x.
(** Five fields do not exist before 8.4. *)
Definition Type50_converted (v : Version) (x : Type50) : Type50 :=
  if since 84 v then x else
  with_Type50_damage_reflection f64_zero (with_Type50_friendly_fire_damage f64_one
  (with_Type50_interrupt_frame (-1) (with_Type50_garrison_firepower f64_zero
  (with_Type50_attack_graphic_2 (-1) x)))).
(** Nine fields do not exist before 8.4; before 8.8 there is only the first train location. *)
Definition Creatable_converted (v : Version) (x : Creatable) : Creatable :=
  let x := if since 84 v then x else
    with_Creatable_idle_attack_graphic (-1) (with_Creatable_charge_target 0
    (with_Creatable_charge_projectile_unit (-1) (with_Creatable_attack_priority 0
    (with_Creatable_invulnerability_level f64_zero (with_Creatable_button_icon_id (-1)
    (with_Creatable_button_short_tooltip_id (-1) (with_Creatable_button_extended_tooltip_id (-1)
    (with_Creatable_button_hotkey_action (-1) x)))))))) in
  if since 88 v then x
  else with_Creatable_train_locations (firstn 1 (Creatable_train_locations x)) x.
(** From 8.8 on a unit without creatable section has the hot key 16000. *)
Definition Unit_converted (v : Version) (x : Unit) : Unit :=
  let x := with_Unit_bird (option_map (Bird_converted v) (Unit_bird x)) x in
  let x := with_Unit_type_50 (option_map (Type50_converted v) (Unit_type_50 x)) x in
  let x := with_Unit_creatable (option_map (Creatable_converted v) (Unit_creatable x)) x in
  if since 88 v
  then match Unit_creatable x with None => with_Unit_hot_key 16000 x | Some _ => x end
  else x.
Definition Civ_converted (v : Version) (x : Civ) : Civ :=
  with_Civ_units (map (option_map (Unit_converted v)) (Civ_units x)) x.
(** Before 8.8 there is only the first research location, or a placeholder. *)
Definition Tech_converted (v : Version) (x : Tech) : Tech :=
  if since 88 v then x
  else with_Tech_research_locations [hd no_research_location (Tech_research_locations x)] x.
Definition DatFile_converted (v : Version) (x : DatFile) : DatFile :=
  with_DatFile_version (version_value v)
  (with_DatFile_unit_headers (map (UnitHeaders_converted v) (DatFile_unit_headers x))
  (with_DatFile_civs (map (Civ_converted v) (DatFile_civs x))
  (with_DatFile_techs (map (Tech_converted v) (DatFile_techs x)) x))).
(** [x.version = ..] *)
Definition DatFile_retagged (v : Version) (x : DatFile) : DatFile :=
  with_DatFile_version (version_value v) x.

(** What cannot be stored in an older version. *)
(** Before 7.8 a unit has exactly three drop sites. *)
Definition drop_sites_fit (v : Version) (x : Unit) : Prop :=
  match Unit_bird x with
  | Some b => since 78 v = false -> count (Bird_drop_sites b) = 3
  | None => True
  end.
(** Before 8.8 a creatable section has a train location. *)
Definition train_location_fits (v : Version) (x : Unit) : Prop :=
  match Unit_creatable x with
  | Some c => since 88 v = false -> Creatable_train_locations c <> []
  | None => True
  end.
(** All units of all civs. *)
Definition each_unit (P : Unit -> Prop) (x : DatFile) : Prop :=
  forall c u, In c (DatFile_civs x) -> In (Some u) (Civ_units c) -> P u.
