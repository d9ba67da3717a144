(** * Writers look only at the stored part. *)
From Verif Require Import Base PyInt PyFloat PyStr PyStruct DataTypes Versions Common Wire Layout Shape Update Convert Stored.
From Verif Require Import Codec CodecP CodecF CodecC P_Simple P_More P_Unit P_UnitR P_Civ P_DatFile Spec Theory ConvertP.
From Verif Require Import M_Sound M_PlayerColour M_Effect M_TerrainRestriction M_Graphic
  M_TerrainBlock M_RandomMaps M_Task M_UnitHeaders M_Unit M_Civ M_Tech M_TechTree M_DatFile.
From Coq Require Import ZifyBool.
Open Scope Z_scope.
Local Open Scope list_scope.
Local Notation length := List.length.

Lemma class_array_map {A} (tb : A -> Version -> res bytes) (f : A -> A) l v : (forall x, tb (f x) v = tb x v) ->
  write_class_array tb (map (option_map f) l) v = write_class_array tb l v.
Proof.
  intros H. rewrite !write_class_array_eq. f_equal. rewrite flat_map_map. apply flat_map_ext'. intros [x|]; cbn; [rewrite H|]; reflexivity.
Qed.
Lemma class_array_map_some {A} (tb : A -> Version -> res bytes) (f : A -> A) l v : (forall x, tb (f x) v = tb x v) ->
  write_class_array tb (map Some (map f l)) v = write_class_array tb (map Some l) v.
Proof.
  intros H. replace (map Some (map f l)) with (map (option_map f) (map Some l)) by (rewrite !map_map; reflexivity). apply class_array_map, H.
Qed.
Lemma len_map {A B} (f : A -> B) l : len (map f l) = len l.
Proof. unfold len. rewrite map_length. reflexivity. Qed.

Lemma Task_stored_same v x : Task_to_bytes (Task_stored v x) v = Task_to_bytes x v.
Proof. unfold Task_stored. destruct (since 88 v) eqn:V; [reflexivity|]. unfold Task_to_bytes. rewrite ge_88, V. destruct x; reflexivity. Qed.
Lemma UnitHeaders_stored_same v x : UnitHeaders_to_bytes (UnitHeaders_stored v x) v = UnitHeaders_to_bytes x v.
Proof.
  unfold UnitHeaders_stored, UnitHeaders_to_bytes. destruct x as [e o]. unfold truthy. cbn [with_UnitHeaders_task_list UnitHeaders_exists_ UnitHeaders_task_list].
  destruct (e =? 0); cbn [negb]; [reflexivity|]. destruct o as [l|]; cbn [option_map]; [|reflexivity].
  rewrite len_map, (class_array_map_some _ _ _ _ (Task_stored_same v)). reflexivity.
Qed.
Lemma Bird_stored_same v x : Bird_to_bytes (Bird_stored v x) v = Bird_to_bytes x v.
Proof.
  unfold Bird_stored, Bird_to_bytes. destruct x. cbn [with_Bird_tasks M_Unit.Bird_default_task_id M_Unit.Bird_search_radius M_Unit.Bird_work_rate
   M_Unit.Bird_drop_sites M_Unit.Bird_task_swap_group M_Unit.Bird_attack_sound M_Unit.Bird_move_sound M_Unit.Bird_wwise_attack_sound_id
   M_Unit.Bird_wwise_move_sound_id M_Unit.Bird_run_pattern M_Unit.Bird_tasks].
  rewrite len_map, (class_array_map_some _ _ _ _ (Task_stored_same v)). reflexivity.
Qed.
Lemma Type50_stored_same v x : Type50_to_bytes (Type50_stored v x) v = Type50_to_bytes x v.
Proof. unfold Type50_stored. destruct (since 84 v) eqn:V; [reflexivity|]. unfold Type50_to_bytes. rewrite ge_84, V. destruct x; reflexivity. Qed.
Lemma TrainLocation_stored_same v x : TrainLocation_to_bytes (TrainLocation_stored v x) v = TrainLocation_to_bytes x v.
Proof. unfold TrainLocation_stored. destruct (since 88 v) eqn:V; [reflexivity|]. unfold TrainLocation_to_bytes. rewrite ge_88, V. destruct x; reflexivity. Qed.
Lemma Creatable_stored_same v x : Creatable_to_bytes (Creatable_stored v x) v = Creatable_to_bytes x v.
Proof.
  unfold Creatable_stored, Creatable_to_bytes. rewrite ge_88, ge_84. destruct (since 88 v) eqn:V.
  { rewrite (since_88_84 v V). reflexivity. }
  unfold TrainLocation_stored. rewrite V.
  destruct (since 84 v); [unfold Creatable_to_bytes_84|unfold Creatable_to_bytes_78]; destruct x as [rc [|[? ? ? ?] l]]; reflexivity.
Qed.
Lemma sections_ext {B} t (w1 w2 w3 w4 w5 w6 w7 u1 u2 u3 u4 u5 u6 u7 : res bytes) (k j : bytes -> bytes -> bytes -> bytes -> bytes -> bytes -> bytes -> res B) :
  (has_speed t = true -> w1 = u1) -> (has_dead_fish t = true -> w2 = u2) -> (has_bird t = true -> w3 = u3) ->
  (has_type_50 t = true -> w4 = u4) -> (has_projectile t = true -> w5 = u5) -> (has_creatable t = true -> w6 = u6) ->
  (has_building t = true -> w7 = u7) -> (forall a b c d e f g, k a b c d e f g = j a b c d e f g) ->
  (s1 <-- (if has_speed t then w1 else Ok []) ;;; s2 <-- (if has_dead_fish t then w2 else Ok []) ;;;
   s3 <-- (if has_bird t then w3 else Ok []) ;;; s4 <-- (if has_type_50 t then w4 else Ok []) ;;;
   s5 <-- (if has_projectile t then w5 else Ok []) ;;; s6 <-- (if has_creatable t then w6 else Ok []) ;;;
   s7 <-- (if has_building t then w7 else Ok []) ;;; k s1 s2 s3 s4 s5 s6 s7)
  = (s1 <-- (if has_speed t then u1 else Ok []) ;;; s2 <-- (if has_dead_fish t then u2 else Ok []) ;;;
   s3 <-- (if has_bird t then u3 else Ok []) ;;; s4 <-- (if has_type_50 t then u4 else Ok []) ;;;
   s5 <-- (if has_projectile t then u5 else Ok []) ;;; s6 <-- (if has_creatable t then u6 else Ok []) ;;;
   s7 <-- (if has_building t then u7 else Ok []) ;;; j s1 s2 s3 s4 s5 s6 s7).
Proof.
  intros H1 H2 H3 H4 H5 H6 H7 K.
  assert (R : forall (m n : res bytes) (f g : bytes -> res B), m = n -> (forall a, f a = g a) -> rbind m f = rbind n g).
  { intros m n f g -> E. destruct n; cbn; auto. }
  apply R; [destruct (has_speed t); auto|]. intros a. apply R; [destruct (has_dead_fish t); auto|]. intros b.
  apply R; [destruct (has_bird t); auto|]. intros c. apply R; [destruct (has_type_50 t); auto|]. intros d.
  apply R; [destruct (has_projectile t); auto|]. intros e. apply R; [destruct (has_creatable t); auto|]. intros f.
  apply R; [destruct (has_building t); auto|]. intros g. apply K.
Qed.
Ltac section_same L := let H := fresh in intros H; cbv zeta; rewrite ?H; match goal with |- context [option_map _ ?o] => destruct o; [cbn [option_map]; rewrite !write_class_eq; apply L|reflexivity] | _ => reflexivity end.
Lemma Unit_stored_same v x : Unit_to_bytes (Unit_stored v x) v = Unit_to_bytes x v.
Proof.
  unfold Unit_to_bytes. rewrite ge_88. destruct (since 88 v) eqn:V.
  - unfold Unit_to_bytes_88. cbn [rbind]. rewrite !sections_write.
    replace (Unit_type (Unit_stored v x)) with (Unit_type x) by (destruct x; reflexivity).
    apply (sections_ext (Unit_type x)); unfold Unit_stored; rewrite V; destruct x; cbn -[write_class has_speed has_dead_fish has_bird has_type_50 has_projectile has_creatable has_building option_map struct_pack write_float join].
    8: reflexivity.
    + section_same I.
    + section_same I.
    + section_same Bird_stored_same.
    + section_same Type50_stored_same.
    + section_same I.
    + section_same Creatable_stored_same.
    + section_same I.
  - unfold Unit_to_bytes_84. cbn [rbind]. rewrite !sections_write.
    replace (Unit_type (Unit_stored v x)) with (Unit_type x) by (destruct x; reflexivity).
    apply (sections_ext (Unit_type x)); unfold Unit_stored; rewrite V; destruct x; cbn -[write_class has_speed has_dead_fish has_bird has_type_50 has_projectile has_creatable has_building option_map struct_pack write_float join].
    8: reflexivity.
    + section_same I.
    + section_same I.
    + section_same Bird_stored_same.
    + section_same Type50_stored_same.
    + section_same I.
    + section_same Creatable_stored_same.
    + section_same I.
Qed.
Lemma Civ_stored_same v x : Civ_to_bytes (Civ_stored v x) v = Civ_to_bytes x v.
Proof.
  unfold Civ_stored, Civ_to_bytes, Civ_unit_pointers. destruct x. cbn [with_Civ_units M_Civ.Civ_player_type M_Civ.Civ_name M_Civ.Civ_tech_tree_id
    M_Civ.Civ_team_bonus_id M_Civ.Civ_resources M_Civ.Civ_icon_set M_Civ.Civ_units].
  rewrite len_map, map_map, (class_array_map _ _ _ _ (Unit_stored_same v)).
  replace (map (fun x => match option_map (Unit_stored v) x with Some _ => 1 | None => 0 end) Civ_units)
    with (map (fun x : option Unit => match x with Some _ => 1 | None => 0 end) Civ_units) by (apply map_ext; intros [u|]; reflexivity).
  reflexivity.
Qed.
Lemma Tech_stored_same v x : Tech_to_bytes (Tech_stored v x) v = Tech_to_bytes x v.
Proof.
  unfold Tech_stored. destruct (since 88 v) eqn:V; [reflexivity|]. unfold Tech_to_bytes. rewrite ge_88, V.
  unfold Tech_to_bytes_84. destruct x. cbn [with_Tech_research_locations M_Tech.Tech_required_techs M_Tech.Tech_resource_costs M_Tech.Tech_required_tech_count
   M_Tech.Tech_civ M_Tech.Tech_full_tech_mode M_Tech.Tech_language_dll_name M_Tech.Tech_language_dll_description M_Tech.Tech_effect_id M_Tech.Tech_type
   M_Tech.Tech_icon_id M_Tech.Tech_language_dll_help M_Tech.Tech_language_dll_tech_tree M_Tech.Tech_name M_Tech.Tech_repeatable M_Tech.Tech_research_locations].
  destruct Tech_research_locations as [|t l]; reflexivity.
Qed.
Lemma DatFile_stored_same v x w : file_version (DatFile_version x) = Some v ->
  DatFile_to_bytes (DatFile_stored v x) w = DatFile_to_bytes x w.
Proof.
  intros V. unfold DatFile_to_bytes, DatFile_stored, DatFile_graphic_pointers. destruct x.
  cbn [with_DatFile_version with_DatFile_unit_headers with_DatFile_civs with_DatFile_techs M_DatFile.DatFile_version M_DatFile.DatFile_unit_headers
    M_DatFile.DatFile_civs M_DatFile.DatFile_techs M_DatFile.DatFile_float_ptr_terrain_tables M_DatFile.DatFile_terrain_pass_graphic_pointers
    M_DatFile.DatFile_terrain_restrictions M_DatFile.DatFile_player_colours M_DatFile.DatFile_sounds M_DatFile.DatFile_graphics
    M_DatFile.DatFile_terrain_block M_DatFile.DatFile_random_maps M_DatFile.DatFile_effects M_DatFile.DatFile_time_slice
    M_DatFile.DatFile_unit_kill_rate M_DatFile.DatFile_unit_kill_total M_DatFile.DatFile_unit_hit_point_rate M_DatFile.DatFile_unit_hit_point_total
    M_DatFile.DatFile_razing_kill_rate M_DatFile.DatFile_razing_kill_total M_DatFile.DatFile_tech_tree] in *.
  rewrite version_lookup_spec, V. cbn [rbind].
  rewrite !len_map, (class_array_map_some _ _ _ _ (UnitHeaders_stored_same v)), (class_array_map_some _ _ _ _ (Civ_stored_same v)),
   (class_array_map_some _ _ _ _ (Tech_stored_same v)). reflexivity.
Qed.
