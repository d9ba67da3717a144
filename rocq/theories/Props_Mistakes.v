(** * C26: mistakes that saving does not notice. *)
From Verif Require Import Base PyInt PyFloat PyStr PyStruct DataTypes Versions Common Wire Layout Shape Flat Spec Update.
From Verif Require Import M_Sound M_PlayerColour M_Effect M_TerrainRestriction M_Graphic
  M_TerrainBlock M_RandomMaps M_Task M_UnitHeaders M_Unit M_Civ M_Tech M_TechTree M_DatFile.
From Verif Require Import Codec Theory FlatP Sample Props_Size.
Open Scope Z_scope.
Local Open Scope list_scope.
Local Notation length := List.length.

(** ** Vocabulary *)
(** Every number fits its field and every string can be encoded: nothing for to_bytes() to
    complain about, cell by cell of the table of the file. *)
Definition storable (x : DatFile) : Prop := forall c, In c (DatFile_flat_layout x) -> cell_bytes c <> None.
(** to_bytes() returns, and from_bytes() on what it returned raises or gives another object. *)
Definition saved_wrong (x : DatFile) : Prop := exists bs, to_bytes x = Ok bs /\ from_bytes bs <> Ok x.
(** A mistake that is never noticed when saving. *)
Definition unnoticed (mistake : Version -> DatFile -> Prop) : Prop :=
  forall x v, file_version (DatFile_version x) = Some v -> mistake v x -> storable x -> saved_wrong x.
(** [unnoticed] says something: there are storable files of these versions with the mistake. *)
Definition happens (versions : list Version) (mistake : Version -> DatFile -> Prop) : Prop :=
  forall v, In v versions -> exists x, file_version (DatFile_version x) = Some v /\ mistake v x /\ storable x.

(** The records of a file. *)
Definition graphic_of (x : DatFile) (g : Graphic) : Prop := In (Some g) (DatFile_graphics x).
Definition terrain_of (x : DatFile) (t : Terrain) : Prop := In t (TerrainBlock_terrains (DatFile_terrain_block x)).
Definition map_of (x : DatFile) (m : MapInfo) : Prop :=
  In m (RandomMaps_map_info_1 (DatFile_random_maps x)) \/ In m (RandomMaps_map_info_2 (DatFile_random_maps x)).
Definition unit_of (x : DatFile) (u : Unit) : Prop := exists c, In c (DatFile_civs x) /\ In (Some u) (Civ_units c).
Definition bird_of (x : DatFile) (b : Bird) : Prop := exists u, unit_of x u /\ Unit_bird u = Some b.
Definition type_50_of (x : DatFile) (b : Type50) : Prop := exists u, unit_of x u /\ Unit_type_50 u = Some b.
Definition creatable_of (x : DatFile) (b : Creatable) : Prop := exists u, unit_of x u /\ Unit_creatable u = Some b.
Definition building_of (x : DatFile) (b : Building) : Prop := exists u, unit_of x u /\ Unit_building u = Some b.
Definition task_of (x : DatFile) (t : Task) : Prop :=
  (exists b, bird_of x b /\ In t (Bird_tasks b)) \/
  (exists h l, In h (DatFile_unit_headers x) /\ UnitHeaders_task_list h = Some l /\ In t l).
Definition common_of (x : DatFile) (c : Common) : Prop :=
  (exists a, In a (TechTree_tech_tree_ages (DatFile_tech_tree x)) /\ TechTreeAge_common a = c) \/
  (exists a, In a (TechTree_building_connections (DatFile_tech_tree x)) /\ BuildingConnection_common a = c) \/
  (exists a, In a (TechTree_unit_connections (DatFile_tech_tree x)) /\ UnitConnection_common a = c) \/
  (exists a, In a (TechTree_research_connections (DatFile_tech_tree x)) /\ ResearchConnection_common a = c).

(** ** Saving looks at the cells only *)
Lemma storable_encode l : (forall c, In c l -> cell_bytes c <> None) -> exists bs, encode l = Some bs.
Proof.
  induction l as [|c l IH]; [exists []; reflexivity|]. intros H. destruct IH as [b E]; [intros d I; apply H; right; exact I|].
  rewrite encode_cons, E. destruct (cell_bytes c) as [a|] eqn:Ec; [eexists; reflexivity|]. destruct (H c (or_introl eq_refl) Ec).
Qed.
Theorem C26_saves : forall x, storable x -> exists bs, to_bytes x = Ok bs.
Proof.
  intros x S. destruct (storable_encode _ S) as [bs E]. pose proof (C07_DatFile_flat x UNDEFINED) as H. rewrite E in H.
  unfold to_bytes. destruct (DatFile_to_bytes x UNDEFINED) as [b|]; [|discriminate H]. exists b. reflexivity.
Qed.
Theorem C26_unnoticed : unnoticed (fun _ x => ~ DatFile_wf x).
Proof.
  intros x v V M S. destruct (C26_saves x S) as [bs E]. exists bs. split; [exact E|]. intros F. apply M. exact (from_bytes_wf bs x F).
Qed.
Lemma by_shape (mistake : Version -> DatFile -> Prop) :
  (forall v x, mistake v x -> DatFile_body_shape v x -> False) -> unnoticed mistake.
Proof.
  intros H x v V M S. apply (C26_unnoticed x v V); [|exact S]. intros [_ W]. unfold DatFile_shape in W. rewrite V in W. exact (H v x M W).
Qed.
Section Parts.
Context (v : Version) (x : DatFile) (W : DatFile_body_shape v x).
Lemma p_graphic g : graphic_of x g -> Graphic_shape v g.
Proof. intros I. destruct W as (_ & H & _). rewrite Forall_forall in H. exact (H _ I). Qed.
Lemma p_terrain t : terrain_of x t -> Terrain_shape v t.
Proof. intros I. destruct W as (_ & _ & (_ & _ & H) & _). rewrite Forall_forall in H. exact (H _ I). Qed.
Lemma p_map m : map_of x m -> MapInfo_shape v m.
Proof. intros I. destruct W as (_ & _ & _ & (H1 & H2) & _). rewrite Forall_forall in H1, H2. destruct I; auto. Qed.
Lemma p_header h : In h (DatFile_unit_headers x) -> UnitHeaders_shape v h.
Proof. intros I. destruct W as (_ & _ & _ & _ & H & _). rewrite Forall_forall in H. exact (H _ I). Qed.
Lemma p_unit u : unit_of x u -> Unit_shape v u.
Proof.
  intros (c & Ic & Iu). destruct W as (_ & _ & _ & _ & _ & H & _). rewrite Forall_forall in H. specialize (H _ Ic). unfold Civ_shape in H.
  rewrite Forall_forall in H. exact (H _ Iu).
Qed.
Lemma p_bird b : bird_of x b -> Bird_shape v b.
Proof. intros (u & I & E). destruct (p_unit u I) as (_ & _ & _ & _ & _ & H & _). rewrite E in H. exact H. Qed.
Lemma p_type_50 b : type_50_of x b -> Type50_shape v b.
Proof. intros (u & I & E). destruct (p_unit u I) as (_ & _ & _ & _ & _ & _ & H & _). rewrite E in H. exact H. Qed.
Lemma p_creatable b : creatable_of x b -> Creatable_core_shape v b.
Proof. intros (u & I & E). destruct (p_unit u I) as (_ & _ & _ & _ & _ & _ & _ & H & _). rewrite E in H. exact H. Qed.
Lemma p_building b : building_of x b -> Building_shape v b.
Proof. intros (u & I & E). destruct (p_unit u I) as (_ & _ & _ & _ & _ & _ & _ & _ & H). rewrite E in H. exact H. Qed.
Lemma p_task t : task_of x t -> Task_shape v t.
Proof.
  intros [(b & Ib & It)|(h & l & Ih & E & It)].
  - destruct (p_bird b Ib) as [_ H]. rewrite Forall_forall in H. auto.
  - pose proof (p_header h Ih) as H. unfold UnitHeaders_shape in H. rewrite E in H. destruct H as [_ H]. rewrite Forall_forall in H. auto.
Qed.
Lemma p_tech t : In t (DatFile_techs x) -> Tech_shape v t.
Proof. intros I. destruct W as (_ & _ & _ & _ & _ & _ & H & _). rewrite Forall_forall in H. exact (H _ I). Qed.
Lemma p_tree : TechTree_shape v (DatFile_tech_tree x).
Proof. apply W. Qed.
Lemma p_common c : common_of x c -> Common_shape v c.
Proof.
  destruct p_tree as (H1 & H2 & H3 & H4). rewrite Forall_forall in H1, H2, H3, H4.
  intros [(a & I & E)|[(a & I & E)|[(a & I & E)|(a & I & E)]]]; subst c; [apply (H1 a I)|apply (H2 a I)|apply (H3 a I)|apply (H4 a I)].
Qed.
End Parts.

(** ** The mistakes *)
(** *** Terrains *)
Definition wrong_terrain_count (v : Version) (x : DatFile) : Prop := count (TerrainBlock_terrains (DatFile_terrain_block x)) <> 200.
Definition wrong_tile_sizes (v : Version) (x : DatFile) : Prop := count (TerrainBlock_tile_sizes (DatFile_terrain_block x)) <> 19.
Definition wrong_terrain_tuples (v : Version) (x : DatFile) : Prop := exists t, terrain_of x t /\
  (count (Terrain_colors t) <> 3 \/ count (Terrain_cliff_colors t) <> 2 \/ count (Terrain_frame_data t) <> 19 \/
   count (Terrain_terrain_dimensions t) <> 2 \/ count (Terrain_terrain_unit_masked_density t) <> 30 \/
   count (Terrain_terrain_unit_id t) <> 30 \/ count (Terrain_terrain_unit_density t) <> 30 \/
   count (Terrain_terrain_unit_centering t) <> 30).
(** Two restrictions for different numbers of terrains. *)
Definition ragged_restrictions (v : Version) (x : DatFile) : Prop := exists r s,
  In r (DatFile_terrain_restrictions x) /\ In s (DatFile_terrain_restrictions x) /\
  length (TerrainRestriction_passable_buildable_dmg_multiplier r) <> length (TerrainRestriction_passable_buildable_dmg_multiplier s).
Theorem C26_terrain_count : unnoticed wrong_terrain_count.
Proof. apply by_shape. intros v x M W. apply M. apply W. Qed.
Theorem C26_tile_sizes : unnoticed wrong_tile_sizes.
Proof. apply by_shape. intros v x M W. apply M. apply W. Qed.
Theorem C26_terrain_tuples : unnoticed wrong_terrain_tuples.
Proof. apply by_shape. intros v x (t & I & M) W. pose proof (p_terrain v x W t I) as H. unfold Terrain_shape in H. tauto. Qed.
Theorem C26_ragged_restrictions : unnoticed ragged_restrictions.
Proof.
  apply by_shape. intros v x (r & s & Ir & Is & M) (H & _). rewrite Forall_forall in H. pose proof (H r Ir) as Hr. pose proof (H s Is) as Hs.
  apply M, Nat2Z.inj. exact (eq_trans Hr (eq_sym Hs)).
Qed.
(** *** Graphics *)
Definition wrong_coordinates (v : Version) (x : DatFile) : Prop := exists g, graphic_of x g /\ count (Graphic_coordinates g) <> 4.
(** Angle sounds that are not used, or another number of them than there are angles. *)
Definition wrong_angle_sounds (v : Version) (x : DatFile) : Prop := exists g, graphic_of x g /\
  ((Graphic_angle_sounds_used g = 0 /\ Graphic_angle_sounds g <> []) \/
   (Graphic_angle_sounds_used g <> 0 /\ Graphic_angle_count g >= 0 /\ count (Graphic_angle_sounds g) <> Graphic_angle_count g)).
Theorem C26_coordinates : unnoticed wrong_coordinates.
Proof. apply by_shape. intros v x (g & I & M) W. pose proof (p_graphic v x W g I) as H. unfold Graphic_shape in H. tauto. Qed.
Theorem C26_angle_sounds : unnoticed wrong_angle_sounds.
Proof.
  apply by_shape. intros v x (g & I & M) W. destruct (p_graphic v x W g I) as [_ H]. clear -M H.
  destruct M as [[M1 M2]|(M1 & M2 & M3)].
  - rewrite M1 in H. rewrite Z.eqb_refl in H. destruct (Graphic_angle_sounds g); [apply M2; reflexivity|]. unfold count in H. cbn [List.length] in H. discriminate H.
  - destruct (Z.eqb_spec (Graphic_angle_sounds_used g) 0); [contradiction|]. lia.
Qed.
(** *** Random maps *)
Definition wrong_map_sizes (v : Version) (x : DatFile) : Prop := exists m, map_of x m /\
  (MapInfo_map_lands_size m <> count (MapInfo_map_lands m) \/ MapInfo_map_terrains_size m <> count (MapInfo_map_terrains m) \/
   MapInfo_map_units_size m <> count (MapInfo_map_units m) \/ MapInfo_map_elevations_size m <> count (MapInfo_map_elevations m)).
Theorem C26_map_sizes : unnoticed wrong_map_sizes.
Proof. apply by_shape. intros v x (m & I & M) W. pose proof (p_map v x W m I) as H. unfold MapInfo_shape in H. tauto. Qed.
(** *** Unit headers *)
(** Marked as existing without a task list, or the other way round. *)
Definition wrong_existence (v : Version) (x : DatFile) : Prop := exists h, In h (DatFile_unit_headers x) /\
  ((UnitHeaders_exists_ h <> 0 /\ UnitHeaders_task_list h = None) \/ (UnitHeaders_exists_ h = 0 /\ UnitHeaders_task_list h <> None)).
Theorem C26_existence : unnoticed wrong_existence.
Proof.
  apply by_shape. intros v x (h & I & M) W. pose proof (p_header v x W h I) as H. unfold UnitHeaders_shape in H.
  destruct (UnitHeaders_task_list h) as [l|]; destruct M as [[M1 M2]|[M1 M2]]; try congruence; tauto.
Qed.
(** *** Units *)
Definition wrong_drop_sites (v : Version) (x : DatFile) : Prop := since 78 v = false /\ exists b, bird_of x b /\ count (Bird_drop_sites b) <> 3.
(** A section that the type of the unit has is missing, or one that it does not have is there. *)
Definition wrong_sections (v : Version) (x : DatFile) : Prop := exists u, unit_of x u /\
  let t := Unit_type u in
  (present (Unit_speed u) <> has_speed t \/ present (Unit_dead_fish u) <> has_dead_fish t \/ present (Unit_bird u) <> has_bird t \/
   present (Unit_type_50 u) <> has_type_50 t \/ present (Unit_projectile u) <> has_projectile t \/
   present (Unit_creatable u) <> has_creatable t \/ present (Unit_building u) <> has_building t).
Definition wrong_unit_tuples (v : Version) (x : DatFile) : Prop := exists u, unit_of x u /\
  (count (Unit_placement_side_terrain u) <> 2 \/ count (Unit_placement_terrain u) <> 2 \/ count (Unit_clearance_size u) <> 2 \/
   count (Unit_standing_graphic u) <> 2 \/ count (Unit_resource_storages u) <> 3).
Definition wrong_section_tuples (v : Version) (x : DatFile) : Prop :=
  (exists b, type_50_of x b /\ count (Type50_graphic_displacement b) <> 3) \/
  (exists b, creatable_of x b /\ count (Creatable_resource_costs b) <> 3) \/
  (exists b, building_of x b /\ count (Building_annexes b) <> 4).
(** More than one train location before 8.8 (none at all raises IndexError, see C39). *)
Definition wrong_train_locations (v : Version) (x : DatFile) : Prop :=
  since 88 v = false /\ exists b, creatable_of x b /\ count (Creatable_train_locations b) <> 1.
(** The hot key of a unit that can be created is not that of its first train location. *)
Definition wrong_hot_key (v : Version) (x : DatFile) : Prop := exists u c l ls, unit_of x u /\ Unit_creatable u = Some c /\
  Creatable_train_locations c = l :: ls /\ Unit_hot_key u <> TrainLocation_hot_key_id l.
Theorem C26_drop_sites : unnoticed wrong_drop_sites.
Proof. apply by_shape. intros v x (V & b & I & M) W. exact (M (proj1 (p_bird v x W b I) V)). Qed.
Theorem C26_sections : unnoticed wrong_sections.
Proof.
  apply by_shape. intros v x (u & I & M) W. destruct (p_unit v x W u I) as (_ & _ & _ & H & _). unfold Unit_sections_shape in H.
  cbn zeta in M. clear -M H. tauto.
Qed.
Theorem C26_unit_tuples : unnoticed wrong_unit_tuples.
Proof.
  apply by_shape. intros v x (u & I & M) W. destruct (p_unit v x W u I) as (H1 & H2 & H3 & _). unfold Unit_arity in H2. clear -M H1 H2 H3. tauto.
Qed.
Theorem C26_section_tuples : unnoticed wrong_section_tuples.
Proof.
  apply by_shape. intros v x [(b & I & M)|[(b & I & M)|(b & I & M)]] W; apply M.
  - apply (p_type_50 v x W b I).
  - apply (p_creatable v x W b I).
  - apply (p_building v x W b I).
Qed.
Theorem C26_train_locations : unnoticed wrong_train_locations.
Proof. apply by_shape. intros v x (V & b & I & M) W. apply M. exact (proj1 (proj2 (proj2 (p_creatable v x W b I))) V). Qed.
Theorem C26_hot_key : unnoticed wrong_hot_key.
Proof.
  apply by_shape. intros v x (u & c & l & ls & I & Ec & El & M) W. destruct (p_unit v x W u I) as (_ & _ & _ & _ & H & _). apply M.
  assert (T : train_hot_key u = TrainLocation_hot_key_id l) by (unfold train_hot_key; rewrite Ec, El; reflexivity). rewrite <- T.
  unfold Unit_hot_key_shape in H. destruct (since 88 v); [exact H|]. apply H. rewrite Ec. discriminate.
Qed.
(** *** Fields that the version of the file does not store *)
Definition unstored_task_enabled (v : Version) (x : DatFile) : Prop := since 88 v = false /\ exists t, task_of x t /\ Task_enabled t <> -1.
Definition unstored_type_50 (v : Version) (x : DatFile) : Prop := since 84 v = false /\ exists b, type_50_of x b /\
  (Type50_damage_reflection b <> f64_zero \/ Type50_friendly_fire_damage b <> f64_one \/ Type50_interrupt_frame b <> -1 \/
   Type50_garrison_firepower b <> f64_zero \/ Type50_attack_graphic_2 b <> -1).
Definition unstored_creatable (v : Version) (x : DatFile) : Prop := since 84 v = false /\ exists b, creatable_of x b /\
  (Creatable_idle_attack_graphic b <> -1 \/ Creatable_charge_target b <> 0 \/ Creatable_charge_projectile_unit b <> -1 \/
   Creatable_attack_priority b <> 0 \/ Creatable_invulnerability_level b <> f64_zero \/ Creatable_button_icon_id b <> -1 \/
   Creatable_button_short_tooltip_id b <> -1 \/ Creatable_button_extended_tooltip_id b <> -1 \/ Creatable_button_hotkey_action b <> -1).
Theorem C26_task_enabled : unnoticed unstored_task_enabled.
Proof. apply by_shape. intros v x (V & t & I & M) W. exact (M (p_task v x W t I V)). Qed.
Theorem C26_type_50 : unnoticed unstored_type_50.
Proof. apply by_shape. intros v x (V & b & I & M) W. pose proof (proj2 (p_type_50 v x W b I) V) as H. clear -M H. tauto. Qed.
Theorem C26_creatable : unnoticed unstored_creatable.
Proof.
  apply by_shape. intros v x (V & b & I & M) W. pose proof (proj2 (proj2 (proj2 (p_creatable v x W b I))) V) as H. clear -M H. tauto.
Qed.
(** *** Technologies and the tech tree *)
Definition wrong_tech_tuples (v : Version) (x : DatFile) : Prop := exists t, In t (DatFile_techs x) /\
  (count (Tech_required_techs t) <> 6 \/ count (Tech_resource_costs t) <> 3).
Definition wrong_research_locations (v : Version) (x : DatFile) : Prop :=
  since 88 v = false /\ exists t, In t (DatFile_techs x) /\ count (Tech_research_locations t) <> 1.
Definition wrong_tree_tuples (v : Version) (x : DatFile) : Prop :=
  (exists c, common_of x c /\ (count (Common_unit_research c) <> 10 \/ count (Common_mode c) <> 10)) \/
  (exists a, In a (TechTree_tech_tree_ages (DatFile_tech_tree x)) /\
     (count (TechTreeAge_buildings_per_zone a) <> 10 \/ count (TechTreeAge_group_length_per_zone a) <> 10)) \/
  (exists b, In b (TechTree_building_connections (DatFile_tech_tree x)) /\
     (count (BuildingConnection_units_techs_total b) <> 5 \/ count (BuildingConnection_units_techs_first b) <> 5)).
Theorem C26_tech_tuples : unnoticed wrong_tech_tuples.
Proof. apply by_shape. intros v x (t & I & M) W. pose proof (p_tech v x W t I) as H. unfold Tech_shape in H. tauto. Qed.
Theorem C26_research_locations : unnoticed wrong_research_locations.
Proof. apply by_shape. intros v x (V & t & I & M) W. exact (M (proj2 (proj2 (p_tech v x W t I)) V)). Qed.
Theorem C26_tree_tuples : unnoticed wrong_tree_tuples.
Proof.
  apply by_shape. intros v x M W. destruct (p_tree v x W) as (H1 & H2 & _). rewrite Forall_forall in H1, H2.
  destruct M as [(c & I & M)|[(a & I & M)|(b & I & M)]].
  - pose proof (p_common v x W c I) as H. unfold Common_shape in H. tauto.
  - pose proof (H1 a I) as H. unfold TechTreeAge_shape in H. tauto.
  - pose proof (H2 b I) as H. unfold BuildingConnection_shape in H. tauto.
Qed.
(** *** The version string *)
Theorem C26_undefined : forall x, DatFile_version x = version_value UNDEFINED -> storable x -> saved_wrong x.
Proof.
  intros x U S. refine (C26_unnoticed x UNDEFINED _ _ S); [rewrite U; reflexivity|]. intros [C _].
  unfold DatFile_layout in C. rewrite U in C. cbn [file_version] in C.
  apply cells_ok_guard in C as [_ C]. apply cells_ok_app in C as [C _]. discriminate C.
Qed.

(** ** They happen *)
Definition storable_cell (c : cell) : bool :=
  match c with
  | U8 z => within 0 z 255
  | I8 z => within (-128) z 127
  | U16 z => within 0 z 65535
  | I16 z => within (-32768) z 32767
  | U32 z => within 0 z 4294967295
  | I32 z => within (-2147483648) z 2147483647
  | F32 _ => true
  | F32s x => negb (f64_too_large x)
  | Text s => forallb scalar s && within 0 (Z.of_nat (length (utf8 s))) 65535
  | Padded _ s => forallb scalar s
  | Refuse => false
  end.
Lemma storable_cell_bytes c : storable_cell c = true -> cell_bytes c <> None.
Proof.
  destruct c; unfold storable_cell, cell_bytes; try discriminate;
    match goal with |- context [if ?b then _ else _] => destruct b; cbn; discriminate end.
Qed.
Lemma storable_by x : forallb storable_cell (DatFile_flat_layout x) = true -> storable x.
Proof. intros H c I. rewrite forallb_forall in H. exact (storable_cell_bytes c (H c I)). Qed.

Definition one_unit (v : Version) (u : Unit) : DatFile := with_DatFile_civs [with_Civ_units [Some u] (sample_Civ v)] (sample v).
Definition one_graphic (v : Version) (g : Graphic) : DatFile := with_DatFile_graphics [Some g] (sample v).
Definition one_header (v : Version) (h : UnitHeaders) : DatFile := with_DatFile_unit_headers [h] (sample v).
Definition one_tech (v : Version) (t : Tech) : DatFile := with_DatFile_techs [t] (sample v).
Definition one_map (v : Version) (m : MapInfo) : DatFile :=
  with_DatFile_random_maps (with_RandomMaps_map_info_1 [m] (with_RandomMaps_map_info_2 [sample_MapInfo v] (sample_RandomMaps v))) (sample v).
Definition terrain_block (v : Version) (b : TerrainBlock) : DatFile := with_DatFile_terrain_block b (sample v).
Definition tech_tree (v : Version) (b : TechTree) : DatFile := with_DatFile_tech_tree b (sample v).
(** The terrain block, which is the bulk of the file, is looked at once for each version. *)
Lemma block_table x v : exists pre post, forall b,
  DatFile_flat_body v (with_DatFile_terrain_block b x) = pre ++ TerrainBlock_layout v b ++ post.
Proof.
  destruct x. unfold DatFile_flat_body, terrains_used. cbn [with_DatFile_terrain_block M_DatFile.DatFile_version M_DatFile.DatFile_float_ptr_terrain_tables
    M_DatFile.DatFile_terrain_pass_graphic_pointers M_DatFile.DatFile_terrain_restrictions M_DatFile.DatFile_player_colours M_DatFile.DatFile_sounds
    M_DatFile.DatFile_graphics M_DatFile.DatFile_terrain_block
    M_DatFile.DatFile_random_maps M_DatFile.DatFile_effects M_DatFile.DatFile_unit_headers M_DatFile.DatFile_civs M_DatFile.DatFile_techs M_DatFile.DatFile_time_slice M_DatFile.DatFile_unit_kill_rate M_DatFile.DatFile_unit_kill_total M_DatFile.DatFile_unit_hit_point_rate M_DatFile.DatFile_unit_hit_point_total M_DatFile.DatFile_razing_kill_rate M_DatFile.DatFile_razing_kill_total M_DatFile.DatFile_tech_tree].
  match goal with |- exists p q, forall t, ?a1 ++ ?a2 ++ ?a3 ++ ?a4 ++ ?a5 ++ ?a6 ++ ?a7 ++ ?a8 ++ ?a9 ++ ?a10 ++ ?a11 ++ _ ++ ?d = _ =>
    exists (a1 ++ a2 ++ a3 ++ a4 ++ a5 ++ a6 ++ a7 ++ a8 ++ a9 ++ a10 ++ a11), d end.
  intros t. rewrite <- !app_assoc. reflexivity.
Qed.
Lemma swap_block x v b : file_version (DatFile_version x) = Some v ->
  forallb storable_cell (DatFile_flat_layout (with_DatFile_terrain_block b x)) = true ->
  forallb storable_cell (TerrainBlock_layout v (DatFile_terrain_block x)) = true -> storable x.
Proof.
  intros V A B. apply storable_by. revert A. unfold DatFile_flat_layout.
  replace (DatFile_version (with_DatFile_terrain_block b x)) with (DatFile_version x) by (destruct x; reflexivity). rewrite V.
  replace (DatFile_float_ptr_terrain_tables (with_DatFile_terrain_block b x)) with (DatFile_float_ptr_terrain_tables x) by (destruct x; reflexivity).
  replace (DatFile_terrain_pass_graphic_pointers (with_DatFile_terrain_block b x)) with (DatFile_terrain_pass_graphic_pointers x) by (destruct x; reflexivity).
  replace (DatFile_terrain_restrictions (with_DatFile_terrain_block b x)) with (DatFile_terrain_restrictions x) by (destruct x; reflexivity).
  destruct (block_table x v) as (pre & post & T). rewrite (T b).
  replace (DatFile_flat_body v x) with (pre ++ TerrainBlock_layout v (DatFile_terrain_block x) ++ post)
    by (rewrite <- T; f_equal; destruct x; reflexivity).
  unfold guard. destruct (_ && _); [|discriminate]. rewrite !forallb_app. intros A. rewrite B.
  repeat (apply andb_prop in A as [? A]; apply andb_true_intro; split; [assumption|]).
  apply andb_prop in A as [_ A]. exact A.
Qed.
Lemma sample_Terrain_storable v : forallb storable_cell (Terrain_layout v (sample_Terrain v)) = true.
Proof. destruct v; vm_compute; reflexivity. Qed.
Lemma terrains_storable v n : forallb storable_cell (flat_map (Terrain_layout v) (repeat (sample_Terrain v) n)) = true.
Proof. induction n; [reflexivity|]. cbn [repeat flat_map]. rewrite forallb_app, sample_Terrain_storable. exact IHn. Qed.
Definition the_block (v : Version) (tiles : list TileSize) (first : list Terrain) (n : nat) : TerrainBlock :=
  with_TerrainBlock_tile_sizes tiles (with_TerrainBlock_terrains (first ++ repeat (sample_Terrain v) n) (sample_TerrainBlock v)).
Lemma block_storable v tiles first n : forallb storable_cell (flat_map (TileSize_layout v) tiles) = true ->
  forallb storable_cell (flat_map (Terrain_layout v) first) = true -> forallb storable_cell (TerrainBlock_layout v (the_block v tiles first n)) = true.
Proof.
  intros A B. unfold TerrainBlock_layout, the_block. rewrite !forallb_app.
  cbn [sample_TerrainBlock with_TerrainBlock_tile_sizes with_TerrainBlock_terrains TerrainBlock_tile_sizes TerrainBlock_terrains].
  rewrite flat_map_app, forallb_app, A, B, terrains_storable. vm_compute. reflexivity.
Qed.
Lemma sample_block_storable v : forallb storable_cell (TerrainBlock_layout v (sample_TerrainBlock v)) = true.
Proof.
  replace (sample_TerrainBlock v) with (the_block v (repeat (sample_TileSize v) 19) [] 200) by reflexivity.
  apply block_storable; [destruct v; vm_compute; reflexivity|reflexivity].
Qed.
Ltac case_with w solve_block := let v := fresh "v" in let N := fresh in intros v N; exists (w v);
  destruct N as [<-|[]];
  (split; [vm_compute; reflexivity|split; [|
     match goal with |- storable ?x => let ver := eval vm_compute in (match file_version (DatFile_version x) with Some ver => ver | None => UNDEFINED end) in
       apply (swap_block x ver (the_block ver [] [] 0)); [vm_compute; reflexivity|vm_compute; reflexivity|solve_block ver] end]]).
Ltac case_of w := case_with w ltac:(fun ver => match goal with |- context [DatFile_terrain_block ?x] =>
  let E := fresh in assert (E : DatFile_terrain_block x = sample_TerrainBlock ver) by (lazy beta delta [one_unit one_graphic one_header one_tech one_map tech_tree sample sample_DatFile
    with_DatFile_civs with_DatFile_graphics with_DatFile_unit_headers with_DatFile_techs with_DatFile_random_maps with_DatFile_tech_tree with_DatFile_terrain_restrictions
    with_DatFile_version DatFile_terrain_block] iota; reflexivity);
  rewrite E; apply sample_block_storable end).
Lemma terrain_block_storable v tiles first n : v <> UNDEFINED -> forallb storable_cell (flat_map (TileSize_layout v) tiles) = true ->
  forallb storable_cell (flat_map (Terrain_layout v) first) = true -> storable (terrain_block v (the_block v tiles first n)).
Proof.
  intros N A B. apply (swap_block _ v (the_block v [] [] 0)).
  - change (file_version (version_value v) = Some v). destruct v; [congruence|..]; vm_compute; reflexivity.
  - destruct v; [congruence|..]; vm_compute; reflexivity.
  - change (DatFile_terrain_block (terrain_block v (the_block v tiles first n))) with (the_block v tiles first n). apply block_storable; assumption.
Qed.
Lemma terrain_block_version v b : v <> UNDEFINED -> file_version (DatFile_version (terrain_block v b)) = Some v.
Proof. intros N. change (file_version (version_value v) = Some v). destruct v; [congruence|..]; vm_compute; reflexivity. Qed.
Ltac case_block tiles first n := let v := fresh "v" in let I := fresh in let N := fresh in intros v I;
  assert (N : v <> UNDEFINED) by (destruct I as [<-|[]]; discriminate); clear I; exists (terrain_block v (the_block v (tiles v) (first v) n));
  (split; [apply terrain_block_version; exact N|split; [|apply terrain_block_storable; [exact N|destruct v; vm_compute; reflexivity|destruct v; vm_compute; reflexivity]]]).
Example C26_case_terrain_count : happens [VER_88] wrong_terrain_count.
Proof. case_block (fun v => repeat (sample_TileSize v) 19) (fun v : Version => @nil Terrain) 199%nat. intros E. vm_compute in E. discriminate E. Qed.
Example C26_case_tile_sizes : happens [VER_88] wrong_tile_sizes.
Proof. case_block (fun v => [sample_TileSize v]) (fun v : Version => @nil Terrain) 200%nat. intros E. vm_compute in E. discriminate E. Qed.
Example C26_case_terrain_tuples : happens [VER_88] wrong_terrain_tuples.
Proof.
  case_block (fun v => repeat (sample_TileSize v) 19) (fun v => [with_Terrain_colors [1; 2] (sample_Terrain v)]) 199%nat.
  eexists; split; [left; reflexivity|left; intros E; vm_compute in E; discriminate E].
Qed.
Example C26_case_ragged_restrictions : happens [VER_88] ragged_restrictions.
Proof.
  case_of (fun v => with_DatFile_terrain_restrictions [sample_TerrainRestriction v;
      {| TerrainRestriction_passable_buildable_dmg_multiplier := []; TerrainRestriction_terrain_pass_graphics := [] |}] (sample v));
    (eexists; eexists; split; [left; reflexivity|split; [right; left; reflexivity|vm_compute; discriminate]]).
Qed.
Example C26_case_coordinates : happens [VER_88] wrong_coordinates.
Proof. case_of (fun v => one_graphic v (with_Graphic_coordinates [1; 2; 3] (sample_Graphic v))); (eexists; split; [left; reflexivity|vm_compute; discriminate]). Qed.
Example C26_case_angle_sounds : happens [VER_88] wrong_angle_sounds.
Proof.
  case_of (fun v => one_graphic v (with_Graphic_angle_sounds_used 1 (with_Graphic_angle_count 8 (with_Graphic_angle_sounds [] (sample_Graphic v)))));
    (eexists; split; [left; reflexivity|right; vm_compute; split; [discriminate|split; discriminate]]).
Qed.
Example C26_case_angle_sounds_unused : happens [VER_88] wrong_angle_sounds.
Proof.
  case_of (fun v => one_graphic v (with_Graphic_angle_sounds_used 0 (with_Graphic_angle_sounds [sample_GraphicAngleSound v] (sample_Graphic v))));
    (eexists; split; [left; reflexivity|left; vm_compute; split; [reflexivity|discriminate]]).
Qed.
Example C26_case_map_sizes : happens [VER_88] wrong_map_sizes.
Proof.
  case_of (fun v => one_map v (with_MapInfo_map_units_size 77 (sample_MapInfo v)));
    (eexists; split; [left; left; reflexivity|right; right; left; vm_compute; discriminate]).
Qed.
Example C26_case_existence : happens [VER_88] wrong_existence.
Proof.
  case_of (fun v => one_header v {| UnitHeaders_exists_ := 1; UnitHeaders_task_list := None |});
    (eexists; split; [left; reflexivity|left; vm_compute; split; [discriminate|reflexivity]]).
Qed.
Example C26_case_drop_sites : happens [VER_77] wrong_drop_sites.
Proof.
  case_of (fun v => one_unit v (with_Unit_bird (Some (with_Bird_drop_sites [1; 2] (sample_Bird v))) (sample_Unit v 70)));
    (split; [reflexivity|eexists; split; [eexists; split; [eexists; split; [left; reflexivity|left; reflexivity]|reflexivity]|vm_compute; discriminate]]).
Qed.
Ltac the_unit := eexists; split; [eexists; split; [left; reflexivity|left; reflexivity]|].
Example C26_case_sections : happens [VER_88] wrong_sections.
Proof. case_of (fun v => one_unit v (with_Unit_creatable None (sample_Unit v 70))); (the_unit; right; right; right; right; right; left; vm_compute; discriminate). Qed.
Example C26_case_extra_section : happens [VER_88] wrong_sections.
Proof.
  case_of (fun v => one_unit v (with_Unit_type 10 (sample_Unit v 70))); (the_unit; right; right; right; right; right; left; vm_compute; discriminate).
Qed.
(** One value moved from one tuple to the next. *)
Example C26_case_unit_tuples : happens [VER_88] wrong_unit_tuples.
Proof.
  case_of (fun v => one_unit v (with_Unit_placement_side_terrain [1] (with_Unit_placement_terrain [2; 3; 4] (sample_Unit v 70))));
    (the_unit; left; vm_compute; discriminate).
Qed.
Example C26_case_storages : happens [VER_88] wrong_unit_tuples.
Proof. case_of (fun v => one_unit v (with_Unit_resource_storages [] (sample_Unit v 70))); (the_unit; right; right; right; right; vm_compute; discriminate). Qed.
Example C26_case_section_tuples : happens [VER_88] wrong_section_tuples.
Proof.
  case_of (fun v => one_unit v (with_Unit_type_50 (Some (with_Type50_graphic_displacement [] (sample_Type50 v))) (sample_Unit v 70)));
    (left; eexists; split; [the_unit; reflexivity|vm_compute; discriminate]).
Qed.
Example C26_case_train_locations : happens [VER_84] wrong_train_locations.
Proof.
  case_of (fun v => one_unit v (with_Unit_creatable (Some (with_Creatable_train_locations [sample_TrainLocation v; sample_TrainLocation v] (sample_Creatable v))) (sample_Unit v 70)));
    (split; [reflexivity|eexists; split; [the_unit; reflexivity|vm_compute; discriminate]]).
Qed.
Example C26_case_hot_key : happens [VER_88] wrong_hot_key.
Proof.
  case_of (fun v => one_unit v (with_Unit_hot_key 5 (sample_Unit v 70)));
    (eexists; eexists; eexists; eexists; split; [eexists; split; [left; reflexivity|left; reflexivity]|split; [reflexivity|split; [reflexivity|vm_compute; discriminate]]]).
Qed.
Example C26_case_task_enabled : happens [VER_84] unstored_task_enabled.
Proof.
  case_of (fun v => one_header v {| UnitHeaders_exists_ := 1; UnitHeaders_task_list := Some [with_Task_enabled 1 (sample_Task v)] |});
    (split; [reflexivity|eexists; split; [right; eexists; eexists; split; [left; reflexivity|split; [reflexivity|left; reflexivity]]|vm_compute; discriminate]]).
Qed.
Example C26_case_type_50 : happens [VER_78] unstored_type_50.
Proof.
  case_of (fun v => one_unit v (with_Unit_type_50 (Some (with_Type50_interrupt_frame 3 (sample_Type50 v))) (sample_Unit v 70)));
    (split; [reflexivity|eexists; split; [the_unit; reflexivity|right; right; left; vm_compute; discriminate]]).
Qed.
Example C26_case_creatable : happens [VER_78] unstored_creatable.
Proof.
  case_of (fun v => one_unit v (with_Unit_creatable (Some (with_Creatable_idle_attack_graphic 3 (sample_unit_creatable v))) (sample_Unit v 70)));
    (split; [reflexivity|eexists; split; [the_unit; reflexivity|left; vm_compute; discriminate]]).
Qed.
Example C26_case_tech_tuples : happens [VER_88] wrong_tech_tuples.
Proof. case_of (fun v => one_tech v (with_Tech_required_techs [] (sample_Tech v))); (eexists; split; [left; reflexivity|left; vm_compute; discriminate]). Qed.
Example C26_case_research_locations : happens [VER_84] wrong_research_locations.
Proof.
  case_of (fun v => one_tech v (with_Tech_research_locations [sample_ResearchLocation v; sample_ResearchLocation v] (sample_Tech v)));
    (split; [reflexivity|eexists; split; [left; reflexivity|vm_compute; discriminate]]).
Qed.
Example C26_case_tree_tuples : happens [VER_88] wrong_tree_tuples.
Proof.
  case_of (fun v => tech_tree v (with_TechTree_tech_tree_ages [with_TechTreeAge_buildings_per_zone [] (sample_TechTreeAge v)] (sample_TechTree v)));
    (right; left; eexists; split; [left; reflexivity|left; vm_compute; discriminate]).
Qed.
Example C26_case_undefined : DatFile_version (sample UNDEFINED) = version_value UNDEFINED /\ storable (sample UNDEFINED).
Proof. split; [reflexivity|]. apply storable_by. vm_compute. reflexivity. Qed.

Definition all_of_this_file := (C26_saves, C26_unnoticed, C26_terrain_count, C26_tile_sizes, C26_terrain_tuples, C26_ragged_restrictions,
  C26_coordinates, C26_angle_sounds, C26_map_sizes, C26_existence, C26_drop_sites, C26_sections, C26_unit_tuples, C26_section_tuples,
  C26_train_locations, C26_hot_key, C26_task_enabled, C26_type_50, C26_creatable, C26_tech_tuples, C26_research_locations, C26_tree_tuples,
  C26_undefined).
Print Assumptions all_of_this_file.
