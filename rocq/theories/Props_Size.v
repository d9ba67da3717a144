(** * C08: how many bytes a record takes; C07 without any condition.

    The formulas are in Size.v, the tables in Layout.v and Flat.v. *)
From Verif Require Import Base PyInt PyFloat PyStr PyStruct DataTypes Versions Common Wire Layout Shape Spec Flat Size.
From Verif Require Import M_Sound M_PlayerColour M_Effect M_TerrainRestriction M_Graphic
  M_TerrainBlock M_RandomMaps M_Task M_UnitHeaders M_Unit M_Civ M_Tech M_TechTree M_DatFile.
From Verif Require Import Codec CodecP CodecF CodecC P_Simple P_More P_Unit P_UnitR P_Civ P_DatFile Theory FlatP SizeP Sample.
From Verif Require Import Props_Classes.
Open Scope Z_scope.
Local Open Scope list_scope.
Local Notation length := List.length.

(** Whatever is written for a record has the size of the formula. *)
Definition sized {A} (tb : A -> Version -> res bytes) (size : Version -> A -> nat) : Prop :=
  forall x v bs, tb x v = Ok bs -> length bs = size v x.

Theorem C08_SoundItem : sized SoundItem_to_bytes SoundItem_size.
Proof. intros x v bs. exact (Lay_size _ _ _ bs (c_lay v x I) (SoundItem_esz v x)). Qed.
Theorem C08_Sound : sized Sound_to_bytes Sound_size.
Proof. intros x v bs. exact (Lay_size _ _ _ bs (c_lay v x I) (Sound_esz v x)). Qed.
Theorem C08_PlayerColour : sized PlayerColour_to_bytes PlayerColour_size.
Proof. intros x v bs. exact (Lay_size _ _ _ bs (c_lay v x I) (PlayerColour_esz v x)). Qed.
Theorem C08_EffectCommand : sized EffectCommand_to_bytes EffectCommand_size.
Proof. intros x v bs. exact (Lay_size _ _ _ bs (c_lay v x I) (EffectCommand_esz v x)). Qed.
Theorem C08_Effect : sized Effect_to_bytes Effect_size.
Proof. intros x v bs. exact (Lay_size _ _ _ bs (c_lay v x I) (Effect_esz v x)). Qed.
Theorem C08_TerrainPassGraphic : sized TerrainPassGraphic_to_bytes TerrainPassGraphic_size.
Proof. intros x v bs. exact (Lay_size _ _ _ bs (c_lay v x I) (TerrainPassGraphic_esz v x)). Qed.
Theorem C08_TerrainRestriction : sized TerrainRestriction_to_bytes TerrainRestriction_size.
Proof. intros x v bs. exact (Lay_size _ _ _ bs (TerrainRestriction_lay v x) (TerrainRestriction_esz v x)). Qed.
Theorem C08_GraphicDelta : sized GraphicDelta_to_bytes GraphicDelta_size.
Proof. intros x v bs. exact (Lay_size _ _ _ bs (c_lay v x I) (GraphicDelta_esz v x)). Qed.
Theorem C08_GraphicAngleSound : sized GraphicAngleSound_to_bytes GraphicAngleSound_size.
Proof. intros x v bs. exact (Lay_size _ _ _ bs (c_lay v x I) (GraphicAngleSound_esz v x)). Qed.
Theorem C08_Graphic : sized Graphic_to_bytes Graphic_size.
Proof. intros x v bs. exact (Lay_size _ _ _ bs (c_lay v x I) (Graphic_esz v x)). Qed.
Theorem C08_FrameData : sized FrameData_to_bytes FrameData_size.
Proof. intros x v bs. exact (Lay_size _ _ _ bs (c_lay v x I) (FrameData_esz v x)). Qed.
Theorem C08_Terrain : sized Terrain_to_bytes Terrain_size.
Proof. intros x v bs. exact (Lay_size _ _ _ bs (c_lay v x I) (Terrain_esz v x)). Qed.
Theorem C08_TileSize : sized TileSize_to_bytes TileSize_size.
Proof. intros x v bs. exact (Lay_size _ _ _ bs (c_lay v x I) (TileSize_esz v x)). Qed.
Theorem C08_TerrainBlock : sized TerrainBlock_to_bytes TerrainBlock_size.
Proof. intros x v bs. exact (Lay_size _ _ _ bs (c_lay v x I) (TerrainBlock_esz v x)). Qed.
Theorem C08_MapUnit : sized MapUnit_to_bytes MapUnit_size.
Proof. intros x v bs. exact (Lay_size _ _ _ bs (c_lay v x I) (MapUnit_esz v x)). Qed.
Theorem C08_MapTerrain : sized MapTerrain_to_bytes MapTerrain_size.
Proof. intros x v bs. exact (Lay_size _ _ _ bs (c_lay v x I) (MapTerrain_esz v x)). Qed.
Theorem C08_MapLand : sized MapLand_to_bytes MapLand_size.
Proof. intros x v bs. exact (Lay_size _ _ _ bs (c_lay v x I) (MapLand_esz v x)). Qed.
Theorem C08_MapElevation : sized MapElevation_to_bytes MapElevation_size.
Proof. intros x v bs. exact (Lay_size _ _ _ bs (c_lay v x I) (MapElevation_esz v x)). Qed.
Theorem C08_MapInfo : sized MapInfo_to_bytes MapInfo_size.
Proof. intros x v bs. exact (Lay_size _ _ _ bs (c_lay v x I) (MapInfo_esz v x)). Qed.
Theorem C08_RandomMaps : sized RandomMaps_to_bytes RandomMaps_size.
Proof. intros x v bs. exact (Lay_size _ _ _ bs (c_lay v x I) (RandomMaps_esz v x)). Qed.
Theorem C08_Task : sized Task_to_bytes Task_size.
Proof. intros x v bs. exact (Lay_size _ _ _ bs (c_lay v x I) (Task_esz v x)). Qed.
Theorem C08_UnitHeaders : sized UnitHeaders_to_bytes UnitHeaders_size.
Proof. intros x v bs. exact (Lay_size _ _ _ bs (c_lay v x I) (UnitHeaders_esz v x)). Qed.
Theorem C08_ResourceStorage : sized ResourceStorage_to_bytes ResourceStorage_size.
Proof. intros x v bs. exact (Lay_size _ _ _ bs (c_lay v x I) (ResourceStorage_esz v x)). Qed.
Theorem C08_DamageGraphic : sized DamageGraphic_to_bytes DamageGraphic_size.
Proof. intros x v bs. exact (Lay_size _ _ _ bs (c_lay v x I) (DamageGraphic_esz v x)). Qed.
Theorem C08_DeadFish : sized DeadFish_to_bytes DeadFish_size.
Proof. intros x v bs. exact (Lay_size _ _ _ bs (c_lay v x I) (DeadFish_esz v x)). Qed.
Theorem C08_Bird : sized Bird_to_bytes Bird_size.
Proof. intros x v bs. exact (Lay_size _ _ _ bs (c_lay v x I) (Bird_esz v x)). Qed.
Theorem C08_AttackOrArmor : sized AttackOrArmor_to_bytes AttackOrArmor_size.
Proof. intros x v bs. exact (Lay_size _ _ _ bs (c_lay v x I) (AttackOrArmor_esz v x)). Qed.
Theorem C08_Type50 : sized Type50_to_bytes Type50_size.
Proof. intros x v bs. exact (Lay_size _ _ _ bs (c_lay v x I) (Type50_esz v x)). Qed.
Theorem C08_Projectile : sized Projectile_to_bytes Projectile_size.
Proof. intros x v bs. exact (Lay_size _ _ _ bs (c_lay v x I) (Projectile_esz v x)). Qed.
Theorem C08_ResourceCost : sized ResourceCost_to_bytes ResourceCost_size.
Proof. intros x v bs. exact (Lay_size _ _ _ bs (c_lay v x I) (ResourceCost_esz v x)). Qed.
Theorem C08_TrainLocation : sized TrainLocation_to_bytes TrainLocation_size.
Proof. intros x v bs. exact (Lay_size _ _ _ bs (c_lay v x I) (TrainLocation_esz v x)). Qed.
Theorem C08_Creatable : sized Creatable_to_bytes Creatable_size.
Proof. intros x v bs. exact (Lay_size _ _ _ bs (c_lay v x I) (Creatable_esz v x)). Qed.
Theorem C08_BuildingAnnex : sized BuildingAnnex_to_bytes BuildingAnnex_size.
Proof. intros x v bs. exact (Lay_size _ _ _ bs (c_lay v x I) (BuildingAnnex_esz v x)). Qed.
Theorem C08_Building : sized Building_to_bytes Building_size.
Proof. intros x v bs. exact (Lay_size _ _ _ bs (c_lay v x I) (Building_esz v x)). Qed.
Theorem C08_Unit : sized Unit_to_bytes Unit_size.
Proof. intros x v bs. exact (Lay_size _ _ _ bs (Unit_flat_lay v x) (Unit_esz v x)). Qed.
Theorem C08_Civ : sized Civ_to_bytes Civ_size.
Proof. intros x v bs. exact (Lay_size _ _ _ bs (Civ_flat_lay v x) (Civ_esz v x)). Qed.
Theorem C08_ResearchResourceCost : sized ResearchResourceCost_to_bytes ResearchResourceCost_size.
Proof. intros x v bs. exact (Lay_size _ _ _ bs (c_lay v x I) (ResearchResourceCost_esz v x)). Qed.
Theorem C08_ResearchLocation : sized ResearchLocation_to_bytes ResearchLocation_size.
Proof. intros x v bs. exact (Lay_size _ _ _ bs (c_lay v x I) (ResearchLocation_esz v x)). Qed.
Theorem C08_Tech : sized Tech_to_bytes Tech_size.
Proof. intros x v bs. exact (Lay_size _ _ _ bs (c_lay v x I) (Tech_esz v x)). Qed.
Theorem C08_Common : sized Common_to_bytes Common_size.
Proof. intros x v bs. exact (Lay_size _ _ _ bs (c_lay v x I) (Common_esz v x)). Qed.
Theorem C08_TechTreeAge : sized TechTreeAge_to_bytes TechTreeAge_size.
Proof. intros x v bs. exact (Lay_size _ _ _ bs (c_lay v x I) (TechTreeAge_esz v x)). Qed.
Theorem C08_BuildingConnection : sized BuildingConnection_to_bytes BuildingConnection_size.
Proof. intros x v bs. exact (Lay_size _ _ _ bs (c_lay v x I) (BuildingConnection_esz v x)). Qed.
Theorem C08_UnitConnection : sized UnitConnection_to_bytes UnitConnection_size.
Proof. intros x v bs. exact (Lay_size _ _ _ bs (c_lay v x I) (UnitConnection_esz v x)). Qed.
Theorem C08_ResearchConnection : sized ResearchConnection_to_bytes ResearchConnection_size.
Proof. intros x v bs. exact (Lay_size _ _ _ bs (c_lay v x I) (ResearchConnection_esz v x)). Qed.
Theorem C08_TechTree : sized TechTree_to_bytes TechTree_size.
Proof. intros x v bs. exact (Lay_size _ _ _ bs (c_lay v x I) (TechTree_esz v x)). Qed.

(** A data file; the version is the one named by its header. *)
Theorem C08_DatFile : forall x bs, to_bytes x = Ok bs ->
  exists v, file_version (DatFile_version x) = Some v /\ length bs = DatFile_size v x.
Proof.
  intros x bs E. destruct (file_version (DatFile_version x)) as [v|] eqn:V.
  - exists v. split; [reflexivity|]. exact (Lay_size _ _ _ bs (DatFile_flat_lay x UNDEFINED) (DatFile_esz v x V) E).
  - pose proof (DatFile_flat_lay x UNDEFINED) as L. unfold Lay, DatFile_flat_layout in L. rewrite V in L.
    unfold to_bytes in E. rewrite E in L. discriminate.
Qed.
(** A load that loses nothing reads exactly that many bytes. *)
Theorem C08_DatFile_read : forall bs x h, DatFile_from_bytes (new_handler bs) = Ok (x, h) -> h_losses h = [] ->
  exists v, file_version (DatFile_version x) = Some v /\ h_offset h = DatFile_size v x.
Proof.
  intros bs x h E L. destruct (proj1 (dat_exact bs x h E) L) as (out & T & O & _).
  destruct (C08_DatFile x out T) as (v & V & S). exists v. split; [exact V|]. congruence.
Qed.

(** C07, for units, civs and data files whose tuples may have any length: the writer returns
    exactly the bytes of the flattened table, and raises iff a cell is not representable. *)
Theorem C07_Unit_flat : follows_table Unit_to_bytes Unit_flat_layout always.
Proof. intros v x _. exact (Unit_flat_lay v x). Qed.
Theorem C07_Civ_flat : follows_table Civ_to_bytes Civ_flat_layout always.
Proof. intros v x _. exact (Civ_flat_lay v x). Qed.
Theorem C07_DatFile_flat : forall x w, returned (DatFile_to_bytes x w) = encode (DatFile_flat_layout x).
Proof. intros x w. exact (DatFile_flat_lay x w). Qed.
(** When all tuples have the length of the format, the flattened table and the table of
    Layout.v have the same bytes. *)
Theorem C07_DatFile_flat_agrees : forall x,
  (Forall (fun c => Forall (on_some (fun u => count (Unit_placement_side_terrain u) = 2
     /\ count (Unit_placement_terrain u) = 2 /\ count (Unit_clearance_size u) = 2)) (Civ_units c)) (DatFile_civs x)) ->
  encode (DatFile_flat_layout x) = encode (DatFile_layout x).
Proof. intros x H. rewrite <- (C07_DatFile_flat x UNDEFINED). apply (to_bytes_table x UNDEFINED H). Qed.

Definition all_of_this_file := (C08_SoundItem, C08_Sound, C08_PlayerColour, C08_EffectCommand, C08_Effect, C08_TerrainPassGraphic, C08_TerrainRestriction, C08_GraphicDelta, C08_GraphicAngleSound, C08_Graphic, C08_FrameData, C08_Terrain, C08_TileSize, C08_TerrainBlock, C08_MapUnit, C08_MapTerrain, C08_MapLand, C08_MapElevation, C08_MapInfo, C08_RandomMaps, C08_Task, C08_UnitHeaders, C08_ResourceStorage, C08_DamageGraphic, C08_DeadFish, C08_Bird, C08_AttackOrArmor, C08_Type50, C08_Projectile, C08_ResourceCost, C08_TrainLocation, C08_Creatable, C08_BuildingAnnex, C08_Building, C08_Unit, C08_Civ, C08_ResearchResourceCost, C08_ResearchLocation, C08_Tech, C08_Common, C08_TechTreeAge, C08_BuildingConnection, C08_UnitConnection, C08_ResearchConnection, C08_TechTree, C08_DatFile, C08_DatFile_read, C07_Unit_flat, C07_Civ_flat, C07_DatFile_flat, C07_DatFile_flat_agrees).
Print Assumptions all_of_this_file.

(** The sample data file is written, so the theorems apply to it. *)
Example C08_case : forall v, v <> UNDEFINED -> exists bs, to_bytes (sample v) = Ok bs /\ length bs = DatFile_size v (sample v).
Proof.
  intros v H. destruct (dat_round_trip_bytes (sample v) (sample_wf v H)) as (bs & E & _). exists bs. split; [exact E|].
  destruct (C08_DatFile _ _ E) as (w & W & S). rewrite (sample_version v H) in W. injection W as <-. exact S.
Qed.
(** A task: 67 bytes before 8.8, 69 from then on. *)
Example C08_case_task : Task_size VER_78 (sample_Task VER_78) = 67%nat /\ Task_size VER_88 (sample_Task VER_88) = 69%nat.
Proof. split; vm_compute; reflexivity. Qed.
