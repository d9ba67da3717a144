(** * C06, C07: every record class on its own.

    [round_trips], [stable], [re_encodes], [prefix_free], [only_moves] and [follows_table]
    are defined in Spec.v; the tables in Layout.v, the shapes in Shape.v. *)
From Verif Require Import Base PyInt PyFloat PyStr PyStruct DataTypes Versions Common Wire Layout Shape Spec.
From Verif Require Import M_Sound M_PlayerColour M_Effect M_TerrainRestriction M_Graphic
  M_TerrainBlock M_RandomMaps M_Task M_UnitHeaders M_Unit M_Civ M_Tech M_TechTree M_DatFile.
From Verif Require Import Codec CodecP CodecF CodecC P_Simple P_More P_Unit P_UnitR P_Civ Theory Sample.
Open Scope Z_scope.
Local Open Scope list_scope.

(** What holds of every record class [X]: writer, reader, table, shape. *)
Definition codec_laws {A} (tb : A -> Version -> res bytes) (fb : rd A)
    (lay : Version -> A -> list cell) (shape : Version -> A -> Prop) : Prop :=
  round_trips tb fb lay shape /\ stable tb fb lay shape /\ re_encodes tb fb
  /\ prefix_free tb lay shape /\ only_moves fb.
(** No condition. *)
Definition always {A} (x : A) : Prop := True.

Section Laws.
  Context {A : Type} {tb : A -> Version -> res bytes} {fb : rd A} {lay : Version -> A -> list cell}
    {shape : Version -> A -> Prop} {arity : A -> Prop} (C : Codec tb fb lay shape arity).
  Lemma laws : codec_laws tb fb lay shape.
  Proof.
    split; [exact codec_round_trip|]. split; [exact codec_stable|]. split; [exact codec_re_encodes|].
    split; [exact codec_prefix_free|]. exact codec_only_moves.
  Qed.
End Laws.

(** ** SoundItem *)
Theorem C06_SoundItem : codec_laws SoundItem_to_bytes SoundItem_from_bytes SoundItem_layout SoundItem_shape.
Proof. exact (laws SoundItem_codec). Qed.
Theorem C07_SoundItem : follows_table SoundItem_to_bytes SoundItem_layout always.
Proof. exact codec_table. Qed.
Example SoundItem_case : forall v, wf SoundItem_layout SoundItem_shape v (sample_SoundItem v).
Proof. intros v. split; [destruct v; vm_compute; reflexivity|apply sample_SoundItem_shape]. Qed.
(** ** Sound *)
Theorem C06_Sound : codec_laws Sound_to_bytes Sound_from_bytes Sound_layout Sound_shape.
Proof. exact (laws Sound_codec). Qed.
Theorem C07_Sound : follows_table Sound_to_bytes Sound_layout always.
Proof. exact codec_table. Qed.
Example Sound_case : forall v, wf Sound_layout Sound_shape v (sample_Sound v).
Proof. intros v. split; [destruct v; vm_compute; reflexivity|apply sample_Sound_shape]. Qed.
(** ** PlayerColour *)
Theorem C06_PlayerColour : codec_laws PlayerColour_to_bytes PlayerColour_from_bytes PlayerColour_layout PlayerColour_shape.
Proof. exact (laws PlayerColour_codec). Qed.
Theorem C07_PlayerColour : follows_table PlayerColour_to_bytes PlayerColour_layout always.
Proof. exact codec_table. Qed.
Example PlayerColour_case : forall v, wf PlayerColour_layout PlayerColour_shape v (sample_PlayerColour v).
Proof. intros v. split; [destruct v; vm_compute; reflexivity|apply sample_PlayerColour_shape]. Qed.
(** ** EffectCommand *)
Theorem C06_EffectCommand : codec_laws EffectCommand_to_bytes EffectCommand_from_bytes EffectCommand_layout EffectCommand_shape.
Proof. exact (laws EffectCommand_codec). Qed.
Theorem C07_EffectCommand : follows_table EffectCommand_to_bytes EffectCommand_layout always.
Proof. exact codec_table. Qed.
Example EffectCommand_case : forall v, wf EffectCommand_layout EffectCommand_shape v (sample_EffectCommand v).
Proof. intros v. split; [destruct v; vm_compute; reflexivity|apply sample_EffectCommand_shape]. Qed.
(** ** Effect *)
Theorem C06_Effect : codec_laws Effect_to_bytes Effect_from_bytes Effect_layout Effect_shape.
Proof. exact (laws Effect_codec). Qed.
Theorem C07_Effect : follows_table Effect_to_bytes Effect_layout always.
Proof. exact codec_table. Qed.
Example Effect_case : forall v, wf Effect_layout Effect_shape v (sample_Effect v).
Proof. intros v. split; [destruct v; vm_compute; reflexivity|apply sample_Effect_shape]. Qed.
(** ** TerrainPassGraphic *)
Theorem C06_TerrainPassGraphic : codec_laws TerrainPassGraphic_to_bytes TerrainPassGraphic_from_bytes TerrainPassGraphic_layout TerrainPassGraphic_shape.
Proof. exact (laws TerrainPassGraphic_codec). Qed.
Theorem C07_TerrainPassGraphic : follows_table TerrainPassGraphic_to_bytes TerrainPassGraphic_layout always.
Proof. exact codec_table. Qed.
Example TerrainPassGraphic_case : forall v, wf TerrainPassGraphic_layout TerrainPassGraphic_shape v (sample_TerrainPassGraphic v).
Proof. intros v. split; [destruct v; vm_compute; reflexivity|apply sample_TerrainPassGraphic_shape]. Qed.
(** ** GraphicDelta *)
Theorem C06_GraphicDelta : codec_laws GraphicDelta_to_bytes GraphicDelta_from_bytes GraphicDelta_layout GraphicDelta_shape.
Proof. exact (laws GraphicDelta_codec). Qed.
Theorem C07_GraphicDelta : follows_table GraphicDelta_to_bytes GraphicDelta_layout always.
Proof. exact codec_table. Qed.
Example GraphicDelta_case : forall v, wf GraphicDelta_layout GraphicDelta_shape v (sample_GraphicDelta v).
Proof. intros v. split; [destruct v; vm_compute; reflexivity|apply sample_GraphicDelta_shape]. Qed.
(** ** GraphicAngleSound *)
Theorem C06_GraphicAngleSound : codec_laws GraphicAngleSound_to_bytes GraphicAngleSound_from_bytes GraphicAngleSound_layout GraphicAngleSound_shape.
Proof. exact (laws GraphicAngleSound_codec). Qed.
Theorem C07_GraphicAngleSound : follows_table GraphicAngleSound_to_bytes GraphicAngleSound_layout always.
Proof. exact codec_table. Qed.
Example GraphicAngleSound_case : forall v, wf GraphicAngleSound_layout GraphicAngleSound_shape v (sample_GraphicAngleSound v).
Proof. intros v. split; [destruct v; vm_compute; reflexivity|apply sample_GraphicAngleSound_shape]. Qed.
(** ** Graphic *)
Theorem C06_Graphic : codec_laws Graphic_to_bytes Graphic_from_bytes Graphic_layout Graphic_shape.
Proof. exact (laws Graphic_codec). Qed.
Theorem C07_Graphic : follows_table Graphic_to_bytes Graphic_layout always.
Proof. exact codec_table. Qed.
Example Graphic_case : forall v, wf Graphic_layout Graphic_shape v (sample_Graphic v).
Proof. intros v. split; [destruct v; vm_compute; reflexivity|apply sample_Graphic_shape]. Qed.
(** ** FrameData *)
Theorem C06_FrameData : codec_laws FrameData_to_bytes FrameData_from_bytes FrameData_layout FrameData_shape.
Proof. exact (laws FrameData_codec). Qed.
Theorem C07_FrameData : follows_table FrameData_to_bytes FrameData_layout always.
Proof. exact codec_table. Qed.
Example FrameData_case : forall v, wf FrameData_layout FrameData_shape v (sample_FrameData v).
Proof. intros v. split; [destruct v; vm_compute; reflexivity|apply sample_FrameData_shape]. Qed.
(** ** Terrain *)
Theorem C06_Terrain : codec_laws Terrain_to_bytes Terrain_from_bytes Terrain_layout Terrain_shape.
Proof. exact (laws Terrain_codec). Qed.
Theorem C07_Terrain : follows_table Terrain_to_bytes Terrain_layout always.
Proof. exact codec_table. Qed.
Example Terrain_case : forall v, wf Terrain_layout Terrain_shape v (sample_Terrain v).
Proof. intros v. split; [apply sample_Terrain_ok|apply sample_Terrain_shape]. Qed.
(** ** TileSize *)
Theorem C06_TileSize : codec_laws TileSize_to_bytes TileSize_from_bytes TileSize_layout TileSize_shape.
Proof. exact (laws TileSize_codec). Qed.
Theorem C07_TileSize : follows_table TileSize_to_bytes TileSize_layout always.
Proof. exact codec_table. Qed.
Example TileSize_case : forall v, wf TileSize_layout TileSize_shape v (sample_TileSize v).
Proof. intros v. split; [destruct v; vm_compute; reflexivity|apply sample_TileSize_shape]. Qed.
(** ** TerrainBlock *)
Theorem C06_TerrainBlock : codec_laws TerrainBlock_to_bytes TerrainBlock_from_bytes TerrainBlock_layout TerrainBlock_shape.
Proof. exact (laws TerrainBlock_codec). Qed.
Theorem C07_TerrainBlock : follows_table TerrainBlock_to_bytes TerrainBlock_layout always.
Proof. exact codec_table. Qed.
Example TerrainBlock_case : forall v, wf TerrainBlock_layout TerrainBlock_shape v (sample_TerrainBlock v).
Proof. intros v. split; [apply sample_TerrainBlock_ok|apply sample_TerrainBlock_shape]. Qed.
(** ** MapUnit *)
Theorem C06_MapUnit : codec_laws MapUnit_to_bytes MapUnit_from_bytes MapUnit_layout MapUnit_shape.
Proof. exact (laws MapUnit_codec). Qed.
Theorem C07_MapUnit : follows_table MapUnit_to_bytes MapUnit_layout always.
Proof. exact codec_table. Qed.
Example MapUnit_case : forall v, wf MapUnit_layout MapUnit_shape v (sample_MapUnit v).
Proof. intros v. split; [destruct v; vm_compute; reflexivity|apply sample_MapUnit_shape]. Qed.
(** ** MapTerrain *)
Theorem C06_MapTerrain : codec_laws MapTerrain_to_bytes MapTerrain_from_bytes MapTerrain_layout MapTerrain_shape.
Proof. exact (laws MapTerrain_codec). Qed.
Theorem C07_MapTerrain : follows_table MapTerrain_to_bytes MapTerrain_layout always.
Proof. exact codec_table. Qed.
Example MapTerrain_case : forall v, wf MapTerrain_layout MapTerrain_shape v (sample_MapTerrain v).
Proof. intros v. split; [destruct v; vm_compute; reflexivity|apply sample_MapTerrain_shape]. Qed.
(** ** MapLand *)
Theorem C06_MapLand : codec_laws MapLand_to_bytes MapLand_from_bytes MapLand_layout MapLand_shape.
Proof. exact (laws MapLand_codec). Qed.
Theorem C07_MapLand : follows_table MapLand_to_bytes MapLand_layout always.
Proof. exact codec_table. Qed.
Example MapLand_case : forall v, wf MapLand_layout MapLand_shape v (sample_MapLand v).
Proof. intros v. split; [destruct v; vm_compute; reflexivity|apply sample_MapLand_shape]. Qed.
(** ** MapElevation *)
Theorem C06_MapElevation : codec_laws MapElevation_to_bytes MapElevation_from_bytes MapElevation_layout MapElevation_shape.
Proof. exact (laws MapElevation_codec). Qed.
Theorem C07_MapElevation : follows_table MapElevation_to_bytes MapElevation_layout always.
Proof. exact codec_table. Qed.
Example MapElevation_case : forall v, wf MapElevation_layout MapElevation_shape v (sample_MapElevation v).
Proof. intros v. split; [destruct v; vm_compute; reflexivity|apply sample_MapElevation_shape]. Qed.
(** ** MapInfo *)
Theorem C06_MapInfo : codec_laws MapInfo_to_bytes MapInfo_from_bytes MapInfo_layout MapInfo_shape.
Proof. exact (laws MapInfo_codec). Qed.
Theorem C07_MapInfo : follows_table MapInfo_to_bytes MapInfo_layout always.
Proof. exact codec_table. Qed.
Example MapInfo_case : forall v, wf MapInfo_layout MapInfo_shape v (sample_MapInfo v).
Proof. intros v. split; [destruct v; vm_compute; reflexivity|apply sample_MapInfo_shape]. Qed.
(** ** RandomMaps *)
Theorem C06_RandomMaps : codec_laws RandomMaps_to_bytes RandomMaps_from_bytes RandomMaps_layout RandomMaps_shape.
Proof. exact (laws RandomMaps_codec). Qed.
Theorem C07_RandomMaps : follows_table RandomMaps_to_bytes RandomMaps_layout always.
Proof. exact codec_table. Qed.
Example RandomMaps_case : forall v, wf RandomMaps_layout RandomMaps_shape v (sample_RandomMaps v).
Proof. intros v. split; [destruct v; vm_compute; reflexivity|apply sample_RandomMaps_shape]. Qed.
(** ** Task *)
Theorem C06_Task : codec_laws Task_to_bytes Task_from_bytes Task_layout Task_shape.
Proof. exact (laws Task_codec). Qed.
Theorem C07_Task : follows_table Task_to_bytes Task_layout always.
Proof. exact codec_table. Qed.
Example Task_case : forall v, wf Task_layout Task_shape v (sample_Task v).
Proof. intros v. split; [destruct v; vm_compute; reflexivity|apply sample_Task_shape]. Qed.
(** ** UnitHeaders *)
Theorem C06_UnitHeaders : codec_laws UnitHeaders_to_bytes UnitHeaders_from_bytes UnitHeaders_layout UnitHeaders_shape.
Proof. exact (laws UnitHeaders_codec). Qed.
Theorem C07_UnitHeaders : follows_table UnitHeaders_to_bytes UnitHeaders_layout always.
Proof. exact codec_table. Qed.
Example UnitHeaders_case : forall v, wf UnitHeaders_layout UnitHeaders_shape v (sample_UnitHeaders v).
Proof. intros v. split; [destruct v; vm_compute; reflexivity|apply sample_UnitHeaders_shape]. Qed.
(** ** ResourceStorage *)
Theorem C06_ResourceStorage : codec_laws ResourceStorage_to_bytes ResourceStorage_from_bytes ResourceStorage_layout ResourceStorage_shape.
Proof. exact (laws ResourceStorage_codec). Qed.
Theorem C07_ResourceStorage : follows_table ResourceStorage_to_bytes ResourceStorage_layout always.
Proof. exact codec_table. Qed.
Example ResourceStorage_case : forall v, wf ResourceStorage_layout ResourceStorage_shape v (sample_ResourceStorage v).
Proof. intros v. split; [destruct v; vm_compute; reflexivity|apply sample_ResourceStorage_shape]. Qed.
(** ** DamageGraphic *)
Theorem C06_DamageGraphic : codec_laws DamageGraphic_to_bytes DamageGraphic_from_bytes DamageGraphic_layout DamageGraphic_shape.
Proof. exact (laws DamageGraphic_codec). Qed.
Theorem C07_DamageGraphic : follows_table DamageGraphic_to_bytes DamageGraphic_layout always.
Proof. exact codec_table. Qed.
Example DamageGraphic_case : forall v, wf DamageGraphic_layout DamageGraphic_shape v (sample_DamageGraphic v).
Proof. intros v. split; [destruct v; vm_compute; reflexivity|apply sample_DamageGraphic_shape]. Qed.
(** ** DeadFish *)
Theorem C06_DeadFish : codec_laws DeadFish_to_bytes DeadFish_from_bytes DeadFish_layout DeadFish_shape.
Proof. exact (laws DeadFish_codec). Qed.
Theorem C07_DeadFish : follows_table DeadFish_to_bytes DeadFish_layout always.
Proof. exact codec_table. Qed.
Example DeadFish_case : forall v, wf DeadFish_layout DeadFish_shape v (sample_DeadFish v).
Proof. intros v. split; [destruct v; vm_compute; reflexivity|apply sample_DeadFish_shape]. Qed.
(** ** Bird *)
Theorem C06_Bird : codec_laws Bird_to_bytes Bird_from_bytes Bird_layout Bird_shape.
Proof. exact (laws Bird_codec). Qed.
Theorem C07_Bird : follows_table Bird_to_bytes Bird_layout always.
Proof. exact codec_table. Qed.
Example Bird_case : forall v, wf Bird_layout Bird_shape v (sample_Bird v).
Proof. intros v. split; [destruct v; vm_compute; reflexivity|apply sample_Bird_shape]. Qed.
(** ** AttackOrArmor *)
Theorem C06_AttackOrArmor : codec_laws AttackOrArmor_to_bytes AttackOrArmor_from_bytes AttackOrArmor_layout AttackOrArmor_shape.
Proof. exact (laws AttackOrArmor_codec). Qed.
Theorem C07_AttackOrArmor : follows_table AttackOrArmor_to_bytes AttackOrArmor_layout always.
Proof. exact codec_table. Qed.
Example AttackOrArmor_case : forall v, wf AttackOrArmor_layout AttackOrArmor_shape v (sample_AttackOrArmor v).
Proof. intros v. split; [destruct v; vm_compute; reflexivity|apply sample_AttackOrArmor_shape]. Qed.
(** ** Type50 *)
Theorem C06_Type50 : codec_laws Type50_to_bytes Type50_from_bytes Type50_layout Type50_shape.
Proof. exact (laws Type50_codec). Qed.
Theorem C07_Type50 : follows_table Type50_to_bytes Type50_layout always.
Proof. exact codec_table. Qed.
Example Type50_case : forall v, wf Type50_layout Type50_shape v (sample_Type50 v).
Proof. intros v. split; [destruct v; vm_compute; reflexivity|apply sample_Type50_shape]. Qed.
(** ** Projectile *)
Theorem C06_Projectile : codec_laws Projectile_to_bytes Projectile_from_bytes Projectile_layout Projectile_shape.
Proof. exact (laws Projectile_codec). Qed.
Theorem C07_Projectile : follows_table Projectile_to_bytes Projectile_layout always.
Proof. exact codec_table. Qed.
Example Projectile_case : forall v, wf Projectile_layout Projectile_shape v (sample_Projectile v).
Proof. intros v. split; [destruct v; vm_compute; reflexivity|apply sample_Projectile_shape]. Qed.
(** ** ResourceCost *)
Theorem C06_ResourceCost : codec_laws ResourceCost_to_bytes ResourceCost_from_bytes ResourceCost_layout ResourceCost_shape.
Proof. exact (laws ResourceCost_codec). Qed.
Theorem C07_ResourceCost : follows_table ResourceCost_to_bytes ResourceCost_layout always.
Proof. exact codec_table. Qed.
Example ResourceCost_case : forall v, wf ResourceCost_layout ResourceCost_shape v (sample_ResourceCost v).
Proof. intros v. split; [destruct v; vm_compute; reflexivity|apply sample_ResourceCost_shape]. Qed.
(** ** TrainLocation *)
Theorem C06_TrainLocation : codec_laws TrainLocation_to_bytes TrainLocation_from_bytes TrainLocation_layout TrainLocation_shape.
Proof. exact (laws TrainLocation_codec). Qed.
Theorem C07_TrainLocation : follows_table TrainLocation_to_bytes TrainLocation_layout always.
Proof. exact codec_table. Qed.
Example TrainLocation_case : forall v, wf TrainLocation_layout TrainLocation_shape v (sample_TrainLocation v).
Proof. intros v. split; [destruct v; vm_compute; reflexivity|apply sample_TrainLocation_shape]. Qed.
(** ** Creatable *)
Theorem C06_Creatable : codec_laws Creatable_to_bytes Creatable_from_bytes Creatable_layout Creatable_shape.
Proof. exact (laws Creatable_codec). Qed.
Theorem C07_Creatable : follows_table Creatable_to_bytes Creatable_layout always.
Proof. exact codec_table. Qed.
Example Creatable_case : forall v, wf Creatable_layout Creatable_shape v (sample_Creatable v).
Proof. intros v. split; [destruct v; vm_compute; reflexivity|apply sample_Creatable_shape]. Qed.
(** ** BuildingAnnex *)
Theorem C06_BuildingAnnex : codec_laws BuildingAnnex_to_bytes BuildingAnnex_from_bytes BuildingAnnex_layout BuildingAnnex_shape.
Proof. exact (laws BuildingAnnex_codec). Qed.
Theorem C07_BuildingAnnex : follows_table BuildingAnnex_to_bytes BuildingAnnex_layout always.
Proof. exact codec_table. Qed.
Example BuildingAnnex_case : forall v, wf BuildingAnnex_layout BuildingAnnex_shape v (sample_BuildingAnnex v).
Proof. intros v. split; [destruct v; vm_compute; reflexivity|apply sample_BuildingAnnex_shape]. Qed.
(** ** Building *)
Theorem C06_Building : codec_laws Building_to_bytes Building_from_bytes Building_layout Building_shape.
Proof. exact (laws Building_codec). Qed.
Theorem C07_Building : follows_table Building_to_bytes Building_layout always.
Proof. exact codec_table. Qed.
Example Building_case : forall v, wf Building_layout Building_shape v (sample_Building v).
Proof. intros v. split; [destruct v; vm_compute; reflexivity|apply sample_Building_shape]. Qed.
(** ** Unit *)
Theorem C06_Unit : codec_laws Unit_to_bytes Unit_from_bytes Unit_layout Unit_shape.
Proof. exact (laws Unit_codec). Qed.
Theorem C07_Unit : follows_table Unit_to_bytes Unit_layout Unit_arity.
Proof. exact codec_table. Qed.
Example Unit_case : forall v, wf Unit_layout Unit_shape v (sample_Unit v 70).
Proof. intros v. split; [destruct v; vm_compute; reflexivity|apply sample_Unit_shape]. Qed.
(** The tuples of a unit that are flattened into one struct.pack call have two elements (Shape.v). *)
Definition Civ_tuples (x : Civ) : Prop := Forall (on_some Unit_arity) (Civ_units x).
(** ** Civ *)
Theorem C06_Civ : codec_laws Civ_to_bytes Civ_from_bytes Civ_layout Civ_shape.
Proof. exact (laws Civ_codec). Qed.
Theorem C07_Civ : follows_table Civ_to_bytes Civ_layout Civ_tuples.
Proof. exact codec_table. Qed.
Example Civ_case : forall v, wf Civ_layout Civ_shape v (sample_Civ v).
Proof. intros v. split; [apply sample_Civ_ok|apply sample_Civ_shape]. Qed.
(** ** ResearchResourceCost *)
Theorem C06_ResearchResourceCost : codec_laws ResearchResourceCost_to_bytes ResearchResourceCost_from_bytes ResearchResourceCost_layout ResearchResourceCost_shape.
Proof. exact (laws ResearchResourceCost_codec). Qed.
Theorem C07_ResearchResourceCost : follows_table ResearchResourceCost_to_bytes ResearchResourceCost_layout always.
Proof. exact codec_table. Qed.
Example ResearchResourceCost_case : forall v, wf ResearchResourceCost_layout ResearchResourceCost_shape v (sample_ResearchResourceCost v).
Proof. intros v. split; [destruct v; vm_compute; reflexivity|apply sample_ResearchResourceCost_shape]. Qed.
(** ** ResearchLocation *)
Theorem C06_ResearchLocation : codec_laws ResearchLocation_to_bytes ResearchLocation_from_bytes ResearchLocation_layout ResearchLocation_shape.
Proof. exact (laws ResearchLocation_codec). Qed.
Theorem C07_ResearchLocation : follows_table ResearchLocation_to_bytes ResearchLocation_layout always.
Proof. exact codec_table. Qed.
Example ResearchLocation_case : forall v, wf ResearchLocation_layout ResearchLocation_shape v (sample_ResearchLocation v).
Proof. intros v. split; [destruct v; vm_compute; reflexivity|apply sample_ResearchLocation_shape]. Qed.
(** ** Tech *)
Theorem C06_Tech : codec_laws Tech_to_bytes Tech_from_bytes Tech_layout Tech_shape.
Proof. exact (laws Tech_codec). Qed.
Theorem C07_Tech : follows_table Tech_to_bytes Tech_layout always.
Proof. exact codec_table. Qed.
Example Tech_case : forall v, wf Tech_layout Tech_shape v (sample_Tech v).
Proof. intros v. split; [destruct v; vm_compute; reflexivity|apply sample_Tech_shape]. Qed.
(** ** Common *)
Theorem C06_Common : codec_laws Common_to_bytes Common_from_bytes Common_layout Common_shape.
Proof. exact (laws Common_codec). Qed.
Theorem C07_Common : follows_table Common_to_bytes Common_layout always.
Proof. exact codec_table. Qed.
Example Common_case : forall v, wf Common_layout Common_shape v (sample_Common v).
Proof. intros v. split; [destruct v; vm_compute; reflexivity|apply sample_Common_shape]. Qed.
(** ** TechTreeAge *)
Theorem C06_TechTreeAge : codec_laws TechTreeAge_to_bytes TechTreeAge_from_bytes TechTreeAge_layout TechTreeAge_shape.
Proof. exact (laws TechTreeAge_codec). Qed.
Theorem C07_TechTreeAge : follows_table TechTreeAge_to_bytes TechTreeAge_layout always.
Proof. exact codec_table. Qed.
Example TechTreeAge_case : forall v, wf TechTreeAge_layout TechTreeAge_shape v (sample_TechTreeAge v).
Proof. intros v. split; [destruct v; vm_compute; reflexivity|apply sample_TechTreeAge_shape]. Qed.
(** ** BuildingConnection *)
Theorem C06_BuildingConnection : codec_laws BuildingConnection_to_bytes BuildingConnection_from_bytes BuildingConnection_layout BuildingConnection_shape.
Proof. exact (laws BuildingConnection_codec). Qed.
Theorem C07_BuildingConnection : follows_table BuildingConnection_to_bytes BuildingConnection_layout always.
Proof. exact codec_table. Qed.
Example BuildingConnection_case : forall v, wf BuildingConnection_layout BuildingConnection_shape v (sample_BuildingConnection v).
Proof. intros v. split; [destruct v; vm_compute; reflexivity|apply sample_BuildingConnection_shape]. Qed.
(** ** UnitConnection *)
Theorem C06_UnitConnection : codec_laws UnitConnection_to_bytes UnitConnection_from_bytes UnitConnection_layout UnitConnection_shape.
Proof. exact (laws UnitConnection_codec). Qed.
Theorem C07_UnitConnection : follows_table UnitConnection_to_bytes UnitConnection_layout always.
Proof. exact codec_table. Qed.
Example UnitConnection_case : forall v, wf UnitConnection_layout UnitConnection_shape v (sample_UnitConnection v).
Proof. intros v. split; [destruct v; vm_compute; reflexivity|apply sample_UnitConnection_shape]. Qed.
(** ** ResearchConnection *)
Theorem C06_ResearchConnection : codec_laws ResearchConnection_to_bytes ResearchConnection_from_bytes ResearchConnection_layout ResearchConnection_shape.
Proof. exact (laws ResearchConnection_codec). Qed.
Theorem C07_ResearchConnection : follows_table ResearchConnection_to_bytes ResearchConnection_layout always.
Proof. exact codec_table. Qed.
Example ResearchConnection_case : forall v, wf ResearchConnection_layout ResearchConnection_shape v (sample_ResearchConnection v).
Proof. intros v. split; [destruct v; vm_compute; reflexivity|apply sample_ResearchConnection_shape]. Qed.
(** ** TechTree *)
Theorem C06_TechTree : codec_laws TechTree_to_bytes TechTree_from_bytes TechTree_layout TechTree_shape.
Proof. exact (laws TechTree_codec). Qed.
Theorem C07_TechTree : follows_table TechTree_to_bytes TechTree_layout always.
Proof. exact codec_table. Qed.
Example TechTree_case : forall v, wf TechTree_layout TechTree_shape v (sample_TechTree v).
Proof. intros v. split; [destruct v; vm_compute; reflexivity|apply sample_TechTree_shape]. Qed.
(** ** TerrainRestriction: the reader is told the number of terrains. *)
Definition terrains (n : Z) (v : Version) (x : TerrainRestriction) : Prop :=
  count (TerrainRestriction_passable_buildable_dmg_multiplier x) = n.
Theorem C06_TerrainRestriction : forall n, 0 <= n ->
  codec_laws TerrainRestriction_to_bytes (TerrainRestriction_from_bytes_with_count n)
    TerrainRestriction_layout (terrains n).
Proof.
  intros n Hn. apply (@laws _ _ _ _ _ any). split; intros.
  - exact I.
  - apply TerrainRestriction_lay.
  - apply TerrainRestriction_parses; [exact Hn|]. unfold TerrainRestriction_count, terrains in *. lia.
  - unfold Reads. eapply Fwd_weaken; [apply TerrainRestriction_reads|]. cbv beta.
    intros P x cs (H & Hc & Hn'). unfold TerrainRestriction_count, terrains in *.
    split; [intros p; apply H, p|]. split; [exact Hc|]. lia.
Qed.
Theorem C07_TerrainRestriction : follows_table TerrainRestriction_to_bytes TerrainRestriction_layout always.
Proof. intros v x _. apply TerrainRestriction_lay. Qed.
Example TerrainRestriction_case : forall v, wf TerrainRestriction_layout (terrains 2) v (sample_TerrainRestriction v).
Proof. intros v. split; destruct v; vm_compute; reflexivity. Qed.
(** All of them at once. *)
Definition all_of_this_file := (C06_SoundItem, C07_SoundItem, C06_Sound, C07_Sound, C06_PlayerColour, C07_PlayerColour, C06_EffectCommand, C07_EffectCommand, C06_Effect, C07_Effect, C06_TerrainPassGraphic, C07_TerrainPassGraphic, C06_GraphicDelta, C07_GraphicDelta, C06_GraphicAngleSound, C07_GraphicAngleSound, C06_Graphic, C07_Graphic, C06_FrameData, C07_FrameData, C06_Terrain, C07_Terrain, C06_TileSize, C07_TileSize, C06_TerrainBlock, C07_TerrainBlock, C06_MapUnit, C07_MapUnit, C06_MapTerrain, C07_MapTerrain, C06_MapLand, C07_MapLand, C06_MapElevation, C07_MapElevation, C06_MapInfo, C07_MapInfo, C06_RandomMaps, C07_RandomMaps, C06_Task, C07_Task, C06_UnitHeaders, C07_UnitHeaders, C06_ResourceStorage, C07_ResourceStorage, C06_DamageGraphic, C07_DamageGraphic, C06_DeadFish, C07_DeadFish, C06_Bird, C07_Bird, C06_AttackOrArmor, C07_AttackOrArmor, C06_Type50, C07_Type50, C06_Projectile, C07_Projectile, C06_ResourceCost, C07_ResourceCost, C06_TrainLocation, C07_TrainLocation, C06_Creatable, C07_Creatable, C06_BuildingAnnex, C07_BuildingAnnex, C06_Building, C07_Building, C06_Unit, C07_Unit, C06_Civ, C07_Civ, C06_ResearchResourceCost, C07_ResearchResourceCost, C06_ResearchLocation, C07_ResearchLocation, C06_Tech, C07_Tech, C06_Common, C07_Common, C06_TechTreeAge, C07_TechTreeAge, C06_BuildingConnection, C07_BuildingConnection, C06_UnitConnection, C07_UnitConnection, C06_ResearchConnection, C07_ResearchConnection, C06_TechTree, C07_TechTree, C06_TerrainRestriction, C07_TerrainRestriction).
Print Assumptions all_of_this_file.
