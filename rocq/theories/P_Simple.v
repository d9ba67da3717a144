(** * Codecs of the record classes whose shape is unconditional. *)
From Verif Require Import Base PyInt PyFloat PyStr PyStruct DataTypes Versions Common Wire Layout Shape.
From Verif Require Import Codec CodecP CodecF CodecC.
From Verif Require Import M_Sound M_PlayerColour M_Effect M_TerrainRestriction M_Graphic
  M_TerrainBlock M_RandomMaps M_Task M_UnitHeaders M_Unit M_Civ M_Tech M_TechTree.
Open Scope Z_scope.
Local Open Scope list_scope.

#[global] Instance SoundItem_codec : Codec SoundItem_to_bytes SoundItem_from_bytes SoundItem_layout SoundItem_shape any.
Proof. codec_plain SoundItem_to_bytes SoundItem_from_bytes SoundItem_layout SoundItem_shape. Qed.
#[global] Instance Sound_codec : Codec Sound_to_bytes Sound_from_bytes Sound_layout Sound_shape any.
Proof. codec_plain Sound_to_bytes Sound_from_bytes Sound_layout Sound_shape. Qed.
#[global] Instance PlayerColour_codec : Codec PlayerColour_to_bytes PlayerColour_from_bytes PlayerColour_layout PlayerColour_shape any.
Proof. codec_plain PlayerColour_to_bytes PlayerColour_from_bytes PlayerColour_layout PlayerColour_shape. Qed.
#[global] Instance EffectCommand_codec : Codec EffectCommand_to_bytes EffectCommand_from_bytes EffectCommand_layout EffectCommand_shape any.
Proof. codec_plain EffectCommand_to_bytes EffectCommand_from_bytes EffectCommand_layout EffectCommand_shape. Qed.
#[global] Instance Effect_codec : Codec Effect_to_bytes Effect_from_bytes Effect_layout Effect_shape any.
Proof. codec_plain Effect_to_bytes Effect_from_bytes Effect_layout Effect_shape. Qed.
#[global] Instance TerrainPassGraphic_codec : Codec TerrainPassGraphic_to_bytes TerrainPassGraphic_from_bytes TerrainPassGraphic_layout TerrainPassGraphic_shape any.
Proof. codec_plain TerrainPassGraphic_to_bytes TerrainPassGraphic_from_bytes TerrainPassGraphic_layout TerrainPassGraphic_shape. Qed.
#[global] Instance GraphicDelta_codec : Codec GraphicDelta_to_bytes GraphicDelta_from_bytes GraphicDelta_layout GraphicDelta_shape any.
Proof. codec_plain GraphicDelta_to_bytes GraphicDelta_from_bytes GraphicDelta_layout GraphicDelta_shape. Qed.
#[global] Instance GraphicAngleSound_codec : Codec GraphicAngleSound_to_bytes GraphicAngleSound_from_bytes GraphicAngleSound_layout GraphicAngleSound_shape any.
Proof. codec_plain GraphicAngleSound_to_bytes GraphicAngleSound_from_bytes GraphicAngleSound_layout GraphicAngleSound_shape. Qed.
#[global] Instance FrameData_codec : Codec FrameData_to_bytes FrameData_from_bytes FrameData_layout FrameData_shape any.
Proof. codec_plain FrameData_to_bytes FrameData_from_bytes FrameData_layout FrameData_shape. Qed.
#[global] Instance TileSize_codec : Codec TileSize_to_bytes TileSize_from_bytes TileSize_layout TileSize_shape any.
Proof. codec_plain TileSize_to_bytes TileSize_from_bytes TileSize_layout TileSize_shape. Qed.
#[global] Instance MapUnit_codec : Codec MapUnit_to_bytes MapUnit_from_bytes MapUnit_layout MapUnit_shape any.
Proof. codec_plain MapUnit_to_bytes MapUnit_from_bytes MapUnit_layout MapUnit_shape. Qed.
#[global] Instance MapTerrain_codec : Codec MapTerrain_to_bytes MapTerrain_from_bytes MapTerrain_layout MapTerrain_shape any.
Proof. codec_plain MapTerrain_to_bytes MapTerrain_from_bytes MapTerrain_layout MapTerrain_shape. Qed.
#[global] Instance MapLand_codec : Codec MapLand_to_bytes MapLand_from_bytes MapLand_layout MapLand_shape any.
Proof. codec_plain MapLand_to_bytes MapLand_from_bytes MapLand_layout MapLand_shape. Qed.
#[global] Instance MapElevation_codec : Codec MapElevation_to_bytes MapElevation_from_bytes MapElevation_layout MapElevation_shape any.
Proof. codec_plain MapElevation_to_bytes MapElevation_from_bytes MapElevation_layout MapElevation_shape. Qed.
#[global] Instance ResearchResourceCost_codec : Codec ResearchResourceCost_to_bytes ResearchResourceCost_from_bytes ResearchResourceCost_layout ResearchResourceCost_shape any.
Proof. codec_plain ResearchResourceCost_to_bytes ResearchResourceCost_from_bytes ResearchResourceCost_layout ResearchResourceCost_shape. Qed.
#[global] Instance ResearchLocation_codec : Codec ResearchLocation_to_bytes ResearchLocation_from_bytes ResearchLocation_layout ResearchLocation_shape any.
Proof. codec_plain ResearchLocation_to_bytes ResearchLocation_from_bytes ResearchLocation_layout ResearchLocation_shape. Qed.
#[global] Instance ResourceStorage_codec : Codec ResourceStorage_to_bytes ResourceStorage_from_bytes ResourceStorage_layout ResourceStorage_shape any.
Proof. codec_struct ResourceStorage_to_bytes ResourceStorage_from_bytes ResourceStorage_layout ResourceStorage_shape. Qed.
#[global] Instance DamageGraphic_codec : Codec DamageGraphic_to_bytes DamageGraphic_from_bytes DamageGraphic_layout DamageGraphic_shape any.
Proof. codec_struct DamageGraphic_to_bytes DamageGraphic_from_bytes DamageGraphic_layout DamageGraphic_shape. Qed.
#[global] Instance DeadFish_codec : Codec DeadFish_to_bytes DeadFish_from_bytes DeadFish_layout DeadFish_shape any.
Proof. codec_struct DeadFish_to_bytes DeadFish_from_bytes DeadFish_layout DeadFish_shape. Qed.
#[global] Instance AttackOrArmor_codec : Codec AttackOrArmor_to_bytes AttackOrArmor_from_bytes AttackOrArmor_layout AttackOrArmor_shape any.
Proof. codec_struct AttackOrArmor_to_bytes AttackOrArmor_from_bytes AttackOrArmor_layout AttackOrArmor_shape. Qed.
#[global] Instance Projectile_codec : Codec Projectile_to_bytes Projectile_from_bytes Projectile_layout Projectile_shape any.
Proof. codec_struct Projectile_to_bytes Projectile_from_bytes Projectile_layout Projectile_shape. Qed.
#[global] Instance ResourceCost_codec : Codec ResourceCost_to_bytes ResourceCost_from_bytes ResourceCost_layout ResourceCost_shape any.
Proof. codec_struct ResourceCost_to_bytes ResourceCost_from_bytes ResourceCost_layout ResourceCost_shape. Qed.
#[global] Instance BuildingAnnex_codec : Codec BuildingAnnex_to_bytes BuildingAnnex_from_bytes BuildingAnnex_layout BuildingAnnex_shape any.
Proof. codec_struct BuildingAnnex_to_bytes BuildingAnnex_from_bytes BuildingAnnex_layout BuildingAnnex_shape. Qed.
