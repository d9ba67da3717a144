(** * The readers of the classes, as written: sounds, colours, effects, graphics, terrains, maps

    Generated by tools/gen_readers.py. For each class: the method found under the name, that it can
    be handed to the array readers, and that running its text is running the typed reader. *)
From Verif Require Import Base PyInt PyFloat PyStr PyStruct DataTypes Versions Common Py Source PyRep PyPure PyW PyR PyRE PyRH PyRA PyRL PyRC PyRP PyRS PyRT Deep.
From Verif Require Import M_Sound M_PlayerColour M_Effect M_TerrainRestriction M_Graphic M_TerrainBlock M_RandomMaps.
From Coq Require Import String Ascii Lia.
Open Scope Z_scope.
Local Open Scope list_scope.
Lemma SoundItem_m : find_method source "SoundItem" "from_bytes" = Some src_SoundItem_from_bytes. Proof. look. Qed.
Lemma SoundItem_k : reader "SoundItem" "from_bytes". Proof. reader_ SoundItem_m. Qed.
Lemma SoundItem_r {ee : Era} : reads 5 "SoundItem" "from_bytes" [] SoundItem_from_bytes SoundItem_deep.
Proof. class_ SoundItem_m src_SoundItem_from_bytes SoundItem_from_bytes. Qed.
#[export] Hint Resolve SoundItem_k SoundItem_r : readers.
Lemma Sound_m : find_method source "Sound" "from_bytes" = Some src_Sound_from_bytes. Proof. look. Qed.
Lemma Sound_k : reader "Sound" "from_bytes". Proof. reader_ Sound_m. Qed.
Lemma Sound_r {ee : Era} : reads 7 "Sound" "from_bytes" [] Sound_from_bytes Sound_deep.
Proof. class_ Sound_m src_Sound_from_bytes Sound_from_bytes. Qed.
#[export] Hint Resolve Sound_k Sound_r : readers.
Lemma PlayerColour_m : find_method source "PlayerColour" "from_bytes" = Some src_PlayerColour_from_bytes. Proof. look. Qed.
Lemma PlayerColour_k : reader "PlayerColour" "from_bytes". Proof. reader_ PlayerColour_m. Qed.
Lemma PlayerColour_r {ee : Era} : reads 5 "PlayerColour" "from_bytes" [] PlayerColour_from_bytes PlayerColour_deep.
Proof. class_ PlayerColour_m src_PlayerColour_from_bytes PlayerColour_from_bytes. Qed.
#[export] Hint Resolve PlayerColour_k PlayerColour_r : readers.
Lemma EffectCommand_m : find_method source "EffectCommand" "from_bytes" = Some src_EffectCommand_from_bytes. Proof. look. Qed.
Lemma EffectCommand_k : reader "EffectCommand" "from_bytes". Proof. reader_ EffectCommand_m. Qed.
Lemma EffectCommand_r {ee : Era} : reads 5 "EffectCommand" "from_bytes" [] EffectCommand_from_bytes EffectCommand_deep.
Proof. class_ EffectCommand_m src_EffectCommand_from_bytes EffectCommand_from_bytes. Qed.
#[export] Hint Resolve EffectCommand_k EffectCommand_r : readers.
Lemma Effect_m : find_method source "Effect" "from_bytes" = Some src_Effect_from_bytes. Proof. look. Qed.
Lemma Effect_k : reader "Effect" "from_bytes". Proof. reader_ Effect_m. Qed.
Lemma Effect_r {ee : Era} : reads 7 "Effect" "from_bytes" [] Effect_from_bytes Effect_deep.
Proof. class_ Effect_m src_Effect_from_bytes Effect_from_bytes. Qed.
#[export] Hint Resolve Effect_k Effect_r : readers.
Lemma TerrainPassGraphic_m : find_method source "TerrainPassGraphic" "from_bytes" = Some src_TerrainPassGraphic_from_bytes. Proof. look. Qed.
Lemma TerrainPassGraphic_k : reader "TerrainPassGraphic" "from_bytes". Proof. reader_ TerrainPassGraphic_m. Qed.
Lemma TerrainPassGraphic_r {ee : Era} : reads 5 "TerrainPassGraphic" "from_bytes" [] TerrainPassGraphic_from_bytes TerrainPassGraphic_deep.
Proof. class_ TerrainPassGraphic_m src_TerrainPassGraphic_from_bytes TerrainPassGraphic_from_bytes. Qed.
#[export] Hint Resolve TerrainPassGraphic_k TerrainPassGraphic_r : readers.
Lemma TerrainRestriction_m : find_method source "TerrainRestriction" "from_bytes_with_count" = Some src_TerrainRestriction_from_bytes_with_count. Proof. look. Qed.
Lemma TerrainRestriction_k : reader "TerrainRestriction" "from_bytes_with_count". Proof. reader_ TerrainRestriction_m. Qed.
Lemma TerrainRestriction_r {ee : Era} count : reads 7 "TerrainRestriction" "from_bytes_with_count" [PInt count] (TerrainRestriction_from_bytes_with_count count) TerrainRestriction_deep.
Proof. class_ TerrainRestriction_m src_TerrainRestriction_from_bytes_with_count TerrainRestriction_from_bytes_with_count. Qed.
#[export] Hint Resolve TerrainRestriction_k TerrainRestriction_r : readers.
Lemma GraphicDelta_m : find_method source "GraphicDelta" "from_bytes" = Some src_GraphicDelta_from_bytes. Proof. look. Qed.
Lemma GraphicDelta_k : reader "GraphicDelta" "from_bytes". Proof. reader_ GraphicDelta_m. Qed.
Lemma GraphicDelta_r {ee : Era} : reads 5 "GraphicDelta" "from_bytes" [] GraphicDelta_from_bytes GraphicDelta_deep.
Proof. class_ GraphicDelta_m src_GraphicDelta_from_bytes GraphicDelta_from_bytes. Qed.
#[export] Hint Resolve GraphicDelta_k GraphicDelta_r : readers.
Lemma GraphicAngleSound_m : find_method source "GraphicAngleSound" "from_bytes" = Some src_GraphicAngleSound_from_bytes. Proof. look. Qed.
Lemma GraphicAngleSound_k : reader "GraphicAngleSound" "from_bytes". Proof. reader_ GraphicAngleSound_m. Qed.
Lemma GraphicAngleSound_r {ee : Era} : reads 5 "GraphicAngleSound" "from_bytes" [] GraphicAngleSound_from_bytes GraphicAngleSound_deep.
Proof. class_ GraphicAngleSound_m src_GraphicAngleSound_from_bytes GraphicAngleSound_from_bytes. Qed.
#[export] Hint Resolve GraphicAngleSound_k GraphicAngleSound_r : readers.
Lemma Graphic_m : find_method source "Graphic" "from_bytes" = Some src_Graphic_from_bytes. Proof. look. Qed.
Lemma Graphic_k : reader "Graphic" "from_bytes". Proof. reader_ Graphic_m. Qed.
Lemma Graphic_r {ee : Era} : reads 7 "Graphic" "from_bytes" [] Graphic_from_bytes Graphic_deep.
Proof. class_ Graphic_m src_Graphic_from_bytes Graphic_from_bytes. Qed.
#[export] Hint Resolve Graphic_k Graphic_r : readers.
Lemma FrameData_m : find_method source "FrameData" "from_bytes" = Some src_FrameData_from_bytes. Proof. look. Qed.
Lemma FrameData_k : reader "FrameData" "from_bytes". Proof. reader_ FrameData_m. Qed.
Lemma FrameData_r {ee : Era} : reads 5 "FrameData" "from_bytes" [] FrameData_from_bytes FrameData_deep.
Proof. class_ FrameData_m src_FrameData_from_bytes FrameData_from_bytes. Qed.
#[export] Hint Resolve FrameData_k FrameData_r : readers.
Lemma Terrain_m : find_method source "Terrain" "from_bytes" = Some src_Terrain_from_bytes. Proof. look. Qed.
Lemma Terrain_k : reader "Terrain" "from_bytes". Proof. reader_ Terrain_m. Qed.
Lemma Terrain_r {ee : Era} : reads 7 "Terrain" "from_bytes" [] Terrain_from_bytes Terrain_deep.
Proof. class_ Terrain_m src_Terrain_from_bytes Terrain_from_bytes. Qed.
#[export] Hint Resolve Terrain_k Terrain_r : readers.
Lemma TileSize_m : find_method source "TileSize" "from_bytes" = Some src_TileSize_from_bytes. Proof. look. Qed.
Lemma TileSize_k : reader "TileSize" "from_bytes". Proof. reader_ TileSize_m. Qed.
Lemma TileSize_r {ee : Era} : reads 5 "TileSize" "from_bytes" [] TileSize_from_bytes TileSize_deep.
Proof. class_ TileSize_m src_TileSize_from_bytes TileSize_from_bytes. Qed.
#[export] Hint Resolve TileSize_k TileSize_r : readers.
Lemma TerrainBlock_m : find_method source "TerrainBlock" "from_bytes" = Some src_TerrainBlock_from_bytes. Proof. look. Qed.
Lemma TerrainBlock_k : reader "TerrainBlock" "from_bytes". Proof. reader_ TerrainBlock_m. Qed.
Lemma TerrainBlock_r {ee : Era} : reads 9 "TerrainBlock" "from_bytes" [] TerrainBlock_from_bytes TerrainBlock_deep.
Proof. class_ TerrainBlock_m src_TerrainBlock_from_bytes TerrainBlock_from_bytes. Qed.
#[export] Hint Resolve TerrainBlock_k TerrainBlock_r : readers.
Lemma MapUnit_m : find_method source "MapUnit" "from_bytes" = Some src_MapUnit_from_bytes. Proof. look. Qed.
Lemma MapUnit_k : reader "MapUnit" "from_bytes". Proof. reader_ MapUnit_m. Qed.
Lemma MapUnit_r {ee : Era} : reads 5 "MapUnit" "from_bytes" [] MapUnit_from_bytes MapUnit_deep.
Proof. class_ MapUnit_m src_MapUnit_from_bytes MapUnit_from_bytes. Qed.
#[export] Hint Resolve MapUnit_k MapUnit_r : readers.
Lemma MapTerrain_m : find_method source "MapTerrain" "from_bytes" = Some src_MapTerrain_from_bytes. Proof. look. Qed.
Lemma MapTerrain_k : reader "MapTerrain" "from_bytes". Proof. reader_ MapTerrain_m. Qed.
Lemma MapTerrain_r {ee : Era} : reads 5 "MapTerrain" "from_bytes" [] MapTerrain_from_bytes MapTerrain_deep.
Proof. class_ MapTerrain_m src_MapTerrain_from_bytes MapTerrain_from_bytes. Qed.
#[export] Hint Resolve MapTerrain_k MapTerrain_r : readers.
Lemma MapLand_m : find_method source "MapLand" "from_bytes" = Some src_MapLand_from_bytes. Proof. look. Qed.
Lemma MapLand_k : reader "MapLand" "from_bytes". Proof. reader_ MapLand_m. Qed.
Lemma MapLand_r {ee : Era} : reads 5 "MapLand" "from_bytes" [] MapLand_from_bytes MapLand_deep.
Proof. class_ MapLand_m src_MapLand_from_bytes MapLand_from_bytes. Qed.
#[export] Hint Resolve MapLand_k MapLand_r : readers.
Lemma MapElevation_m : find_method source "MapElevation" "from_bytes" = Some src_MapElevation_from_bytes. Proof. look. Qed.
Lemma MapElevation_k : reader "MapElevation" "from_bytes". Proof. reader_ MapElevation_m. Qed.
Lemma MapElevation_r {ee : Era} : reads 5 "MapElevation" "from_bytes" [] MapElevation_from_bytes MapElevation_deep.
Proof. class_ MapElevation_m src_MapElevation_from_bytes MapElevation_from_bytes. Qed.
#[export] Hint Resolve MapElevation_k MapElevation_r : readers.
Lemma MapInfo_m : find_method source "MapInfo" "from_bytes" = Some src_MapInfo_from_bytes. Proof. look. Qed.
Lemma MapInfo_k : reader "MapInfo" "from_bytes". Proof. reader_ MapInfo_m. Qed.
Lemma MapInfo_r {ee : Era} : reads 7 "MapInfo" "from_bytes" [] MapInfo_from_bytes MapInfo_deep.
Proof. class_ MapInfo_m src_MapInfo_from_bytes MapInfo_from_bytes. Qed.
#[export] Hint Resolve MapInfo_k MapInfo_r : readers.
Lemma RandomMaps_m : find_method source "RandomMaps" "from_bytes" = Some src_RandomMaps_from_bytes. Proof. look. Qed.
Lemma RandomMaps_k : reader "RandomMaps" "from_bytes". Proof. reader_ RandomMaps_m. Qed.
Lemma RandomMaps_r {ee : Era} : reads 9 "RandomMaps" "from_bytes" [] RandomMaps_from_bytes RandomMaps_deep.
Proof. class_ RandomMaps_m src_RandomMaps_from_bytes RandomMaps_from_bytes. Qed.
#[export] Hint Resolve RandomMaps_k RandomMaps_r : readers.
