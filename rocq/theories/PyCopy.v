(** * Everything in a loaded file can be copied: no part of it is a ByteHandler. *)
From Verif Require Import Base Py Source PyRep Deep PyNew.
From Verif Require Import M_Sound M_PlayerColour M_Effect M_TerrainRestriction M_Graphic
  M_TerrainBlock M_RandomMaps M_Task M_UnitHeaders M_Unit M_Civ M_Tech M_TechTree M_DatFile.
From Coq Require Import String Ascii.
Local Open Scope list_scope.

Lemma cp_map {A} (D : A -> deep) l : (forall a, copyable (D a) = true) -> forallb copyable (map D l) = true.
Proof. intros H. induction l as [|a l IH]; [reflexivity|]. cbn [map forallb]. rewrite H. exact IH. Qed.
Lemma cp_opt {A} (D : A -> deep) o : (forall a, copyable (D a) = true) -> copyable (emb_opt D o) = true.
Proof. intros H. destruct o; [apply H|reflexivity]. Qed.
Create HintDb cp.
Ltac cp := cbn [copyable forallb fst snd negb andb String.eqb Ascii.eqb Bool.eqb];
  repeat first [reflexivity | apply andb_true_intro; split | apply cp_map; intros ? | apply cp_opt; intros ? | solve [auto with cp] | progress cbn [copyable forallb fst snd negb andb String.eqb Ascii.eqb Bool.eqb]].
Lemma SoundItem_copyable x : copyable (SoundItem_deep x) = true.
Proof. unfold SoundItem_deep. cp. Qed.
#[export] Hint Resolve SoundItem_copyable : cp.
Lemma Sound_copyable x : copyable (Sound_deep x) = true.
Proof. unfold Sound_deep. cp. Qed.
#[export] Hint Resolve Sound_copyable : cp.
Lemma PlayerColour_copyable x : copyable (PlayerColour_deep x) = true.
Proof. unfold PlayerColour_deep. cp. Qed.
#[export] Hint Resolve PlayerColour_copyable : cp.
Lemma EffectCommand_copyable x : copyable (EffectCommand_deep x) = true.
Proof. unfold EffectCommand_deep. cp. Qed.
#[export] Hint Resolve EffectCommand_copyable : cp.
Lemma Effect_copyable x : copyable (Effect_deep x) = true.
Proof. unfold Effect_deep. cp. Qed.
#[export] Hint Resolve Effect_copyable : cp.
Lemma TerrainPassGraphic_copyable x : copyable (TerrainPassGraphic_deep x) = true.
Proof. unfold TerrainPassGraphic_deep. cp. Qed.
#[export] Hint Resolve TerrainPassGraphic_copyable : cp.
Lemma TerrainRestriction_copyable x : copyable (TerrainRestriction_deep x) = true.
Proof. unfold TerrainRestriction_deep. cp. Qed.
#[export] Hint Resolve TerrainRestriction_copyable : cp.
Lemma GraphicDelta_copyable x : copyable (GraphicDelta_deep x) = true.
Proof. unfold GraphicDelta_deep. cp. Qed.
#[export] Hint Resolve GraphicDelta_copyable : cp.
Lemma GraphicAngleSound_copyable x : copyable (GraphicAngleSound_deep x) = true.
Proof. unfold GraphicAngleSound_deep. cp. Qed.
#[export] Hint Resolve GraphicAngleSound_copyable : cp.
Lemma Graphic_copyable x : copyable (Graphic_deep x) = true.
Proof. unfold Graphic_deep. cp. Qed.
#[export] Hint Resolve Graphic_copyable : cp.
Lemma FrameData_copyable x : copyable (FrameData_deep x) = true.
Proof. unfold FrameData_deep. cp. Qed.
#[export] Hint Resolve FrameData_copyable : cp.
Lemma Terrain_copyable x : copyable (Terrain_deep x) = true.
Proof. unfold Terrain_deep. cp. Qed.
#[export] Hint Resolve Terrain_copyable : cp.
Lemma TileSize_copyable x : copyable (TileSize_deep x) = true.
Proof. unfold TileSize_deep. cp. Qed.
#[export] Hint Resolve TileSize_copyable : cp.
Lemma TerrainBlock_copyable x : copyable (TerrainBlock_deep x) = true.
Proof. unfold TerrainBlock_deep. cp. Qed.
#[export] Hint Resolve TerrainBlock_copyable : cp.
Lemma MapUnit_copyable x : copyable (MapUnit_deep x) = true.
Proof. unfold MapUnit_deep. cp. Qed.
#[export] Hint Resolve MapUnit_copyable : cp.
Lemma MapTerrain_copyable x : copyable (MapTerrain_deep x) = true.
Proof. unfold MapTerrain_deep. cp. Qed.
#[export] Hint Resolve MapTerrain_copyable : cp.
Lemma MapLand_copyable x : copyable (MapLand_deep x) = true.
Proof. unfold MapLand_deep. cp. Qed.
#[export] Hint Resolve MapLand_copyable : cp.
Lemma MapElevation_copyable x : copyable (MapElevation_deep x) = true.
Proof. unfold MapElevation_deep. cp. Qed.
#[export] Hint Resolve MapElevation_copyable : cp.
Lemma MapInfo_copyable x : copyable (MapInfo_deep x) = true.
Proof. unfold MapInfo_deep. cp. Qed.
#[export] Hint Resolve MapInfo_copyable : cp.
Lemma RandomMaps_copyable x : copyable (RandomMaps_deep x) = true.
Proof. unfold RandomMaps_deep. cp. Qed.
#[export] Hint Resolve RandomMaps_copyable : cp.
Lemma Task_copyable x : copyable (Task_deep x) = true.
Proof. unfold Task_deep. cp. Qed.
#[export] Hint Resolve Task_copyable : cp.
Lemma UnitHeaders_copyable x : copyable (UnitHeaders_deep x) = true.
Proof. unfold UnitHeaders_deep. cp. Qed.
#[export] Hint Resolve UnitHeaders_copyable : cp.
Lemma ResourceStorage_copyable x : copyable (ResourceStorage_deep x) = true.
Proof. unfold ResourceStorage_deep. cp. Qed.
#[export] Hint Resolve ResourceStorage_copyable : cp.
Lemma DamageGraphic_copyable x : copyable (DamageGraphic_deep x) = true.
Proof. unfold DamageGraphic_deep. cp. Qed.
#[export] Hint Resolve DamageGraphic_copyable : cp.
Lemma DeadFish_copyable x : copyable (DeadFish_deep x) = true.
Proof. unfold DeadFish_deep. cp. Qed.
#[export] Hint Resolve DeadFish_copyable : cp.
Lemma Bird_copyable x : copyable (Bird_deep x) = true.
Proof. unfold Bird_deep. cp. Qed.
#[export] Hint Resolve Bird_copyable : cp.
Lemma AttackOrArmor_copyable x : copyable (AttackOrArmor_deep x) = true.
Proof. unfold AttackOrArmor_deep. cp. Qed.
#[export] Hint Resolve AttackOrArmor_copyable : cp.
Lemma Type50_copyable x : copyable (Type50_deep x) = true.
Proof. unfold Type50_deep. cp. Qed.
#[export] Hint Resolve Type50_copyable : cp.
Lemma Projectile_copyable x : copyable (Projectile_deep x) = true.
Proof. unfold Projectile_deep. cp. Qed.
#[export] Hint Resolve Projectile_copyable : cp.
Lemma ResourceCost_copyable x : copyable (ResourceCost_deep x) = true.
Proof. unfold ResourceCost_deep. cp. Qed.
#[export] Hint Resolve ResourceCost_copyable : cp.
Lemma TrainLocation_copyable x : copyable (TrainLocation_deep x) = true.
Proof. unfold TrainLocation_deep. cp. Qed.
#[export] Hint Resolve TrainLocation_copyable : cp.
Lemma Creatable_copyable x : copyable (Creatable_deep x) = true.
Proof. unfold Creatable_deep. cp. Qed.
#[export] Hint Resolve Creatable_copyable : cp.
Lemma BuildingAnnex_copyable x : copyable (BuildingAnnex_deep x) = true.
Proof. unfold BuildingAnnex_deep. cp. Qed.
#[export] Hint Resolve BuildingAnnex_copyable : cp.
Lemma Building_copyable x : copyable (Building_deep x) = true.
Proof. unfold Building_deep. cp. Qed.
#[export] Hint Resolve Building_copyable : cp.
Lemma Unit_copyable x : copyable (Unit_deep x) = true.
Proof. unfold Unit_deep. cp. Qed.
#[export] Hint Resolve Unit_copyable : cp.
Lemma Civ_copyable x : copyable (Civ_deep x) = true.
Proof. unfold Civ_deep. cp. Qed.
#[export] Hint Resolve Civ_copyable : cp.
Lemma ResearchResourceCost_copyable x : copyable (ResearchResourceCost_deep x) = true.
Proof. unfold ResearchResourceCost_deep. cp. Qed.
#[export] Hint Resolve ResearchResourceCost_copyable : cp.
Lemma ResearchLocation_copyable x : copyable (ResearchLocation_deep x) = true.
Proof. unfold ResearchLocation_deep. cp. Qed.
#[export] Hint Resolve ResearchLocation_copyable : cp.
Lemma Tech_copyable x : copyable (Tech_deep x) = true.
Proof. unfold Tech_deep. cp. Qed.
#[export] Hint Resolve Tech_copyable : cp.
Lemma Common_copyable x : copyable (Common_deep x) = true.
Proof. unfold Common_deep. cp. Qed.
#[export] Hint Resolve Common_copyable : cp.
Lemma TechTreeAge_copyable x : copyable (TechTreeAge_deep x) = true.
Proof. unfold TechTreeAge_deep. cp. Qed.
#[export] Hint Resolve TechTreeAge_copyable : cp.
Lemma BuildingConnection_copyable x : copyable (BuildingConnection_deep x) = true.
Proof. unfold BuildingConnection_deep. cp. Qed.
#[export] Hint Resolve BuildingConnection_copyable : cp.
Lemma UnitConnection_copyable x : copyable (UnitConnection_deep x) = true.
Proof. unfold UnitConnection_deep. cp. Qed.
#[export] Hint Resolve UnitConnection_copyable : cp.
Lemma ResearchConnection_copyable x : copyable (ResearchConnection_deep x) = true.
Proof. unfold ResearchConnection_deep. cp. Qed.
#[export] Hint Resolve ResearchConnection_copyable : cp.
Lemma TechTree_copyable x : copyable (TechTree_deep x) = true.
Proof. unfold TechTree_deep. cp. Qed.
#[export] Hint Resolve TechTree_copyable : cp.
Lemma DatFile_copyable x : copyable (DatFile_deep x) = true.
Proof. unfold DatFile_deep. cp. Qed.
#[export] Hint Resolve DatFile_copyable : cp.
