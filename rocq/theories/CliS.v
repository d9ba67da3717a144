(** * The dump of each kind of object: Deep.v, Dump.v and the class declarations of Source.v agree.
    Generated by tools/gen_cli.py. *)
From Verif Require Import Base PyFloat PyStr Py Source PyRep Deep Dump CliL.
From Verif Require Import M_Sound M_PlayerColour M_Effect M_TerrainRestriction M_Graphic
  M_TerrainBlock M_RandomMaps M_Task M_UnitHeaders M_Unit M_Civ M_Tech M_TechTree M_DatFile.
From Coq Require Import String.
Open Scope Z_scope.
Local Open Scope list_scope.
Local Open Scope string_scope.

Ltac new_item := first [ apply y_int | apply y_float | apply y_str | exact (y_num false _ _) | apply says_opt; intros ?; new_item
  | apply y_list, F2_map; intros ?; new_item | apply y_tuple, F2_map; intros ?; new_item | auto with says nocore ].
Ltac old_item := first [ apply y_int | apply y_float | apply y_str | exact (y_num true _ _) | apply says_opt_old; intros ?; old_item
  | apply y_list; rewrite ?map_map; apply F2_map; intros ?; cbn [int_levels]; old_item | apply y_tuple; rewrite ?map_map; apply F2_map; intros ?; cbn [int_levels]; old_item | auto with says nocore ].
Ltac fields item := repeat first [ apply Forall2_nil | apply Forall2_cons; [split; [reflexivity|cbn [fst snd]; item]|] ].
Ltac class item := eapply y_obj; [vm_compute; reflexivity|reflexivity|reflexivity|vm_compute; reflexivity|].
Create HintDb says.

Lemma SoundItem_new n x : says false (S (S n)) (SoundItem_deep x) (SoundItem_asdict x).
Proof. unfold SoundItem_deep, SoundItem_asdict. class new_item. fields new_item. Qed.
Lemma SoundItem_old n x : says true (S (S n)) (SoundItem_deep x) (int_levels (SoundItem_asdict x)).
Proof.
  unfold SoundItem_deep, SoundItem_asdict. cbn [int_levels map fst snd String.eqb Ascii.eqb Bool.eqb].
  class old_item. fields old_item.
Qed.
#[local] Hint Resolve SoundItem_new SoundItem_old : says.

Lemma Sound_new n x : says false (S (S (S (S n)))) (Sound_deep x) (Sound_asdict x).
Proof. unfold Sound_deep, Sound_asdict. class new_item. fields new_item. Qed.
Lemma Sound_old n x : says true (S (S (S (S n)))) (Sound_deep x) (int_levels (Sound_asdict x)).
Proof.
  unfold Sound_deep, Sound_asdict. cbn [int_levels map fst snd String.eqb Ascii.eqb Bool.eqb].
  class old_item. fields old_item.
Qed.
#[local] Hint Resolve Sound_new Sound_old : says.

Lemma PlayerColour_new n x : says false (S (S n)) (PlayerColour_deep x) (PlayerColour_asdict x).
Proof. unfold PlayerColour_deep, PlayerColour_asdict. class new_item. fields new_item. Qed.
Lemma PlayerColour_old n x : says true (S (S n)) (PlayerColour_deep x) (int_levels (PlayerColour_asdict x)).
Proof.
  unfold PlayerColour_deep, PlayerColour_asdict. cbn [int_levels map fst snd String.eqb Ascii.eqb Bool.eqb].
  class old_item. fields old_item.
Qed.
#[local] Hint Resolve PlayerColour_new PlayerColour_old : says.

Lemma EffectCommand_new n x : says false (S (S n)) (EffectCommand_deep x) (EffectCommand_asdict x).
Proof. unfold EffectCommand_deep, EffectCommand_asdict. class new_item. fields new_item. Qed.
Lemma EffectCommand_old n x : says true (S (S n)) (EffectCommand_deep x) (int_levels (EffectCommand_asdict x)).
Proof.
  unfold EffectCommand_deep, EffectCommand_asdict. cbn [int_levels map fst snd String.eqb Ascii.eqb Bool.eqb].
  class old_item. fields old_item.
Qed.
#[local] Hint Resolve EffectCommand_new EffectCommand_old : says.

Lemma Effect_new n x : says false (S (S (S (S n)))) (Effect_deep x) (Effect_asdict x).
Proof. unfold Effect_deep, Effect_asdict. class new_item. fields new_item. Qed.
Lemma Effect_old n x : says true (S (S (S (S n)))) (Effect_deep x) (int_levels (Effect_asdict x)).
Proof.
  unfold Effect_deep, Effect_asdict. cbn [int_levels map fst snd String.eqb Ascii.eqb Bool.eqb].
  class old_item. fields old_item.
Qed.
#[local] Hint Resolve Effect_new Effect_old : says.

Lemma TerrainPassGraphic_new n x : says false (S (S n)) (TerrainPassGraphic_deep x) (TerrainPassGraphic_asdict x).
Proof. unfold TerrainPassGraphic_deep, TerrainPassGraphic_asdict. class new_item. fields new_item. Qed.
Lemma TerrainPassGraphic_old n x : says true (S (S n)) (TerrainPassGraphic_deep x) (int_levels (TerrainPassGraphic_asdict x)).
Proof.
  unfold TerrainPassGraphic_deep, TerrainPassGraphic_asdict. cbn [int_levels map fst snd String.eqb Ascii.eqb Bool.eqb].
  class old_item. fields old_item.
Qed.
#[local] Hint Resolve TerrainPassGraphic_new TerrainPassGraphic_old : says.

Lemma TerrainRestriction_new n x : says false (S (S (S (S n)))) (TerrainRestriction_deep x) (TerrainRestriction_asdict x).
Proof. unfold TerrainRestriction_deep, TerrainRestriction_asdict. class new_item. fields new_item. Qed.
Lemma TerrainRestriction_old n x : says true (S (S (S (S n)))) (TerrainRestriction_deep x) (int_levels (TerrainRestriction_asdict x)).
Proof.
  unfold TerrainRestriction_deep, TerrainRestriction_asdict. cbn [int_levels map fst snd String.eqb Ascii.eqb Bool.eqb].
  class old_item. fields old_item.
Qed.
#[local] Hint Resolve TerrainRestriction_new TerrainRestriction_old : says.

Lemma GraphicDelta_new n x : says false (S (S n)) (GraphicDelta_deep x) (GraphicDelta_asdict x).
Proof. unfold GraphicDelta_deep, GraphicDelta_asdict. class new_item. fields new_item. Qed.
Lemma GraphicDelta_old n x : says true (S (S n)) (GraphicDelta_deep x) (int_levels (GraphicDelta_asdict x)).
Proof.
  unfold GraphicDelta_deep, GraphicDelta_asdict. cbn [int_levels map fst snd String.eqb Ascii.eqb Bool.eqb].
  class old_item. fields old_item.
Qed.
#[local] Hint Resolve GraphicDelta_new GraphicDelta_old : says.

Lemma GraphicAngleSound_new n x : says false (S (S n)) (GraphicAngleSound_deep x) (GraphicAngleSound_asdict x).
Proof. unfold GraphicAngleSound_deep, GraphicAngleSound_asdict. class new_item. fields new_item. Qed.
Lemma GraphicAngleSound_old n x : says true (S (S n)) (GraphicAngleSound_deep x) (int_levels (GraphicAngleSound_asdict x)).
Proof.
  unfold GraphicAngleSound_deep, GraphicAngleSound_asdict. cbn [int_levels map fst snd String.eqb Ascii.eqb Bool.eqb].
  class old_item. fields old_item.
Qed.
#[local] Hint Resolve GraphicAngleSound_new GraphicAngleSound_old : says.

Lemma Graphic_new n x : says false (S (S (S (S n)))) (Graphic_deep x) (Graphic_asdict x).
Proof. unfold Graphic_deep, Graphic_asdict. class new_item. fields new_item. Qed.
Lemma Graphic_old n x : says true (S (S (S (S n)))) (Graphic_deep x) (int_levels (Graphic_asdict x)).
Proof.
  unfold Graphic_deep, Graphic_asdict. cbn [int_levels map fst snd String.eqb Ascii.eqb Bool.eqb].
  class old_item. fields old_item.
Qed.
#[local] Hint Resolve Graphic_new Graphic_old : says.

Lemma FrameData_new n x : says false (S (S n)) (FrameData_deep x) (FrameData_asdict x).
Proof. unfold FrameData_deep, FrameData_asdict. class new_item. fields new_item. Qed.
Lemma FrameData_old n x : says true (S (S n)) (FrameData_deep x) (int_levels (FrameData_asdict x)).
Proof.
  unfold FrameData_deep, FrameData_asdict. cbn [int_levels map fst snd String.eqb Ascii.eqb Bool.eqb].
  class old_item. fields old_item.
Qed.
#[local] Hint Resolve FrameData_new FrameData_old : says.

Lemma Terrain_new n x : says false (S (S (S (S n)))) (Terrain_deep x) (Terrain_asdict x).
Proof. unfold Terrain_deep, Terrain_asdict. class new_item. fields new_item. Qed.
Lemma Terrain_old n x : says true (S (S (S (S n)))) (Terrain_deep x) (int_levels (Terrain_asdict x)).
Proof.
  unfold Terrain_deep, Terrain_asdict. cbn [int_levels map fst snd String.eqb Ascii.eqb Bool.eqb].
  class old_item. fields old_item.
Qed.
#[local] Hint Resolve Terrain_new Terrain_old : says.

Lemma TileSize_new n x : says false (S (S n)) (TileSize_deep x) (TileSize_asdict x).
Proof. unfold TileSize_deep, TileSize_asdict. class new_item. fields new_item. Qed.
Lemma TileSize_old n x : says true (S (S n)) (TileSize_deep x) (int_levels (TileSize_asdict x)).
Proof.
  unfold TileSize_deep, TileSize_asdict. cbn [int_levels map fst snd String.eqb Ascii.eqb Bool.eqb].
  class old_item. fields old_item.
Qed.
#[local] Hint Resolve TileSize_new TileSize_old : says.

Lemma TerrainBlock_new n x : says false (S (S (S (S (S (S n)))))) (TerrainBlock_deep x) (TerrainBlock_asdict x).
Proof. unfold TerrainBlock_deep, TerrainBlock_asdict. class new_item. fields new_item. Qed.
Lemma TerrainBlock_old n x : says true (S (S (S (S (S (S n)))))) (TerrainBlock_deep x) (int_levels (TerrainBlock_asdict x)).
Proof.
  unfold TerrainBlock_deep, TerrainBlock_asdict. cbn [int_levels map fst snd String.eqb Ascii.eqb Bool.eqb].
  class old_item. fields old_item.
Qed.
#[local] Hint Resolve TerrainBlock_new TerrainBlock_old : says.

Lemma MapUnit_new n x : says false (S (S n)) (MapUnit_deep x) (MapUnit_asdict x).
Proof. unfold MapUnit_deep, MapUnit_asdict. class new_item. fields new_item. Qed.
Lemma MapUnit_old n x : says true (S (S n)) (MapUnit_deep x) (int_levels (MapUnit_asdict x)).
Proof.
  unfold MapUnit_deep, MapUnit_asdict. cbn [int_levels map fst snd String.eqb Ascii.eqb Bool.eqb].
  class old_item. fields old_item.
Qed.
#[local] Hint Resolve MapUnit_new MapUnit_old : says.

Lemma MapTerrain_new n x : says false (S (S n)) (MapTerrain_deep x) (MapTerrain_asdict x).
Proof. unfold MapTerrain_deep, MapTerrain_asdict. class new_item. fields new_item. Qed.
Lemma MapTerrain_old n x : says true (S (S n)) (MapTerrain_deep x) (int_levels (MapTerrain_asdict x)).
Proof.
  unfold MapTerrain_deep, MapTerrain_asdict. cbn [int_levels map fst snd String.eqb Ascii.eqb Bool.eqb].
  class old_item. fields old_item.
Qed.
#[local] Hint Resolve MapTerrain_new MapTerrain_old : says.

Lemma MapLand_new n x : says false (S (S n)) (MapLand_deep x) (MapLand_asdict x).
Proof. unfold MapLand_deep, MapLand_asdict. class new_item. fields new_item. Qed.
Lemma MapLand_old n x : says true (S (S n)) (MapLand_deep x) (int_levels (MapLand_asdict x)).
Proof.
  unfold MapLand_deep, MapLand_asdict. cbn [int_levels map fst snd String.eqb Ascii.eqb Bool.eqb].
  class old_item. fields old_item.
Qed.
#[local] Hint Resolve MapLand_new MapLand_old : says.

Lemma MapElevation_new n x : says false (S (S n)) (MapElevation_deep x) (MapElevation_asdict x).
Proof. unfold MapElevation_deep, MapElevation_asdict. class new_item. fields new_item. Qed.
Lemma MapElevation_old n x : says true (S (S n)) (MapElevation_deep x) (int_levels (MapElevation_asdict x)).
Proof.
  unfold MapElevation_deep, MapElevation_asdict. cbn [int_levels map fst snd String.eqb Ascii.eqb Bool.eqb].
  class old_item. fields old_item.
Qed.
#[local] Hint Resolve MapElevation_new MapElevation_old : says.

Lemma MapInfo_new n x : says false (S (S (S (S n)))) (MapInfo_deep x) (MapInfo_asdict x).
Proof. unfold MapInfo_deep, MapInfo_asdict. class new_item. fields new_item. Qed.
Lemma MapInfo_old n x : says true (S (S (S (S n)))) (MapInfo_deep x) (int_levels (MapInfo_asdict x)).
Proof.
  unfold MapInfo_deep, MapInfo_asdict. cbn [int_levels map fst snd String.eqb Ascii.eqb Bool.eqb].
  class old_item. fields old_item.
Qed.
#[local] Hint Resolve MapInfo_new MapInfo_old : says.

Lemma RandomMaps_new n x : says false (S (S (S (S (S (S n)))))) (RandomMaps_deep x) (RandomMaps_asdict x).
Proof. unfold RandomMaps_deep, RandomMaps_asdict. class new_item. fields new_item. Qed.
Lemma RandomMaps_old n x : says true (S (S (S (S (S (S n)))))) (RandomMaps_deep x) (int_levels (RandomMaps_asdict x)).
Proof.
  unfold RandomMaps_deep, RandomMaps_asdict. cbn [int_levels map fst snd String.eqb Ascii.eqb Bool.eqb].
  class old_item. fields old_item.
Qed.
#[local] Hint Resolve RandomMaps_new RandomMaps_old : says.

Lemma Task_new n x : says false (S (S n)) (Task_deep x) (Task_asdict x).
Proof. unfold Task_deep, Task_asdict. class new_item. fields new_item. Qed.
Lemma Task_old n x : says true (S (S n)) (Task_deep x) (int_levels (Task_asdict x)).
Proof.
  unfold Task_deep, Task_asdict. cbn [int_levels map fst snd String.eqb Ascii.eqb Bool.eqb].
  class old_item. fields old_item.
Qed.
#[local] Hint Resolve Task_new Task_old : says.

Lemma UnitHeaders_new n x : says false (S (S (S (S n)))) (UnitHeaders_deep x) (UnitHeaders_asdict x).
Proof. unfold UnitHeaders_deep, UnitHeaders_asdict. class new_item. fields new_item. Qed.
Lemma UnitHeaders_old n x : says true (S (S (S (S n)))) (UnitHeaders_deep x) (int_levels (UnitHeaders_asdict x)).
Proof.
  unfold UnitHeaders_deep, UnitHeaders_asdict. cbn [int_levels map fst snd String.eqb Ascii.eqb Bool.eqb].
  class old_item. fields old_item.
Qed.
#[local] Hint Resolve UnitHeaders_new UnitHeaders_old : says.

Lemma ResourceStorage_new n x : says false (S (S n)) (ResourceStorage_deep x) (ResourceStorage_asdict x).
Proof. unfold ResourceStorage_deep, ResourceStorage_asdict. class new_item. fields new_item. Qed.
Lemma ResourceStorage_old n x : says true (S (S n)) (ResourceStorage_deep x) (int_levels (ResourceStorage_asdict x)).
Proof.
  unfold ResourceStorage_deep, ResourceStorage_asdict. cbn [int_levels map fst snd String.eqb Ascii.eqb Bool.eqb].
  class old_item. fields old_item.
Qed.
#[local] Hint Resolve ResourceStorage_new ResourceStorage_old : says.

Lemma DamageGraphic_new n x : says false (S (S n)) (DamageGraphic_deep x) (DamageGraphic_asdict x).
Proof. unfold DamageGraphic_deep, DamageGraphic_asdict. class new_item. fields new_item. Qed.
Lemma DamageGraphic_old n x : says true (S (S n)) (DamageGraphic_deep x) (int_levels (DamageGraphic_asdict x)).
Proof.
  unfold DamageGraphic_deep, DamageGraphic_asdict. cbn [int_levels map fst snd String.eqb Ascii.eqb Bool.eqb].
  class old_item. fields old_item.
Qed.
#[local] Hint Resolve DamageGraphic_new DamageGraphic_old : says.

Lemma DeadFish_new n x : says false (S (S n)) (DeadFish_deep x) (DeadFish_asdict x).
Proof. unfold DeadFish_deep, DeadFish_asdict. class new_item. fields new_item. Qed.
Lemma DeadFish_old n x : says true (S (S n)) (DeadFish_deep x) (int_levels (DeadFish_asdict x)).
Proof.
  unfold DeadFish_deep, DeadFish_asdict. cbn [int_levels map fst snd String.eqb Ascii.eqb Bool.eqb].
  class old_item. fields old_item.
Qed.
#[local] Hint Resolve DeadFish_new DeadFish_old : says.

Lemma Bird_new n x : says false (S (S (S (S n)))) (Bird_deep x) (Bird_asdict x).
Proof. unfold Bird_deep, Bird_asdict. class new_item. fields new_item. Qed.
Lemma Bird_old n x : says true (S (S (S (S n)))) (Bird_deep x) (int_levels (Bird_asdict x)).
Proof.
  unfold Bird_deep, Bird_asdict. cbn [int_levels map fst snd String.eqb Ascii.eqb Bool.eqb].
  class old_item. fields old_item.
Qed.
#[local] Hint Resolve Bird_new Bird_old : says.

Lemma AttackOrArmor_new n x : says false (S (S n)) (AttackOrArmor_deep x) (AttackOrArmor_asdict x).
Proof. unfold AttackOrArmor_deep, AttackOrArmor_asdict. class new_item. fields new_item. Qed.
Lemma AttackOrArmor_old n x : says true (S (S n)) (AttackOrArmor_deep x) (int_levels (AttackOrArmor_asdict x)).
Proof.
  unfold AttackOrArmor_deep, AttackOrArmor_asdict. cbn [int_levels map fst snd String.eqb Ascii.eqb Bool.eqb].
  class old_item. fields old_item.
Qed.
#[local] Hint Resolve AttackOrArmor_new AttackOrArmor_old : says.

Lemma Type50_new n x : says false (S (S (S (S n)))) (Type50_deep x) (Type50_asdict x).
Proof. unfold Type50_deep, Type50_asdict. class new_item. fields new_item. Qed.
Lemma Type50_old n x : says true (S (S (S (S n)))) (Type50_deep x) (int_levels (Type50_asdict x)).
Proof.
  unfold Type50_deep, Type50_asdict. cbn [int_levels map fst snd String.eqb Ascii.eqb Bool.eqb].
  class old_item. fields old_item.
Qed.
#[local] Hint Resolve Type50_new Type50_old : says.

Lemma Projectile_new n x : says false (S (S n)) (Projectile_deep x) (Projectile_asdict x).
Proof. unfold Projectile_deep, Projectile_asdict. class new_item. fields new_item. Qed.
Lemma Projectile_old n x : says true (S (S n)) (Projectile_deep x) (int_levels (Projectile_asdict x)).
Proof.
  unfold Projectile_deep, Projectile_asdict. cbn [int_levels map fst snd String.eqb Ascii.eqb Bool.eqb].
  class old_item. fields old_item.
Qed.
#[local] Hint Resolve Projectile_new Projectile_old : says.

Lemma ResourceCost_new n x : says false (S (S n)) (ResourceCost_deep x) (ResourceCost_asdict x).
Proof. unfold ResourceCost_deep, ResourceCost_asdict. class new_item. fields new_item. Qed.
Lemma ResourceCost_old n x : says true (S (S n)) (ResourceCost_deep x) (int_levels (ResourceCost_asdict x)).
Proof.
  unfold ResourceCost_deep, ResourceCost_asdict. cbn [int_levels map fst snd String.eqb Ascii.eqb Bool.eqb].
  class old_item. fields old_item.
Qed.
#[local] Hint Resolve ResourceCost_new ResourceCost_old : says.

Lemma TrainLocation_new n x : says false (S (S n)) (TrainLocation_deep x) (TrainLocation_asdict x).
Proof. unfold TrainLocation_deep, TrainLocation_asdict. class new_item. fields new_item. Qed.
Lemma TrainLocation_old n x : says true (S (S n)) (TrainLocation_deep x) (int_levels (TrainLocation_asdict x)).
Proof.
  unfold TrainLocation_deep, TrainLocation_asdict. cbn [int_levels map fst snd String.eqb Ascii.eqb Bool.eqb].
  class old_item. fields old_item.
Qed.
#[local] Hint Resolve TrainLocation_new TrainLocation_old : says.

Lemma Creatable_new n x : says false (S (S (S (S n)))) (Creatable_deep x) (Creatable_asdict x).
Proof. unfold Creatable_deep, Creatable_asdict. class new_item. fields new_item. Qed.
Lemma Creatable_old n x : says true (S (S (S (S n)))) (Creatable_deep x) (int_levels (Creatable_asdict x)).
Proof.
  unfold Creatable_deep, Creatable_asdict. cbn [int_levels map fst snd String.eqb Ascii.eqb Bool.eqb].
  class old_item. fields old_item.
Qed.
#[local] Hint Resolve Creatable_new Creatable_old : says.

Lemma BuildingAnnex_new n x : says false (S (S n)) (BuildingAnnex_deep x) (BuildingAnnex_asdict x).
Proof. unfold BuildingAnnex_deep, BuildingAnnex_asdict. class new_item. fields new_item. Qed.
Lemma BuildingAnnex_old n x : says true (S (S n)) (BuildingAnnex_deep x) (int_levels (BuildingAnnex_asdict x)).
Proof.
  unfold BuildingAnnex_deep, BuildingAnnex_asdict. cbn [int_levels map fst snd String.eqb Ascii.eqb Bool.eqb].
  class old_item. fields old_item.
Qed.
#[local] Hint Resolve BuildingAnnex_new BuildingAnnex_old : says.

Lemma Building_new n x : says false (S (S (S (S n)))) (Building_deep x) (Building_asdict x).
Proof. unfold Building_deep, Building_asdict. class new_item. fields new_item. Qed.
Lemma Building_old n x : says true (S (S (S (S n)))) (Building_deep x) (int_levels (Building_asdict x)).
Proof.
  unfold Building_deep, Building_asdict. cbn [int_levels map fst snd String.eqb Ascii.eqb Bool.eqb].
  class old_item. fields old_item.
Qed.
#[local] Hint Resolve Building_new Building_old : says.

Lemma Unit_new n x : says false (S (S (S (S (S n))))) (Unit_deep x) (Unit_asdict x).
Proof. unfold Unit_deep, Unit_asdict. class new_item. fields new_item. Qed.
Lemma Unit_old n x : says true (S (S (S (S (S n))))) (Unit_deep x) (int_levels (Unit_asdict x)).
Proof.
  unfold Unit_deep, Unit_asdict. cbn [int_levels map fst snd String.eqb Ascii.eqb Bool.eqb].
  class old_item. fields old_item.
Qed.
#[local] Hint Resolve Unit_new Unit_old : says.

Lemma Civ_new n x : says false (S (S (S (S (S (S (S n))))))) (Civ_deep x) (Civ_asdict x).
Proof. unfold Civ_deep, Civ_asdict. class new_item. fields new_item. Qed.
Lemma Civ_old n x : says true (S (S (S (S (S (S (S n))))))) (Civ_deep x) (int_levels (Civ_asdict x)).
Proof.
  unfold Civ_deep, Civ_asdict. cbn [int_levels map fst snd String.eqb Ascii.eqb Bool.eqb].
  class old_item. fields old_item.
Qed.
#[local] Hint Resolve Civ_new Civ_old : says.

Lemma ResearchResourceCost_new n x : says false (S (S n)) (ResearchResourceCost_deep x) (ResearchResourceCost_asdict x).
Proof. unfold ResearchResourceCost_deep, ResearchResourceCost_asdict. class new_item. fields new_item. Qed.
Lemma ResearchResourceCost_old n x : says true (S (S n)) (ResearchResourceCost_deep x) (int_levels (ResearchResourceCost_asdict x)).
Proof.
  unfold ResearchResourceCost_deep, ResearchResourceCost_asdict. cbn [int_levels map fst snd String.eqb Ascii.eqb Bool.eqb].
  class old_item. fields old_item.
Qed.
#[local] Hint Resolve ResearchResourceCost_new ResearchResourceCost_old : says.

Lemma ResearchLocation_new n x : says false (S (S n)) (ResearchLocation_deep x) (ResearchLocation_asdict x).
Proof. unfold ResearchLocation_deep, ResearchLocation_asdict. class new_item. fields new_item. Qed.
Lemma ResearchLocation_old n x : says true (S (S n)) (ResearchLocation_deep x) (int_levels (ResearchLocation_asdict x)).
Proof.
  unfold ResearchLocation_deep, ResearchLocation_asdict. cbn [int_levels map fst snd String.eqb Ascii.eqb Bool.eqb].
  class old_item. fields old_item.
Qed.
#[local] Hint Resolve ResearchLocation_new ResearchLocation_old : says.

Lemma Tech_new n x : says false (S (S (S (S n)))) (Tech_deep x) (Tech_asdict x).
Proof. unfold Tech_deep, Tech_asdict. class new_item. fields new_item. Qed.
Lemma Tech_old n x : says true (S (S (S (S n)))) (Tech_deep x) (int_levels (Tech_asdict x)).
Proof.
  unfold Tech_deep, Tech_asdict. cbn [int_levels map fst snd String.eqb Ascii.eqb Bool.eqb].
  class old_item. fields old_item.
Qed.
#[local] Hint Resolve Tech_new Tech_old : says.

Lemma Common_new n x : says false (S (S (S n))) (Common_deep x) (Common_asdict x).
Proof. unfold Common_deep, Common_asdict. class new_item. fields new_item. Qed.
Lemma Common_old n x : says true (S (S (S n))) (Common_deep x) (int_levels (Common_asdict x)).
Proof.
  unfold Common_deep, Common_asdict. cbn [int_levels map fst snd String.eqb Ascii.eqb Bool.eqb].
  class old_item. fields old_item.
Qed.
#[local] Hint Resolve Common_new Common_old : says.

Lemma TechTreeAge_new n x : says false (S (S (S (S n)))) (TechTreeAge_deep x) (TechTreeAge_asdict x).
Proof. unfold TechTreeAge_deep, TechTreeAge_asdict. class new_item. fields new_item. Qed.
Lemma TechTreeAge_old n x : says true (S (S (S (S n)))) (TechTreeAge_deep x) (int_levels (TechTreeAge_asdict x)).
Proof.
  unfold TechTreeAge_deep, TechTreeAge_asdict. cbn [int_levels map fst snd String.eqb Ascii.eqb Bool.eqb].
  class old_item. fields old_item.
Qed.
#[local] Hint Resolve TechTreeAge_new TechTreeAge_old : says.

Lemma BuildingConnection_new n x : says false (S (S (S (S n)))) (BuildingConnection_deep x) (BuildingConnection_asdict x).
Proof. unfold BuildingConnection_deep, BuildingConnection_asdict. class new_item. fields new_item. Qed.
Lemma BuildingConnection_old n x : says true (S (S (S (S n)))) (BuildingConnection_deep x) (int_levels (BuildingConnection_asdict x)).
Proof.
  unfold BuildingConnection_deep, BuildingConnection_asdict. cbn [int_levels map fst snd String.eqb Ascii.eqb Bool.eqb].
  class old_item. fields old_item.
Qed.
#[local] Hint Resolve BuildingConnection_new BuildingConnection_old : says.

Lemma UnitConnection_new n x : says false (S (S (S (S n)))) (UnitConnection_deep x) (UnitConnection_asdict x).
Proof. unfold UnitConnection_deep, UnitConnection_asdict. class new_item. fields new_item. Qed.
Lemma UnitConnection_old n x : says true (S (S (S (S n)))) (UnitConnection_deep x) (int_levels (UnitConnection_asdict x)).
Proof.
  unfold UnitConnection_deep, UnitConnection_asdict. cbn [int_levels map fst snd String.eqb Ascii.eqb Bool.eqb].
  class old_item. fields old_item.
Qed.
#[local] Hint Resolve UnitConnection_new UnitConnection_old : says.

Lemma ResearchConnection_new n x : says false (S (S (S (S n)))) (ResearchConnection_deep x) (ResearchConnection_asdict x).
Proof. unfold ResearchConnection_deep, ResearchConnection_asdict. class new_item. fields new_item. Qed.
Lemma ResearchConnection_old n x : says true (S (S (S (S n)))) (ResearchConnection_deep x) (int_levels (ResearchConnection_asdict x)).
Proof.
  unfold ResearchConnection_deep, ResearchConnection_asdict. cbn [int_levels map fst snd String.eqb Ascii.eqb Bool.eqb].
  class old_item. fields old_item.
Qed.
#[local] Hint Resolve ResearchConnection_new ResearchConnection_old : says.

Lemma TechTree_new n x : says false (S (S (S (S (S (S n)))))) (TechTree_deep x) (TechTree_asdict x).
Proof. unfold TechTree_deep, TechTree_asdict. class new_item. fields new_item. Qed.
Lemma TechTree_old n x : says true (S (S (S (S (S (S n)))))) (TechTree_deep x) (int_levels (TechTree_asdict x)).
Proof.
  unfold TechTree_deep, TechTree_asdict. cbn [int_levels map fst snd String.eqb Ascii.eqb Bool.eqb].
  class old_item. fields old_item.
Qed.
#[local] Hint Resolve TechTree_new TechTree_old : says.

Lemma DatFile_new n x : says false (S (S (S (S (S (S (S (S (S n))))))))) (DatFile_deep x) (DatFile_asdict x).
Proof. unfold DatFile_deep, DatFile_asdict. class new_item. fields new_item. Qed.
Lemma DatFile_old n x : says true (S (S (S (S (S (S (S (S (S n))))))))) (DatFile_deep x) (int_levels (DatFile_asdict x)).
Proof.
  unfold DatFile_deep, DatFile_asdict. cbn [int_levels map fst snd String.eqb Ascii.eqb Bool.eqb].
  class old_item. fields old_item.
Qed.
#[local] Hint Resolve DatFile_new DatFile_old : says.

