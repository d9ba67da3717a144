(** * Each [to_bytes] method, run from its source text, is the function of the typed model *)
From Verif Require Import Base PyInt PyFloat PyStr PyStruct DataTypes Versions Common Py Source PyRep PyPure PyW PyWE Deep.
From Verif Require Import M_Sound M_PlayerColour M_Effect M_TerrainRestriction M_Graphic
  M_TerrainBlock M_RandomMaps M_Task M_UnitHeaders M_Unit M_Civ M_Tech M_TechTree M_DatFile.
From Coq Require Import String Ascii Lia.
Open Scope Z_scope.
Local Open Scope list_scope.

Create HintDb writes discriminated.
#[export] Hint Constants Opaque : writes.
Ltac look := vm_compute; reflexivity.
Ltac genie := split; [repeat constructor; look|repeat constructor].
(** the value of an expression *)
(** what a variable holds: by computation, or after conditional assignments by what is known about them *)
Ltac var :=
  first [reflexivity|eassumption
        |match goal with H : forall y, _ -> assoc y ?en = _ |- assoc _ ?en = _ => rewrite H by reflexivity; var end].
Ltac value :=
  match goal with
  | |- d_eval _ _ _ _ (EAttr (EName "self") _) = Ret _ => eapply x_field; [var|reflexivity]
  | |- d_eval _ _ _ _ (EConst _) = Ret _ => reflexivity
  | |- d_eval _ _ _ _ (EName _) = Ret _ => eapply x_name; var
  | |- d_eval _ _ _ _ (ECall (EName "len") [_]) = Ret _ =>
      eapply x_len; [lia|var|look|reflexivity|value|reflexivity]
  end.
Ltac seq := first [apply seq_l|apply seq_t].
Ltac self lem := eapply lem; [var|eassumption|..].
Ltac elem :=
  match goal with
  | |- d_eval _ _ _ _ (ECall (EAttr (EName "self") "write_int_16") [_]) = _ => self x_int_16; [lia|reflexivity|value|rewrite ?len_map; reflexivity]
  | |- d_eval _ _ _ _ (ECall (EAttr (EName "self") "write_int_8") [_]) = _ => self x_int_8; [lia|reflexivity|value|rewrite ?len_map; reflexivity]
  | |- d_eval _ _ _ _ (ECall (EAttr (EName "self") "write_int_32") [_]) = _ => self x_int_32; [lia|reflexivity|value|rewrite ?len_map; reflexivity]
  | |- d_eval _ _ _ _ (ECall (EAttr (EName "self") "write_int_32") [_; _]) = _ => self x_int_32_unsigned; [lia|reflexivity|value|rewrite ?len_map; reflexivity]
  | |- d_eval _ _ _ _ (ECall (EAttr (EName "self") "write_float") [_]) = _ => self x_float; [lia|reflexivity|value]
  | |- d_eval _ _ _ _ (ECall (EAttr (EName "self") "write_debug_string") [_]) = _ => self x_debug; [lia|reflexivity|value]
  | |- d_eval _ _ _ _ (ECall (EAttr (EName "self") "write_string") [EConst (KInt ?k); _]) = _ =>
      let k' := eval vm_compute in (Nat.pred (Z.to_nat k)) in change (EConst (KInt k)) with (EConst (KInt (Z.of_nat (S k')))); self x_string; [lia|reflexivity|value]
  | |- d_eval _ _ _ _ (ECall (EAttr (EName "self") "write_int_8_array") [_]) = _ => self x_int_8_array; [lia|reflexivity|value|seq]
  | |- d_eval _ _ _ _ (ECall (EAttr (EName "self") "write_int_16_array") [_]) = _ => self x_int_16_array; [lia|reflexivity|value|seq]
  | |- d_eval _ _ _ _ (ECall (EAttr (EName "self") "write_int_32_array") [_]) = _ => self x_int_32_array; [lia|reflexivity|value|seq]
  | |- d_eval _ _ _ _ (ECall (EAttr (EName "self") "write_float_array") [_]) = _ => self x_float_array; [lia|reflexivity|value|seq]
  | |- d_eval _ _ _ _ (ECall (EAttr (EName "self") "write_class") [_; _]) = _ => self x_class; [eauto with writes|lia|reflexivity|value|var]
  | |- d_eval _ _ _ _ (ECall (EAttr (EName "self") "write_class_array") [_; _]) = outb (write_class_array _ (map Some _) _) =>
      self x_class_array; [eauto with writes|lia|reflexivity|value|seq|var]
  | |- d_eval _ _ _ _ (ECall (EAttr (EName "self") "write_class_array") [_; _]) = _ =>
      self x_class_array_opt; [eauto with writes|lia|reflexivity|value|seq|var]
  end.
Definition fields (d : deep) : list (string * deep) := match d with DObj _ fs => fs | _ => [] end.
Ltac start c fn :=
  eapply (writes_intro _ _ _ c fn); [look|reflexivity|reflexivity|reflexivity|intros ?x; eexists; split; reflexivity|];
  intros m x v N;
  match goal with |- run _ _ _ [(_, ?d); _] = _ =>
    pose (fs := fields d); assert (G : genie c fs) by genie; change d with (DObj c fs) end;
  cbn [f_module f_body fn].
(** the arguments of [struct.pack] *)
Ltac packs :=
  match goal with
  | |- packs _ _ _ _ [] [] => apply packs_nil
  | |- packs _ _ _ _ [EStar _] (map _ _) => eapply packs_star_last; [value|seq|rewrite !map_map; apply map_ext; reflexivity|apply no_nums; reflexivity]
  | |- packs _ _ _ _ (EStar _ :: _) (map _ _ ++ _) => eapply packs_star; [value|seq|rewrite !map_map; apply map_ext; reflexivity|apply no_nums; reflexivity|packs]
  | |- packs _ _ _ None (_ :: _) (_ :: _) => eapply packs_cons_none; [reflexivity|value|reflexivity|reflexivity|packs]
  | |- packs _ _ _ (Some _) (_ :: _) (_ :: _) => eapply packs_cons; [reflexivity|value|reflexivity|reflexivity|packs]
  end.
(** an expression that gives bytes *)
Ltac bytes :=
  match goal with
  | |- d_eval _ _ _ _ (ECall (EAttr (EConst (KBytes [])) "join") _) = _ => apply x_join; [lia|]; bytes
  | |- Forall2 _ [] _ => apply Forall2_nil
  | |- Forall2 _ (_ :: _) _ => apply Forall2_cons; [bytes|bytes]
  | |- d_eval _ _ _ _ (EBin BAdd _ _) = _ => apply x_add; bytes
  | |- d_eval _ _ _ _ (ECall (EAttr (EName "struct") "pack") _) = _ =>
      eapply x_pack; [lia|var|look|var|look|reflexivity|vm_compute; reflexivity|cbn [app]; packs]
  | |- d_eval _ _ _ _ (EName _) = _ => apply x_name; var
  | |- d_eval _ _ _ _ (EConst (KBytes _)) = _ => reflexivity
  | |- _ => elem
  end.

Theorem SoundItem_w : writes 6 SoundItem_deep SoundItem_to_bytes.
Proof. start "SoundItem"%string src_SoundItem_to_bytes. rewrite run_return. unfold SoundItem_to_bytes. bytes. Qed.
#[export] Hint Resolve SoundItem_w : writes.
Theorem Sound_w : writes 9 Sound_deep Sound_to_bytes.
Proof. start "Sound"%string src_Sound_to_bytes. rewrite run_return. unfold Sound_to_bytes. bytes. Qed.
#[export] Hint Resolve Sound_w : writes.
Theorem PlayerColour_w : writes 6 PlayerColour_deep PlayerColour_to_bytes.
Proof. start "PlayerColour"%string src_PlayerColour_to_bytes. rewrite run_return. unfold PlayerColour_to_bytes. bytes. Qed.
#[export] Hint Resolve PlayerColour_w : writes.
Theorem EffectCommand_w : writes 6 EffectCommand_deep EffectCommand_to_bytes.
Proof. start "EffectCommand"%string src_EffectCommand_to_bytes. rewrite run_return. unfold EffectCommand_to_bytes. bytes. Qed.
#[export] Hint Resolve EffectCommand_w : writes.
Theorem Effect_w : writes 9 Effect_deep Effect_to_bytes.
Proof. start "Effect"%string src_Effect_to_bytes. rewrite run_return. unfold Effect_to_bytes. bytes. Qed.
#[export] Hint Resolve Effect_w : writes.
Theorem TerrainPassGraphic_w : writes 6 TerrainPassGraphic_deep TerrainPassGraphic_to_bytes.
Proof. start "TerrainPassGraphic"%string src_TerrainPassGraphic_to_bytes. rewrite run_return. unfold TerrainPassGraphic_to_bytes. bytes. Qed.
#[export] Hint Resolve TerrainPassGraphic_w : writes.
Theorem GraphicDelta_w : writes 6 GraphicDelta_deep GraphicDelta_to_bytes.
Proof. start "GraphicDelta"%string src_GraphicDelta_to_bytes. rewrite run_return. unfold GraphicDelta_to_bytes. bytes. Qed.
#[export] Hint Resolve GraphicDelta_w : writes.
Theorem GraphicAngleSound_w : writes 6 GraphicAngleSound_deep GraphicAngleSound_to_bytes.
Proof. start "GraphicAngleSound"%string src_GraphicAngleSound_to_bytes. rewrite run_return. unfold GraphicAngleSound_to_bytes. bytes. Qed.
#[export] Hint Resolve GraphicAngleSound_w : writes.
Theorem Graphic_w : writes 9 Graphic_deep Graphic_to_bytes.
Proof. start "Graphic"%string src_Graphic_to_bytes. rewrite run_return. unfold Graphic_to_bytes. bytes. Qed.
#[export] Hint Resolve Graphic_w : writes.
Theorem FrameData_w : writes 6 FrameData_deep FrameData_to_bytes.
Proof. start "FrameData"%string src_FrameData_to_bytes. rewrite run_return. unfold FrameData_to_bytes. bytes. Qed.
#[export] Hint Resolve FrameData_w : writes.
Theorem Terrain_w : writes 9 Terrain_deep Terrain_to_bytes.
Proof. start "Terrain"%string src_Terrain_to_bytes. rewrite run_return. unfold Terrain_to_bytes. bytes. Qed.
#[export] Hint Resolve Terrain_w : writes.
Theorem TileSize_w : writes 6 TileSize_deep TileSize_to_bytes.
Proof. start "TileSize"%string src_TileSize_to_bytes. rewrite run_return. unfold TileSize_to_bytes. bytes. Qed.
#[export] Hint Resolve TileSize_w : writes.
Theorem TerrainBlock_w : writes 12 TerrainBlock_deep TerrainBlock_to_bytes.
Proof. start "TerrainBlock"%string src_TerrainBlock_to_bytes. rewrite run_return. unfold TerrainBlock_to_bytes. bytes. Qed.
#[export] Hint Resolve TerrainBlock_w : writes.
Theorem MapUnit_w : writes 6 MapUnit_deep MapUnit_to_bytes.
Proof. start "MapUnit"%string src_MapUnit_to_bytes. rewrite run_return. unfold MapUnit_to_bytes. bytes. Qed.
#[export] Hint Resolve MapUnit_w : writes.
Theorem MapTerrain_w : writes 6 MapTerrain_deep MapTerrain_to_bytes.
Proof. start "MapTerrain"%string src_MapTerrain_to_bytes. rewrite run_return. unfold MapTerrain_to_bytes. bytes. Qed.
#[export] Hint Resolve MapTerrain_w : writes.
Theorem MapLand_w : writes 6 MapLand_deep MapLand_to_bytes.
Proof. start "MapLand"%string src_MapLand_to_bytes. rewrite run_return. unfold MapLand_to_bytes. bytes. Qed.
#[export] Hint Resolve MapLand_w : writes.
Theorem MapElevation_w : writes 6 MapElevation_deep MapElevation_to_bytes.
Proof. start "MapElevation"%string src_MapElevation_to_bytes. rewrite run_return. unfold MapElevation_to_bytes. bytes. Qed.
#[export] Hint Resolve MapElevation_w : writes.
Theorem MapInfo_w : writes 9 MapInfo_deep MapInfo_to_bytes.
Proof. start "MapInfo"%string src_MapInfo_to_bytes. rewrite run_return. unfold MapInfo_to_bytes. bytes. Qed.
#[export] Hint Resolve MapInfo_w : writes.
Theorem ResourceStorage_w : writes 6 ResourceStorage_deep ResourceStorage_to_bytes.
Proof. start "ResourceStorage"%string src_ResourceStorage_to_bytes. rewrite run_return. unfold ResourceStorage_to_bytes. bytes. Qed.
#[export] Hint Resolve ResourceStorage_w : writes.
Theorem DamageGraphic_w : writes 6 DamageGraphic_deep DamageGraphic_to_bytes.
Proof. start "DamageGraphic"%string src_DamageGraphic_to_bytes. rewrite run_return. unfold DamageGraphic_to_bytes. bytes. Qed.
#[export] Hint Resolve DamageGraphic_w : writes.
Theorem DeadFish_w : writes 6 DeadFish_deep DeadFish_to_bytes.
Proof. start "DeadFish"%string src_DeadFish_to_bytes. rewrite run_return. unfold DeadFish_to_bytes. bytes. Qed.
#[export] Hint Resolve DeadFish_w : writes.
Theorem AttackOrArmor_w : writes 6 AttackOrArmor_deep AttackOrArmor_to_bytes.
Proof. start "AttackOrArmor"%string src_AttackOrArmor_to_bytes. rewrite run_return. unfold AttackOrArmor_to_bytes. bytes. Qed.
#[export] Hint Resolve AttackOrArmor_w : writes.
Theorem Projectile_w : writes 6 Projectile_deep Projectile_to_bytes.
Proof. start "Projectile"%string src_Projectile_to_bytes. rewrite run_return. unfold Projectile_to_bytes. bytes. Qed.
#[export] Hint Resolve Projectile_w : writes.
Theorem ResourceCost_w : writes 6 ResourceCost_deep ResourceCost_to_bytes.
Proof. start "ResourceCost"%string src_ResourceCost_to_bytes. rewrite run_return. unfold ResourceCost_to_bytes. bytes. Qed.
#[export] Hint Resolve ResourceCost_w : writes.
Theorem BuildingAnnex_w : writes 6 BuildingAnnex_deep BuildingAnnex_to_bytes.
Proof. start "BuildingAnnex"%string src_BuildingAnnex_to_bytes. rewrite run_return. unfold BuildingAnnex_to_bytes. bytes. Qed.
#[export] Hint Resolve BuildingAnnex_w : writes.
Theorem Building_w : writes 9 Building_deep Building_to_bytes.
Proof. start "Building"%string src_Building_to_bytes. rewrite run_return. unfold Building_to_bytes. bytes. Qed.
#[export] Hint Resolve Building_w : writes.
Theorem ResearchResourceCost_w : writes 6 ResearchResourceCost_deep ResearchResourceCost_to_bytes.
Proof. start "ResearchResourceCost"%string src_ResearchResourceCost_to_bytes. rewrite run_return. unfold ResearchResourceCost_to_bytes. bytes. Qed.
#[export] Hint Resolve ResearchResourceCost_w : writes.
Theorem ResearchLocation_w : writes 6 ResearchLocation_deep ResearchLocation_to_bytes.
Proof. start "ResearchLocation"%string src_ResearchLocation_to_bytes. rewrite run_return. unfold ResearchLocation_to_bytes. bytes. Qed.
#[export] Hint Resolve ResearchLocation_w : writes.
Theorem Common_w : writes 6 Common_deep Common_to_bytes.
Proof. start "Common"%string src_Common_to_bytes. rewrite run_return. unfold Common_to_bytes. bytes. Qed.
#[export] Hint Resolve Common_w : writes.
Theorem TechTreeAge_w : writes 9 TechTreeAge_deep TechTreeAge_to_bytes.
Proof. start "TechTreeAge"%string src_TechTreeAge_to_bytes. rewrite run_return. unfold TechTreeAge_to_bytes. bytes. Qed.
#[export] Hint Resolve TechTreeAge_w : writes.
Theorem BuildingConnection_w : writes 9 BuildingConnection_deep BuildingConnection_to_bytes.
Proof. start "BuildingConnection"%string src_BuildingConnection_to_bytes. rewrite run_return. unfold BuildingConnection_to_bytes. bytes. Qed.
#[export] Hint Resolve BuildingConnection_w : writes.
Theorem UnitConnection_w : writes 9 UnitConnection_deep UnitConnection_to_bytes.
Proof. start "UnitConnection"%string src_UnitConnection_to_bytes. rewrite run_return. unfold UnitConnection_to_bytes. bytes. Qed.
#[export] Hint Resolve UnitConnection_w : writes.
Theorem ResearchConnection_w : writes 9 ResearchConnection_deep ResearchConnection_to_bytes.
Proof. start "ResearchConnection"%string src_ResearchConnection_to_bytes. rewrite run_return. unfold ResearchConnection_to_bytes. bytes. Qed.
#[export] Hint Resolve ResearchConnection_w : writes.
Theorem TechTree_w : writes 12 TechTree_deep TechTree_to_bytes.
Proof. start "TechTree"%string src_TechTree_to_bytes. rewrite run_return. unfold TechTree_to_bytes. bytes. Qed.
#[export] Hint Resolve TechTree_w : writes.
