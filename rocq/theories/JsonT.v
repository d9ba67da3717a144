(** * The JSON text: the trees of well-formed files, exact literals, ASCII.  Proofs for Props_Json. *)
From Verif Require Import Base PyInt PyFloat PyStr Versions Wire Layout Shape Spec FS Dump.
From Verif Require Import M_Sound M_PlayerColour M_Effect M_TerrainRestriction M_Graphic
  M_TerrainBlock M_RandomMaps M_Task M_UnitHeaders M_Unit M_Civ M_Tech M_TechTree M_DatFile.
From Verif Require Import FloatSpec Common Theory Json JsonP.
From Coq Require Import String.
Open Scope Z_scope.
Local Open Scope list_scope.

(** ** The texts of a well-formed file are strings of scalar values *)
Lemma no_ints l : flat_map texts_in (map TInt l) = []. Proof. induction l; [reflexivity|exact IHl]. Qed.
Lemma no_floats l : flat_map texts_in (map TFloat l) = []. Proof. induction l; [reflexivity|exact IHl]. Qed.
Definition textless {A} (f : A -> tree) : Prop := forall a, texts_in (f a) = [].
Lemma textless_map {A} {f : A -> tree} : textless f -> forall l, flat_map texts_in (map f l) = [].
Proof. intros H l. induction l as [|a l IH]; [reflexivity|]. cbn [map flat_map]. rewrite H, IH. reflexivity. Qed.
Lemma textless_option {A} {f : A -> tree} : textless f -> textless (of_option f).
Proof. intros H [a|]; [apply H|reflexivity]. Qed.
Lemma textless_int : textless TInt. Proof. intros z. reflexivity. Qed.
Lemma textless_float : textless TFloat. Proof. intros z. reflexivity. Qed.
Lemma textless_list {A} {f : A -> tree} : textless f -> textless (fun l => TList (map f l)).
Proof. intros H l. apply (textless_map H). Qed.
Create HintDb textless.
#[local] Hint Resolve textless_int textless_float textless_option textless_list : textless.
Ltac no_text := let x := fresh "x" in intros x; cbn [texts_in flat_map snd app];
  repeat match goal with
    | |- context [flat_map texts_in (map ?f ?l)] => rewrite (textless_map (f := f) ltac:(auto with textless) l)
    | |- context [texts_in (?f ?a)] => rewrite ((ltac:(auto with textless) : textless f) a)
    end; reflexivity.
Lemma texts_PlayerColour : textless PlayerColour_asdict.
Proof. unfold textless, PlayerColour_asdict. no_text. Qed.
#[local] Hint Resolve texts_PlayerColour : textless.
Lemma texts_EffectCommand : textless EffectCommand_asdict.
Proof. unfold textless, EffectCommand_asdict. no_text. Qed.
#[local] Hint Resolve texts_EffectCommand : textless.
Lemma texts_TerrainPassGraphic : textless TerrainPassGraphic_asdict.
Proof. unfold textless, TerrainPassGraphic_asdict. no_text. Qed.
#[local] Hint Resolve texts_TerrainPassGraphic : textless.
Lemma texts_TerrainRestriction : textless TerrainRestriction_asdict.
Proof. unfold textless, TerrainRestriction_asdict. no_text. Qed.
#[local] Hint Resolve texts_TerrainRestriction : textless.
Lemma texts_GraphicDelta : textless GraphicDelta_asdict.
Proof. unfold textless, GraphicDelta_asdict. no_text. Qed.
#[local] Hint Resolve texts_GraphicDelta : textless.
Lemma texts_GraphicAngleSound : textless GraphicAngleSound_asdict.
Proof. unfold textless, GraphicAngleSound_asdict. no_text. Qed.
#[local] Hint Resolve texts_GraphicAngleSound : textless.
Lemma texts_FrameData : textless FrameData_asdict.
Proof. unfold textless, FrameData_asdict. no_text. Qed.
#[local] Hint Resolve texts_FrameData : textless.
Lemma texts_TileSize : textless TileSize_asdict.
Proof. unfold textless, TileSize_asdict. no_text. Qed.
#[local] Hint Resolve texts_TileSize : textless.
Lemma texts_MapUnit : textless MapUnit_asdict.
Proof. unfold textless, MapUnit_asdict. no_text. Qed.
#[local] Hint Resolve texts_MapUnit : textless.
Lemma texts_MapTerrain : textless MapTerrain_asdict.
Proof. unfold textless, MapTerrain_asdict. no_text. Qed.
#[local] Hint Resolve texts_MapTerrain : textless.
Lemma texts_MapLand : textless MapLand_asdict.
Proof. unfold textless, MapLand_asdict. no_text. Qed.
#[local] Hint Resolve texts_MapLand : textless.
Lemma texts_MapElevation : textless MapElevation_asdict.
Proof. unfold textless, MapElevation_asdict. no_text. Qed.
#[local] Hint Resolve texts_MapElevation : textless.
Lemma texts_MapInfo : textless MapInfo_asdict.
Proof. unfold textless, MapInfo_asdict. no_text. Qed.
#[local] Hint Resolve texts_MapInfo : textless.
Lemma texts_RandomMaps : textless RandomMaps_asdict.
Proof. unfold textless, RandomMaps_asdict. no_text. Qed.
#[local] Hint Resolve texts_RandomMaps : textless.
Lemma texts_Task : textless Task_asdict.
Proof. unfold textless, Task_asdict. no_text. Qed.
#[local] Hint Resolve texts_Task : textless.
Lemma texts_UnitHeaders : textless UnitHeaders_asdict.
Proof. unfold textless, UnitHeaders_asdict. no_text. Qed.
#[local] Hint Resolve texts_UnitHeaders : textless.
Lemma texts_ResourceStorage : textless ResourceStorage_asdict.
Proof. unfold textless, ResourceStorage_asdict. no_text. Qed.
#[local] Hint Resolve texts_ResourceStorage : textless.
Lemma texts_DamageGraphic : textless DamageGraphic_asdict.
Proof. unfold textless, DamageGraphic_asdict. no_text. Qed.
#[local] Hint Resolve texts_DamageGraphic : textless.
Lemma texts_DeadFish : textless DeadFish_asdict.
Proof. unfold textless, DeadFish_asdict. no_text. Qed.
#[local] Hint Resolve texts_DeadFish : textless.
Lemma texts_Bird : textless Bird_asdict.
Proof. unfold textless, Bird_asdict. no_text. Qed.
#[local] Hint Resolve texts_Bird : textless.
Lemma texts_AttackOrArmor : textless AttackOrArmor_asdict.
Proof. unfold textless, AttackOrArmor_asdict. no_text. Qed.
#[local] Hint Resolve texts_AttackOrArmor : textless.
Lemma texts_Type50 : textless Type50_asdict.
Proof. unfold textless, Type50_asdict. no_text. Qed.
#[local] Hint Resolve texts_Type50 : textless.
Lemma texts_Projectile : textless Projectile_asdict.
Proof. unfold textless, Projectile_asdict. no_text. Qed.
#[local] Hint Resolve texts_Projectile : textless.
Lemma texts_ResourceCost : textless ResourceCost_asdict.
Proof. unfold textless, ResourceCost_asdict. no_text. Qed.
#[local] Hint Resolve texts_ResourceCost : textless.
Lemma texts_TrainLocation : textless TrainLocation_asdict.
Proof. unfold textless, TrainLocation_asdict. no_text. Qed.
#[local] Hint Resolve texts_TrainLocation : textless.
Lemma texts_Creatable : textless Creatable_asdict.
Proof. unfold textless, Creatable_asdict. no_text. Qed.
#[local] Hint Resolve texts_Creatable : textless.
Lemma texts_BuildingAnnex : textless BuildingAnnex_asdict.
Proof. unfold textless, BuildingAnnex_asdict. no_text. Qed.
#[local] Hint Resolve texts_BuildingAnnex : textless.
Lemma texts_Building : textless Building_asdict.
Proof. unfold textless, Building_asdict. no_text. Qed.
#[local] Hint Resolve texts_Building : textless.
Lemma texts_ResearchResourceCost : textless ResearchResourceCost_asdict.
Proof. unfold textless, ResearchResourceCost_asdict. no_text. Qed.
#[local] Hint Resolve texts_ResearchResourceCost : textless.
Lemma texts_ResearchLocation : textless ResearchLocation_asdict.
Proof. unfold textless, ResearchLocation_asdict. no_text. Qed.
#[local] Hint Resolve texts_ResearchLocation : textless.
Lemma texts_Common : textless Common_asdict.
Proof. unfold textless, Common_asdict. no_text. Qed.
#[local] Hint Resolve texts_Common : textless.
Lemma texts_TechTreeAge : textless TechTreeAge_asdict.
Proof. unfold textless, TechTreeAge_asdict. no_text. Qed.
#[local] Hint Resolve texts_TechTreeAge : textless.
Lemma texts_BuildingConnection : textless BuildingConnection_asdict.
Proof. unfold textless, BuildingConnection_asdict. no_text. Qed.
#[local] Hint Resolve texts_BuildingConnection : textless.
Lemma texts_UnitConnection : textless UnitConnection_asdict.
Proof. unfold textless, UnitConnection_asdict. no_text. Qed.
#[local] Hint Resolve texts_UnitConnection : textless.
Lemma texts_ResearchConnection : textless ResearchConnection_asdict.
Proof. unfold textless, ResearchConnection_asdict. no_text. Qed.
#[local] Hint Resolve texts_ResearchConnection : textless.
Lemma texts_TechTree : textless TechTree_asdict.
Proof. unfold textless, TechTree_asdict. no_text. Qed.
#[local] Hint Resolve texts_TechTree : textless.
Definition texty {A} (layout : A -> list cell) (f : A -> tree) : Prop := forall a, cells_ok (layout a) -> Forall text_ok (texts_in (f a)).
Lemma cells_text l s : cells_ok l -> In (Text s) l -> text_ok s.
Proof.
  unfold cells_ok. intros H I. rewrite forallb_forall in H. specialize (H _ I). cbn [cell_ok] in H.
  apply andb_true_iff in H as [H _]. apply andb_true_iff in H as [H _]. exact H.
Qed.
Lemma cells_part l m : cells_ok l -> incl m l -> cells_ok m.
Proof. unfold cells_ok. rewrite !forallb_forall. intros H I c Hc. apply H, I, Hc. Qed.
Lemma cells_app_l l m : cells_ok (l ++ m) -> cells_ok l. Proof. unfold cells_ok. rewrite forallb_app. intros H. apply andb_true_iff in H. apply H. Qed.
Lemma cells_app_r l m : cells_ok (l ++ m) -> cells_ok m. Proof. unfold cells_ok. rewrite forallb_app. intros H. apply andb_true_iff in H. apply H. Qed.
Lemma texty_list {A} (g : A -> list cell) (f : A -> tree) l : texty g f -> cells_ok (flat_map g l) -> Forall text_ok (flat_map texts_in (map f l)).
Proof.
  intros H. induction l as [|a l IH]; intros C; [constructor|]. cbn [map flat_map] in *. apply Forall_app. split.
  - apply H. apply cells_app_l in C. exact C.
  - apply IH. apply cells_app_r in C. exact C.
Qed.
Lemma texty_slots {A} (g : A -> list cell) (f : A -> tree) l : texty g f -> cells_ok (slots g l) -> Forall text_ok (flat_map texts_in (map (of_option f) l)).
Proof.
  intros H. unfold slots. induction l as [|[a|] l IH]; intros C; [constructor| |].
  - cbn [map flat_map of_option] in *. apply Forall_app. split; [apply H; apply cells_app_l in C; exact C|apply IH; apply cells_app_r in C; exact C].
  - cbn [map flat_map of_option texts_in app] in *. apply IH. exact C.
Qed.
Ltac find_in := repeat (first [exact (incl_refl _) | apply incl_appl; exact (incl_refl _) | apply incl_appr]).
Ltac in_cells := first [ solve [cbn [In]; tauto] | apply in_or_app; first [ left; solve [cbn [In]; tauto] | right; in_cells ] ].
Ltac some_text C := intros x C; cbn [texts_in flat_map snd app];
  repeat match goal with
    | |- context [flat_map texts_in (map ?f ?l)] => rewrite (textless_map (f := f) ltac:(auto with textless) l)
    | |- context [texts_in (?f ?a)] => rewrite ((ltac:(auto with textless) : textless f) a)
    end; cbn [app];
  repeat match goal with
    | |- Forall _ [] => constructor
    | |- Forall _ (_ :: _) => constructor
    | |- Forall _ (_ ++ _) => apply Forall_app; split
    | |- text_ok _ => refine (cells_text _ _ C _); in_cells
    | |- Forall _ (flat_map texts_in (map (of_option ?f) _)) => eapply texty_slots; [solve [eauto with textless]|refine (cells_part _ _ C _); find_in]
    | |- Forall _ (flat_map texts_in (map ?f _)) => eapply texty_list; [solve [eauto with textless]|refine (cells_part _ _ C _); find_in]
    end.
Lemma texts_SoundItem v : texty (SoundItem_layout v) SoundItem_asdict.
Proof. unfold texty, SoundItem_asdict, SoundItem_layout. some_text C. Qed.
#[local] Hint Resolve texts_SoundItem : textless.
Lemma texts_Sound v : texty (Sound_layout v) Sound_asdict.
Proof. unfold texty, Sound_asdict, Sound_layout. some_text C. Qed.
#[local] Hint Resolve texts_Sound : textless.
Lemma texts_Effect v : texty (Effect_layout v) Effect_asdict.
Proof. unfold texty, Effect_asdict, Effect_layout. some_text C. Qed.
#[local] Hint Resolve texts_Effect : textless.
Lemma texts_Graphic v : texty (Graphic_layout v) Graphic_asdict.
Proof. unfold texty, Graphic_asdict, Graphic_layout. some_text C. Qed.
#[local] Hint Resolve texts_Graphic : textless.
Lemma texts_Terrain v : texty (Terrain_layout v) Terrain_asdict.
Proof. unfold texty, Terrain_asdict, Terrain_layout. some_text C. Qed.
#[local] Hint Resolve texts_Terrain : textless.
Lemma texts_TerrainBlock v : texty (TerrainBlock_layout v) TerrainBlock_asdict.
Proof. unfold texty, TerrainBlock_asdict, TerrainBlock_layout. some_text C. Qed.
#[local] Hint Resolve texts_TerrainBlock : textless.
Lemma texts_Unit v : texty (Unit_layout v) Unit_asdict.
Proof. unfold texty, Unit_asdict, Unit_layout. some_text C. Qed.
#[local] Hint Resolve texts_Unit : textless.
Lemma texts_Civ v : texty (Civ_layout v) Civ_asdict.
Proof. unfold texty, Civ_asdict, Civ_layout. some_text C. Qed.
#[local] Hint Resolve texts_Civ : textless.
Lemma texts_Tech v : texty (Tech_layout v) Tech_asdict.
Proof. unfold texty, Tech_asdict, Tech_layout. destruct (since 88 v); cbv zeta; some_text C. Qed.
#[local] Hint Resolve texts_Tech : textless.
Theorem texts_DatFile x : DatFile_wf x -> Forall text_ok (texts_in (DatFile_asdict x)).
Proof.
  intros [C _]. unfold DatFile_layout in C. destruct (file_version (DatFile_version x)) as [v|]; [|discriminate C].
  unfold guard in C. destruct (_ && _) in C; [|discriminate C].
  pose proof (cells_app_r _ _ C) as B. unfold cells_ok in C. cbn [app forallb] in C.
  apply andb_true_iff in C as [C _]. cbn [cell_ok] in C. apply andb_true_iff in C as [C _]. apply andb_true_iff in C as [C _].
  unfold DatFile_asdict. cbn [texts_in flat_map snd app]. constructor; [exact C|]. clear C. revert B. unfold DatFile_body. generalize x. clear x. some_text D; eapply texts_TerrainBlock; refine (cells_part _ _ D _); find_in.
Qed.

(** ** No object has two members of the same name *)
Definition keyed {A} (f : A -> tree) : Prop := forall a, distinct (json_of (f a)) = true.
Lemma keyed_int : keyed TInt. Proof. intros z. reflexivity. Qed.
Lemma keyed_float : keyed TFloat. Proof. intros z. reflexivity. Qed.
Lemma keyed_text : keyed TText. Proof. intros z. reflexivity. Qed.
Lemma keyed_option {A} {f : A -> tree} : keyed f -> keyed (of_option f). Proof. intros H [a|]; [apply H|reflexivity]. Qed.
Lemma keyed_list {A} {f : A -> tree} : keyed f -> keyed (fun l => TList (map f l)).
Proof. intros H l. cbn [json_of distinct]. induction l as [|a l IH]; [reflexivity|]. cbn [map forallb]. rewrite H, IH. reflexivity. Qed.
Create HintDb keyed.
#[local] Hint Resolve keyed_int keyed_float keyed_text keyed_option keyed_list : keyed.
Lemma keyed_dict l : no_repeats (map (fun kt => text (fst kt)) l) = true -> Forall (fun kt => distinct (json_of (snd kt)) = true) l -> distinct (json_of (TDict l)) = true.
Proof.
  intros N F. cbn [json_of distinct]. rewrite map_map. cbn [fst]. rewrite N. cbn [andb]. clear N.
  induction F as [|[k t] l H F IH]; [reflexivity|]. cbn [map forallb snd] in *. rewrite H, IH. reflexivity.
Qed.
Ltac keys_differ := let x := fresh "x" in intros x; apply keyed_dict; [vm_compute; reflexivity|];
  repeat match goal with
    | |- Forall _ [] => constructor
    | |- Forall _ (_ :: _) => constructor; cbn [snd]
    | |- distinct (json_of (TList (map ?f ?l))) = true => exact (keyed_list (f := f) ltac:(auto with keyed) l)
    | |- distinct (json_of (?f ?a)) = true => exact ((ltac:(auto with keyed) : keyed f) a)
    end.
Lemma keys_SoundItem : keyed SoundItem_asdict.
Proof. unfold keyed, SoundItem_asdict. keys_differ. Qed.
#[local] Hint Resolve keys_SoundItem : keyed.
Lemma keys_Sound : keyed Sound_asdict.
Proof. unfold keyed, Sound_asdict. keys_differ. Qed.
#[local] Hint Resolve keys_Sound : keyed.
Lemma keys_PlayerColour : keyed PlayerColour_asdict.
Proof. unfold keyed, PlayerColour_asdict. keys_differ. Qed.
#[local] Hint Resolve keys_PlayerColour : keyed.
Lemma keys_EffectCommand : keyed EffectCommand_asdict.
Proof. unfold keyed, EffectCommand_asdict. keys_differ. Qed.
#[local] Hint Resolve keys_EffectCommand : keyed.
Lemma keys_Effect : keyed Effect_asdict.
Proof. unfold keyed, Effect_asdict. keys_differ. Qed.
#[local] Hint Resolve keys_Effect : keyed.
Lemma keys_TerrainPassGraphic : keyed TerrainPassGraphic_asdict.
Proof. unfold keyed, TerrainPassGraphic_asdict. keys_differ. Qed.
#[local] Hint Resolve keys_TerrainPassGraphic : keyed.
Lemma keys_TerrainRestriction : keyed TerrainRestriction_asdict.
Proof. unfold keyed, TerrainRestriction_asdict. keys_differ. Qed.
#[local] Hint Resolve keys_TerrainRestriction : keyed.
Lemma keys_GraphicDelta : keyed GraphicDelta_asdict.
Proof. unfold keyed, GraphicDelta_asdict. keys_differ. Qed.
#[local] Hint Resolve keys_GraphicDelta : keyed.
Lemma keys_GraphicAngleSound : keyed GraphicAngleSound_asdict.
Proof. unfold keyed, GraphicAngleSound_asdict. keys_differ. Qed.
#[local] Hint Resolve keys_GraphicAngleSound : keyed.
Lemma keys_Graphic : keyed Graphic_asdict.
Proof. unfold keyed, Graphic_asdict. keys_differ. Qed.
#[local] Hint Resolve keys_Graphic : keyed.
Lemma keys_FrameData : keyed FrameData_asdict.
Proof. unfold keyed, FrameData_asdict. keys_differ. Qed.
#[local] Hint Resolve keys_FrameData : keyed.
Lemma keys_Terrain : keyed Terrain_asdict.
Proof. unfold keyed, Terrain_asdict. keys_differ. Qed.
#[local] Hint Resolve keys_Terrain : keyed.
Lemma keys_TileSize : keyed TileSize_asdict.
Proof. unfold keyed, TileSize_asdict. keys_differ. Qed.
#[local] Hint Resolve keys_TileSize : keyed.
Lemma keys_TerrainBlock : keyed TerrainBlock_asdict.
Proof. unfold keyed, TerrainBlock_asdict. keys_differ. Qed.
#[local] Hint Resolve keys_TerrainBlock : keyed.
Lemma keys_MapUnit : keyed MapUnit_asdict.
Proof. unfold keyed, MapUnit_asdict. keys_differ. Qed.
#[local] Hint Resolve keys_MapUnit : keyed.
Lemma keys_MapTerrain : keyed MapTerrain_asdict.
Proof. unfold keyed, MapTerrain_asdict. keys_differ. Qed.
#[local] Hint Resolve keys_MapTerrain : keyed.
Lemma keys_MapLand : keyed MapLand_asdict.
Proof. unfold keyed, MapLand_asdict. keys_differ. Qed.
#[local] Hint Resolve keys_MapLand : keyed.
Lemma keys_MapElevation : keyed MapElevation_asdict.
Proof. unfold keyed, MapElevation_asdict. keys_differ. Qed.
#[local] Hint Resolve keys_MapElevation : keyed.
Lemma keys_MapInfo : keyed MapInfo_asdict.
Proof. unfold keyed, MapInfo_asdict. keys_differ. Qed.
#[local] Hint Resolve keys_MapInfo : keyed.
Lemma keys_RandomMaps : keyed RandomMaps_asdict.
Proof. unfold keyed, RandomMaps_asdict. keys_differ. Qed.
#[local] Hint Resolve keys_RandomMaps : keyed.
Lemma keys_Task : keyed Task_asdict.
Proof. unfold keyed, Task_asdict. keys_differ. Qed.
#[local] Hint Resolve keys_Task : keyed.
Lemma keys_UnitHeaders : keyed UnitHeaders_asdict.
Proof. unfold keyed, UnitHeaders_asdict. keys_differ. Qed.
#[local] Hint Resolve keys_UnitHeaders : keyed.
Lemma keys_ResourceStorage : keyed ResourceStorage_asdict.
Proof. unfold keyed, ResourceStorage_asdict. keys_differ. Qed.
#[local] Hint Resolve keys_ResourceStorage : keyed.
Lemma keys_DamageGraphic : keyed DamageGraphic_asdict.
Proof. unfold keyed, DamageGraphic_asdict. keys_differ. Qed.
#[local] Hint Resolve keys_DamageGraphic : keyed.
Lemma keys_DeadFish : keyed DeadFish_asdict.
Proof. unfold keyed, DeadFish_asdict. keys_differ. Qed.
#[local] Hint Resolve keys_DeadFish : keyed.
Lemma keys_Bird : keyed Bird_asdict.
Proof. unfold keyed, Bird_asdict. keys_differ. Qed.
#[local] Hint Resolve keys_Bird : keyed.
Lemma keys_AttackOrArmor : keyed AttackOrArmor_asdict.
Proof. unfold keyed, AttackOrArmor_asdict. keys_differ. Qed.
#[local] Hint Resolve keys_AttackOrArmor : keyed.
Lemma keys_Type50 : keyed Type50_asdict.
Proof. unfold keyed, Type50_asdict. keys_differ. Qed.
#[local] Hint Resolve keys_Type50 : keyed.
Lemma keys_Projectile : keyed Projectile_asdict.
Proof. unfold keyed, Projectile_asdict. keys_differ. Qed.
#[local] Hint Resolve keys_Projectile : keyed.
Lemma keys_ResourceCost : keyed ResourceCost_asdict.
Proof. unfold keyed, ResourceCost_asdict. keys_differ. Qed.
#[local] Hint Resolve keys_ResourceCost : keyed.
Lemma keys_TrainLocation : keyed TrainLocation_asdict.
Proof. unfold keyed, TrainLocation_asdict. keys_differ. Qed.
#[local] Hint Resolve keys_TrainLocation : keyed.
Lemma keys_Creatable : keyed Creatable_asdict.
Proof. unfold keyed, Creatable_asdict. keys_differ. Qed.
#[local] Hint Resolve keys_Creatable : keyed.
Lemma keys_BuildingAnnex : keyed BuildingAnnex_asdict.
Proof. unfold keyed, BuildingAnnex_asdict. keys_differ. Qed.
#[local] Hint Resolve keys_BuildingAnnex : keyed.
Lemma keys_Building : keyed Building_asdict.
Proof. unfold keyed, Building_asdict. keys_differ. Qed.
#[local] Hint Resolve keys_Building : keyed.
Lemma keys_Unit : keyed Unit_asdict.
Proof. unfold keyed, Unit_asdict. keys_differ. Qed.
#[local] Hint Resolve keys_Unit : keyed.
Lemma keys_Civ : keyed Civ_asdict.
Proof. unfold keyed, Civ_asdict. keys_differ. Qed.
#[local] Hint Resolve keys_Civ : keyed.
Lemma keys_ResearchResourceCost : keyed ResearchResourceCost_asdict.
Proof. unfold keyed, ResearchResourceCost_asdict. keys_differ. Qed.
#[local] Hint Resolve keys_ResearchResourceCost : keyed.
Lemma keys_ResearchLocation : keyed ResearchLocation_asdict.
Proof. unfold keyed, ResearchLocation_asdict. keys_differ. Qed.
#[local] Hint Resolve keys_ResearchLocation : keyed.
Lemma keys_Tech : keyed Tech_asdict.
Proof. unfold keyed, Tech_asdict. keys_differ. Qed.
#[local] Hint Resolve keys_Tech : keyed.
Lemma keys_Common : keyed Common_asdict.
Proof. unfold keyed, Common_asdict. keys_differ. Qed.
#[local] Hint Resolve keys_Common : keyed.
Lemma keys_TechTreeAge : keyed TechTreeAge_asdict.
Proof. unfold keyed, TechTreeAge_asdict. keys_differ. Qed.
#[local] Hint Resolve keys_TechTreeAge : keyed.
Lemma keys_BuildingConnection : keyed BuildingConnection_asdict.
Proof. unfold keyed, BuildingConnection_asdict. keys_differ. Qed.
#[local] Hint Resolve keys_BuildingConnection : keyed.
Lemma keys_UnitConnection : keyed UnitConnection_asdict.
Proof. unfold keyed, UnitConnection_asdict. keys_differ. Qed.
#[local] Hint Resolve keys_UnitConnection : keyed.
Lemma keys_ResearchConnection : keyed ResearchConnection_asdict.
Proof. unfold keyed, ResearchConnection_asdict. keys_differ. Qed.
#[local] Hint Resolve keys_ResearchConnection : keyed.
Lemma keys_TechTree : keyed TechTree_asdict.
Proof. unfold keyed, TechTree_asdict. keys_differ. Qed.
#[local] Hint Resolve keys_TechTree : keyed.
Lemma keys_DatFile : keyed DatFile_asdict.
Proof. unfold keyed, DatFile_asdict. keys_differ. Qed.
#[local] Hint Resolve keys_DatFile : keyed.

(** ** The dump of a loaded file ([shown]) *)
Lemma texts_int_levels t : incl (texts_in (int_levels t)) (texts_in t).
Proof.
  induction t as [| | | |l IH|l IH] using tree_rec'; cbn [int_levels texts_in]; try apply incl_refl.
  - induction IH as [|t l Ht Hl IHl]; [apply incl_refl|]. cbn [map flat_map]. apply incl_app; [apply incl_appl, Ht|apply incl_appr, IHl].
  - induction IH as [|[k t] l Ht Hl IHl]; [apply incl_refl|]. cbn [map flat_map fst snd] in *. apply incl_app; [|apply incl_appr, IHl]. apply incl_appl.
    destruct (String.eqb k "invulnerability_level"); [intros z []|exact Ht].
Qed.
Lemma keys_int_levels t : distinct (json_of t) = true -> distinct (json_of (int_levels t)) = true.
Proof.
  induction t as [| | | |l IH|l IH] using tree_rec'; cbn [int_levels json_of distinct]; try (intros H; exact H).
  - intros H. rewrite forallb_forall in *. intros j I. rewrite map_map in I. apply in_map_iff in I as (t & <- & I). rewrite Forall_forall in IH. apply (IH t I). apply H, in_map, I.
  - rewrite !andb_true_iff. intros [N H]. split.
    + rewrite !map_map in *. etransitivity; [|exact N]. f_equal. apply map_ext. intros [k t]. cbn [fst snd]. destruct (String.eqb k "invulnerability_level"); reflexivity.
    + rewrite forallb_forall in *. intros j I. rewrite map_map in I. apply in_map_iff in I as ([k t] & <- & I). rewrite Forall_forall in IH. cbn [fst snd].
      destruct (String.eqb k "invulnerability_level"); [reflexivity|]. cbn [snd]. apply (IH (k, t) I). apply (H (text k, json_of t)). apply (in_map (fun kt => (text (fst kt), json_of (snd kt))) _ _ I).
Qed.
Lemma texts_shown x : DatFile_wf x -> Forall text_ok (texts_in (shown x)).
Proof.
  intros W. pose proof (texts_DatFile x W) as H. assert (I : incl (texts_in (shown x)) (texts_in (DatFile_asdict x))).
  { unfold shown. destruct (version_lookup (DatFile_version x)) as [v|]; [destruct (version_ge v VER_84)|]; try apply incl_refl. apply texts_int_levels. }
  rewrite Forall_forall in *. intros s J. apply H, I, J.
Qed.
Lemma keys_shown : keyed shown.
Proof.
  intros x. unfold shown. destruct (version_lookup (DatFile_version x)) as [v|]; [destruct (version_ge v VER_84)|]; try apply keys_DatFile. apply keys_int_levels, keys_DatFile.
Qed.

(** ** [json_of] loses nothing *)
Lemma text_inj a b : text a = text b -> a = b.
Proof.
  unfold text. intros E. rewrite <- (string_of_list_ascii_of_string a), <- (string_of_list_ascii_of_string b). f_equal.
  revert E. generalize (list_ascii_of_string a) (list_ascii_of_string b). induction l as [|c l IH]; intros [|d m] E; try discriminate; [reflexivity|].
  cbn [map] in E. injection E as E1 E2. apply IH in E2. apply N2Z.inj in E1.
  rewrite <- (Ascii.ascii_N_embedding c), <- (Ascii.ascii_N_embedding d), E1, E2. reflexivity.
Qed.
Lemma json_of_inj t : forall u, json_of t = json_of u -> t = u.
Proof.
  induction t as [|z|x|s|l IH|l IH] using tree_rec'; intros [] E; try discriminate; try (injection E as ->; reflexivity); [reflexivity| |].
  - injection E as E. f_equal. revert l0 E. induction IH as [|a l Ha _ IHl]; intros [|b m] E; try discriminate; [reflexivity|].
    injection E as E1 E2. f_equal; [apply Ha, E1|apply IHl, E2].
  - injection E as E. f_equal. revert l0 E. induction IH as [|[k a] l Ha _ IHl]; intros [|[k' b] m] E; try discriminate; [reflexivity|].
    cbn [map fst snd] in *. injection E as E0 E1 E2. apply text_inj in E0. apply Ha in E1. apply IHl in E2. congruence.
Qed.

(** ** Exact decimal literals *)
Lemma f64_of_mag_ok x : finite x = true -> f64_of_mag (d_sign x) (f64_mag x) = x.
Proof.
  unfold finite. rewrite negb_true_iff, Z.eqb_neq. intros F. apply f64_bits_inj.
  pose proof (f64_bits_range x) as R. unfold f64_of_mag, f64_mag. unfold d_exp in *.
  assert (B : f64_bits x = d_sign x * 2 ^ 63 + ((f64_bits x / 2 ^ 52) mod 2 ^ 11) * 2 ^ 52 + d_man x).
  { unfold d_sign, d_man. lia. }
  assert (M : 0 <= d_man x < 2 ^ 52) by (unfold d_man; lia). assert (S : 0 <= d_sign x < 2) by (unfold d_sign; lia).
  pose proof (Z.mod_pos_bound (f64_bits x / 2 ^ 52) (2 ^ 11) ltac:(lia)) as X. set (e := (f64_bits x / 2 ^ 52) mod 2 ^ 11) in *.
  destruct (Z.eqb_spec e 0) as [E|E].
  - replace (d_man x <? 2 ^ 52) with true by lia. rewrite f64_bits_of_bits by lia. lia.
  - assert (P : 1 <= 2 ^ (e - 1)) by (apply (Z.pow_le_mono_r 2 0 (e - 1)); lia).
    assert (L : Z.log2 ((2 ^ 52 + d_man x) * 2 ^ (e - 1)) = 51 + e).
    { rewrite Z.log2_mul_pow2 by lia. replace (Z.log2 (2 ^ 52 + d_man x)) with 52; [lia|]. symmetry. apply Z.log2_unique; lia. }
    replace (_ <? 2 ^ 52) with false by (symmetry; apply Z.ltb_ge; nia). rewrite L. cbv zeta. replace (51 + e - 51) with e by lia.
    rewrite Z.div_mul by lia. rewrite f64_bits_of_bits by lia. lia.
Qed.
Lemma f64_mag_nonneg x : 0 <= f64_mag x.
Proof.
  assert (M : 0 <= d_man x) by (unfold d_man; apply Z.mod_pos_bound; lia). unfold f64_mag. destruct (_ =? _); [exact M|].
  pose proof (Z.pow_nonneg 2 (d_exp x - 1)). nia.
Qed.
Lemma exact_reads_back : reads_back exact_repr exact_float.
Proof.
  intros x F. pose proof (f64_mag_nonneg x) as G. assert (P : 0 < 5 ^ 1074) by (apply Z.pow_pos_nonneg; lia).
  assert (A : 0 <= f64_mag x * 5 ^ 1074) by (apply Z.mul_nonneg_nonneg; lia).
  destruct (digits_ok _ A) as (V & D & I & N). split.
  - exists (if d_sign x =? 0 then [] else [MINUS]), (digits (f64_mag x * 5 ^ 1074)), [], (text "e-1074").
    split; [reflexivity|]. split; [destruct (_ =? _); tauto|]. split; [split; assumption|]. split; [left; reflexivity|]. split; [|right; discriminate].
    right. exists 101, [MINUS], (text "1074"). split; [reflexivity|]. split; [left; reflexivity|]. split; [tauto|]. split; [discriminate|reflexivity].
  - assert (S : d_sign x = 0 \/ d_sign x = 1) by (pose proof (f64_bits_range x); unfold d_sign; lia).
    unfold exact_float, exact_repr.
    assert (T : take_digits (digits (f64_mag x * 5 ^ 1074) ++ text "e-1074") = (digits (f64_mag x * 5 ^ 1074), text "e-1074")) by (apply take_digits_app; [exact D|reflexivity]).
    destruct S as [S|S]; rewrite S.
    + change (0 =? 0) with true. cbv iota. cbn [app]. rewrite take_sign_digits by assumption. rewrite T, V. rewrite Z.div_mul by lia.
      cbn [is_nil]. rewrite <- S. f_equal. apply f64_of_mag_ok, F.
    + change (1 =? 0) with false. cbv iota. cbn [app take_sign]. change (MINUS =? MINUS) with true. cbv iota. rewrite T, V. rewrite Z.div_mul by lia.
      cbn [is_nil]. rewrite <- S. f_equal. apply f64_of_mag_ok, F.
Qed.

(** ** Plain ASCII *)
Definition printable (c : Z) : bool := (c =? 10) || ((32 <=? c) && (c <=? 126)).
Lemma digits_printable ds : forallb is_digit ds = true -> forallb printable ds = true.
Proof. rewrite !forallb_forall. intros H c Hc. specialize (H c Hc). unfold is_digit in H. unfold printable. lia. Qed.
Lemma literal_printable t : float_literal t -> forallb printable t = true.
Proof.
  intros (sg & ip & fp & ep & -> & Hs & [Di _] & Hf & He & _). rewrite !forallb_app. repeat (apply andb_true_iff; split).
  - destruct Hs as [->| ->]; reflexivity.
  - apply digits_printable, Di.
  - destruct Hf as [->|(d & -> & _ & D)]; [reflexivity|]. cbn [forallb]. rewrite (digits_printable _ D). reflexivity.
  - destruct He as [->|(e & g & d & -> & Ee & Eg & _ & D)]; [reflexivity|]. cbn [forallb]. rewrite forallb_app, (digits_printable _ D).
    destruct Ee as [->| ->], Eg as [->|[->| ->]]; reflexivity.
Qed.
Lemma hex_printable d : 0 <= d < 16 -> printable (hex d) = true.
Proof. intros H. unfold printable, hex. destruct (Z.ltb_spec d 10); lia. Qed.
Lemma u_escape_printable c : forallb printable (u_escape c) = true.
Proof.
  unfold u_escape. cbn [forallb]. rewrite !hex_printable by (apply Z.mod_pos_bound; lia). reflexivity.
Qed.
Lemma escape_printable c : forallb printable (escape c) = true.
Proof.
  unfold escape. repeat (match goal with |- context [if ?b then _ else _] => destruct b eqn:? end; try reflexivity).
  - cbn [forallb]. unfold printable. lia.
  - apply u_escape_printable.
  - cbv zeta. rewrite forallb_app, !u_escape_printable. reflexivity.
Qed.
Lemma quote_printable s : forallb printable (quote s) = true.
Proof.
  unfold quote. cbn [forallb]. rewrite forallb_app. cbn [forallb]. replace (forallb printable (flat_map escape s)) with true; [reflexivity|].
  symmetry. induction s as [|c s IH]; [reflexivity|]. cbn [flat_map]. rewrite forallb_app, escape_printable, IH. reflexivity.
Qed.
Lemma newline_printable k : forallb printable (newline k) = true.
Proof. unfold newline. cbn [forallb]. apply andb_true_iff. split; [reflexivity|]. induction (2 * k)%nat; [reflexivity|assumption]. Qed.
Lemma join_printable sep l : forallb printable sep = true -> Forall (fun s => forallb printable s = true) l -> forallb printable (join_with sep l) = true.
Proof.
  intros S F. induction F as [|s l H F IH]; [reflexivity|]. destruct l as [|t l]; [exact H|].
  change (forallb printable (s ++ sep ++ join_with sep (t :: l)) = true). rewrite !forallb_app, H, S, IH. reflexivity.
Qed.
Lemma enclose_printable o c k l : printable o = true -> printable c = true -> Forall (fun s => forallb printable s = true) l -> forallb printable (enclose o c k l) = true.
Proof.
  intros O C F. unfold enclose. destruct l as [|s l]; [cbn [forallb]; rewrite O, C; reflexivity|].
  cbn [forallb]. rewrite !forallb_app. rewrite O, !newline_printable, join_printable; [|cbn [forallb]; rewrite newline_printable; reflexivity|exact F].
  cbn [forallb]. rewrite C. reflexivity.
Qed.
Lemma dumps_printable repr : (forall x, finite x = true -> float_literal (repr x)) -> forall t k, forallb printable (dumps repr k t) = true.
Proof.
  intros L t. induction t as [|z|x|s|l IH|l IH] using tree_rec'; intros k; cbn [dumps].
  - reflexivity.
  - unfold int_repr. destruct (Z.ltb_spec z 0); [cbn [forallb]|]; (rewrite digits_printable; [reflexivity|]; apply digits_ok; lia).
  - unfold float_text. destruct (d_exp x =? 2047) eqn:E; [repeat destruct (_ =? _); reflexivity|]. apply literal_printable, L. unfold finite. rewrite E. reflexivity.
  - apply quote_printable.
  - apply enclose_printable; [reflexivity..|]. apply Forall_map. eapply Forall_impl; [|exact IH]. intros a H. apply H.
  - apply enclose_printable; [reflexivity..|]. apply Forall_map. eapply Forall_impl; [|exact IH]. intros [n a] H.
    cbn [fst snd] in *. rewrite !forallb_app, quote_printable, H. reflexivity.
Qed.
