(** * The dump of a loaded file: the int 0 of old versions (Dump.v, [shown]) can be told from the version,
    so that nothing is lost.  Lemmas for Props_Dump. *)
From Verif Require Import Base PyFloat PyStr Versions Common Wire Layout Shape FS Spec Dump.
From Verif Require Import M_Sound M_PlayerColour M_Effect M_TerrainRestriction M_Graphic
  M_TerrainBlock M_RandomMaps M_Task M_UnitHeaders M_Unit M_Civ M_Tech M_TechTree M_DatFile Codec P_DatFile Theory.
From Coq Require Import String Lia.
Open Scope Z_scope.
Local Open Scope list_scope.
Local Open Scope string_scope.

(** The float again. *)
Fixpoint float_levels (t : tree) : tree :=
  match t with
  | TList l => TList (map float_levels l)
  | TDict l => TDict (map (fun kt => if String.eqb (fst kt) "invulnerability_level" then (fst kt, TFloat f64_zero) else (fst kt, float_levels (snd kt))) l)
  | t => t
  end.
Definition settled (t : tree) : Prop := float_levels (int_levels t) = t.
Definition entry_settled (kt : string * tree) : Prop :=
  if String.eqb (fst kt) "invulnerability_level" then snd kt = TFloat f64_zero else settled (snd kt).
Lemma settled_dict l : Forall entry_settled l -> settled (TDict l).
Proof.
  intros H. unfold settled. cbn [int_levels float_levels]. f_equal. rewrite map_map. induction H as [|[k t] l E H IH]; [reflexivity|]. cbn [map]. rewrite IH. f_equal. clear IH H.
  unfold entry_settled in E. cbn [fst snd] in *. destruct (String.eqb k "invulnerability_level") eqn:K; cbn [fst snd]; rewrite K; [rewrite E; reflexivity|unfold settled in E; rewrite E; reflexivity].
Qed.
Lemma settled_items l : Forall settled l -> settled (TList l).
Proof. intros H. unfold settled. cbn [int_levels float_levels]. f_equal. rewrite map_map. induction H as [|t l E H IH]; [reflexivity|]. cbn [map]. rewrite IH. f_equal. exact E. Qed.
Definition always {A} (f : A -> tree) : Prop := forall a, settled (f a).
Lemma settled_map {A} (f : A -> tree) l : always f -> settled (TList (map f l)).
Proof. intros H. apply settled_items. apply Forall_forall. intros t I. apply in_map_iff in I as (a & <- & _). apply H. Qed.
Lemma always_int : always TInt. Proof. intros a. reflexivity. Qed.
Lemma always_float : always TFloat. Proof. intros a. reflexivity. Qed.
Lemma always_text : always TText. Proof. intros a. reflexivity. Qed.
Lemma always_option {A} (f : A -> tree) : always f -> always (of_option f). Proof. intros H [a|]; [apply H|reflexivity]. Qed.
Lemma always_list {A} (f : A -> tree) : always f -> always (fun l => TList (map f l)). Proof. intros H l. apply settled_map, H. Qed.
Create HintDb settled.
#[local] Hint Resolve always_int always_float always_text always_option always_list : settled.
Ltac member := unfold entry_settled; cbn [fst snd String.eqb Ascii.eqb Bool.eqb];
  first [ reflexivity
        | match goal with
          | |- settled (TList (map ?f ?l)) => apply (settled_map f l); auto with settled
          | |- settled (?f ?a) => apply (ltac:(auto with settled) : always f)
          end ].
Ltac settle := apply settled_dict; repeat (apply Forall_cons; [member|]); try apply Forall_nil.

Lemma settled_SoundItem : always SoundItem_asdict. Proof. intros x. unfold SoundItem_asdict. settle. Qed.
#[local] Hint Resolve settled_SoundItem : settled.
Lemma settled_Sound : always Sound_asdict. Proof. intros x. unfold Sound_asdict. settle. Qed.
#[local] Hint Resolve settled_Sound : settled.
Lemma settled_PlayerColour : always PlayerColour_asdict. Proof. intros x. unfold PlayerColour_asdict. settle. Qed.
#[local] Hint Resolve settled_PlayerColour : settled.
Lemma settled_EffectCommand : always EffectCommand_asdict. Proof. intros x. unfold EffectCommand_asdict. settle. Qed.
#[local] Hint Resolve settled_EffectCommand : settled.
Lemma settled_Effect : always Effect_asdict. Proof. intros x. unfold Effect_asdict. settle. Qed.
#[local] Hint Resolve settled_Effect : settled.
Lemma settled_TerrainPassGraphic : always TerrainPassGraphic_asdict. Proof. intros x. unfold TerrainPassGraphic_asdict. settle. Qed.
#[local] Hint Resolve settled_TerrainPassGraphic : settled.
Lemma settled_TerrainRestriction : always TerrainRestriction_asdict. Proof. intros x. unfold TerrainRestriction_asdict. settle. Qed.
#[local] Hint Resolve settled_TerrainRestriction : settled.
Lemma settled_GraphicDelta : always GraphicDelta_asdict. Proof. intros x. unfold GraphicDelta_asdict. settle. Qed.
#[local] Hint Resolve settled_GraphicDelta : settled.
Lemma settled_GraphicAngleSound : always GraphicAngleSound_asdict. Proof. intros x. unfold GraphicAngleSound_asdict. settle. Qed.
#[local] Hint Resolve settled_GraphicAngleSound : settled.
Lemma settled_Graphic : always Graphic_asdict. Proof. intros x. unfold Graphic_asdict. settle. Qed.
#[local] Hint Resolve settled_Graphic : settled.
Lemma settled_FrameData : always FrameData_asdict. Proof. intros x. unfold FrameData_asdict. settle. Qed.
#[local] Hint Resolve settled_FrameData : settled.
Lemma settled_Terrain : always Terrain_asdict. Proof. intros x. unfold Terrain_asdict. settle. Qed.
#[local] Hint Resolve settled_Terrain : settled.
Lemma settled_TileSize : always TileSize_asdict. Proof. intros x. unfold TileSize_asdict. settle. Qed.
#[local] Hint Resolve settled_TileSize : settled.
Lemma settled_TerrainBlock : always TerrainBlock_asdict. Proof. intros x. unfold TerrainBlock_asdict. settle. Qed.
#[local] Hint Resolve settled_TerrainBlock : settled.
Lemma settled_MapUnit : always MapUnit_asdict. Proof. intros x. unfold MapUnit_asdict. settle. Qed.
#[local] Hint Resolve settled_MapUnit : settled.
Lemma settled_MapTerrain : always MapTerrain_asdict. Proof. intros x. unfold MapTerrain_asdict. settle. Qed.
#[local] Hint Resolve settled_MapTerrain : settled.
Lemma settled_MapLand : always MapLand_asdict. Proof. intros x. unfold MapLand_asdict. settle. Qed.
#[local] Hint Resolve settled_MapLand : settled.
Lemma settled_MapElevation : always MapElevation_asdict. Proof. intros x. unfold MapElevation_asdict. settle. Qed.
#[local] Hint Resolve settled_MapElevation : settled.
Lemma settled_MapInfo : always MapInfo_asdict. Proof. intros x. unfold MapInfo_asdict. settle. Qed.
#[local] Hint Resolve settled_MapInfo : settled.
Lemma settled_RandomMaps : always RandomMaps_asdict. Proof. intros x. unfold RandomMaps_asdict. settle. Qed.
#[local] Hint Resolve settled_RandomMaps : settled.
Lemma settled_Task : always Task_asdict. Proof. intros x. unfold Task_asdict. settle. Qed.
#[local] Hint Resolve settled_Task : settled.
Lemma settled_UnitHeaders : always UnitHeaders_asdict. Proof. intros x. unfold UnitHeaders_asdict. settle. Qed.
#[local] Hint Resolve settled_UnitHeaders : settled.
Lemma settled_ResourceStorage : always ResourceStorage_asdict. Proof. intros x. unfold ResourceStorage_asdict. settle. Qed.
#[local] Hint Resolve settled_ResourceStorage : settled.
Lemma settled_DamageGraphic : always DamageGraphic_asdict. Proof. intros x. unfold DamageGraphic_asdict. settle. Qed.
#[local] Hint Resolve settled_DamageGraphic : settled.
Lemma settled_DeadFish : always DeadFish_asdict. Proof. intros x. unfold DeadFish_asdict. settle. Qed.
#[local] Hint Resolve settled_DeadFish : settled.
Lemma settled_Bird : always Bird_asdict. Proof. intros x. unfold Bird_asdict. settle. Qed.
#[local] Hint Resolve settled_Bird : settled.
Lemma settled_AttackOrArmor : always AttackOrArmor_asdict. Proof. intros x. unfold AttackOrArmor_asdict. settle. Qed.
#[local] Hint Resolve settled_AttackOrArmor : settled.
Lemma settled_Type50 : always Type50_asdict. Proof. intros x. unfold Type50_asdict. settle. Qed.
#[local] Hint Resolve settled_Type50 : settled.
Lemma settled_Projectile : always Projectile_asdict. Proof. intros x. unfold Projectile_asdict. settle. Qed.
#[local] Hint Resolve settled_Projectile : settled.
Lemma settled_ResourceCost : always ResourceCost_asdict. Proof. intros x. unfold ResourceCost_asdict. settle. Qed.
#[local] Hint Resolve settled_ResourceCost : settled.
Lemma settled_TrainLocation : always TrainLocation_asdict. Proof. intros x. unfold TrainLocation_asdict. settle. Qed.
#[local] Hint Resolve settled_TrainLocation : settled.
Lemma settled_BuildingAnnex : always BuildingAnnex_asdict. Proof. intros x. unfold BuildingAnnex_asdict. settle. Qed.
#[local] Hint Resolve settled_BuildingAnnex : settled.
Lemma settled_Building : always Building_asdict. Proof. intros x. unfold Building_asdict. settle. Qed.
#[local] Hint Resolve settled_Building : settled.
Lemma settled_ResearchResourceCost : always ResearchResourceCost_asdict. Proof. intros x. unfold ResearchResourceCost_asdict. settle. Qed.
#[local] Hint Resolve settled_ResearchResourceCost : settled.
Lemma settled_ResearchLocation : always ResearchLocation_asdict. Proof. intros x. unfold ResearchLocation_asdict. settle. Qed.
#[local] Hint Resolve settled_ResearchLocation : settled.
Lemma settled_Tech : always Tech_asdict. Proof. intros x. unfold Tech_asdict. settle. Qed.
#[local] Hint Resolve settled_Tech : settled.
Lemma settled_Common : always Common_asdict. Proof. intros x. unfold Common_asdict. settle. Qed.
#[local] Hint Resolve settled_Common : settled.
Lemma settled_TechTreeAge : always TechTreeAge_asdict. Proof. intros x. unfold TechTreeAge_asdict. settle. Qed.
#[local] Hint Resolve settled_TechTreeAge : settled.
Lemma settled_BuildingConnection : always BuildingConnection_asdict. Proof. intros x. unfold BuildingConnection_asdict. settle. Qed.
#[local] Hint Resolve settled_BuildingConnection : settled.
Lemma settled_UnitConnection : always UnitConnection_asdict. Proof. intros x. unfold UnitConnection_asdict. settle. Qed.
#[local] Hint Resolve settled_UnitConnection : settled.
Lemma settled_ResearchConnection : always ResearchConnection_asdict. Proof. intros x. unfold ResearchConnection_asdict. settle. Qed.
#[local] Hint Resolve settled_ResearchConnection : settled.
Lemma settled_TechTree : always TechTree_asdict. Proof. intros x. unfold TechTree_asdict. settle. Qed.
#[local] Hint Resolve settled_TechTree : settled.

(** Units have the float 0.0 there before 8.4. *)
Lemma settled_Creatable v x : since 84 v = false -> Creatable_core_shape v x -> settled (Creatable_asdict x).
Proof. intros O (_ & _ & _ & H). destruct (H O) as (_ & _ & _ & _ & L & _). unfold Creatable_asdict. rewrite L. settle. Qed.
Lemma settled_Unit v x : since 84 v = false -> Unit_shape v x -> settled (Unit_asdict x).
Proof.
  intros O (_ & _ & _ & _ & _ & _ & _ & H & _). assert (C : settled (of_option Creatable_asdict (Unit_creatable x))) by (destruct (Unit_creatable x) as [c|]; [apply (settled_Creatable v c O H)|reflexivity]).
  unfold Unit_asdict. apply settled_dict. repeat (apply Forall_cons; [first [exact C|member]|]). apply Forall_nil.
Qed.
Lemma settled_Civ v x : since 84 v = false -> Civ_shape v x -> settled (Civ_asdict x).
Proof.
  intros O H. unfold Civ_shape in H. assert (C : settled (TList (map (of_option Unit_asdict) (Civ_units x)))).
  { apply settled_items. induction H as [|o l Ho Hl IH]; [constructor|]. cbn [map]. constructor; [|exact IH]. destruct o as [u|]; [apply (settled_Unit v u O Ho)|reflexivity]. }
  unfold Civ_asdict. apply settled_dict. repeat (apply Forall_cons; [first [exact C|member]|]). apply Forall_nil.
Qed.
Lemma settled_DatFile v x : since 84 v = false -> DatFile_body_shape v x -> settled (DatFile_asdict x).
Proof.
  intros O H. assert (C : settled (TList (map Civ_asdict (DatFile_civs x)))).
  { assert (HC : Forall (Civ_shape v) (DatFile_civs x)) by (unfold DatFile_body_shape in H; tauto). clear H.
    apply settled_items. induction HC as [|c l Hc Hl IH]; [constructor|]. cbn [map]. constructor; [|exact IH]. apply (settled_Civ v c O Hc). }
  unfold DatFile_asdict. apply settled_dict. repeat (apply Forall_cons; [first [exact C|member]|]). apply Forall_nil.
Qed.

Lemma shown_at x v : file_version (DatFile_version x) = Some v -> shown x = if since 84 v then DatFile_asdict x else int_levels (DatFile_asdict x).
Proof. intros F. unfold shown. rewrite version_lookup_spec, F, ge_84. reflexivity. Qed.
Lemma shown_wf x : DatFile_wf x -> exists v, file_version (DatFile_version x) = Some v /\ DatFile_body_shape v x.
Proof. intros [_ S]. unfold DatFile_shape in S. destruct (file_version (DatFile_version x)) as [v|]; [exists v; auto|contradiction]. Qed.
Definition version_in (t : tree) : tree := match t with TDict ((_, v) :: _) => v | _ => TNull end.
Lemma version_in_shown x : version_in (shown x) = TText (DatFile_version x).
Proof. unfold shown. destruct (version_lookup (DatFile_version x)) as [v|e]; [destruct (version_ge v VER_84)|]; reflexivity. Qed.
(** The dump of a loaded file determines the record. *)
Lemma shown_asdict x y : DatFile_wf x -> DatFile_wf y -> shown x = shown y -> DatFile_asdict x = DatFile_asdict y.
Proof.
  intros Wx Wy E. pose proof (f_equal version_in E) as V. rewrite !version_in_shown in V. injection V as V.
  destruct (shown_wf x Wx) as (v & F & S). destruct (shown_wf y Wy) as (v' & F' & S'). assert (v' = v) by congruence. subst v'.
  rewrite (shown_at x v F), (shown_at y v F') in E. destruct (since 84 v) eqn:O; [exact E|].
  rewrite <- (settled_DatFile v x O S), <- (settled_DatFile v y O S'). unfold settled. rewrite E. reflexivity.
Qed.
