(** * C46-C48: the source text itself, run on Python objects, saves what the typed model saves.

    [Py.v] says how Python runs the subset of the language the library is written in, on a heap of
    mutable objects; [Source.v] is the text of the library in that language, printed by
    tools/gen_src.py from /repo.  Here the methods of that text are called on objects in the heap. *)
From Verif Require Import Base PyInt PyFloat PyStr PyStruct DataTypes Versions Common Py Source PyRep PyPure PyPureSim PyW PyWE Deep PyWC PyWS PyWD.
From Verif Require Import M_Sound M_PlayerColour M_Effect M_TerrainRestriction M_Graphic
  M_TerrainBlock M_RandomMaps M_Task M_UnitHeaders M_Unit M_Civ M_Tech M_TechTree M_DatFile.
From Verif Require Import Sample.
From Coq Require Import String Ascii Lia.
Open Scope Z_scope.
Local Open Scope list_scope.

(** What the user writes: [x.to_bytes(version)] and, for a whole file, [x.to_bytes()], with [n]
    frames left on the stack. *)
Definition user_save (n : nat) (h : heap) (x : val) (version : Version) : outcome (val * heap) :=
  eval source (call source n) "__main__" [("x"%string, x); ("version"%string, version_val version)]
    (ECall (EAttr (EName "x") "to_bytes") [EName "version"]) h.
Definition user_save_file (n : nat) (h : heap) (x : val) : outcome (val * heap) :=
  eval source (call source n) "__main__" [("x"%string, x)] (ECall (EAttr (EName "x") "to_bytes") []) h.

(** The outcome is the one of the model: the same bytes or the same exception; and no object that
    existed before has changed. *)
Definition agrees (h : heap) (o : outcome (val * heap)) (r : res bytes) : Prop :=
  match r with
  | Ok b => exists h', o = Ret (PBytes b, h') /\ later h h'
  | Err e => o = Raise (Std e)
  end.
(** For any object that stands for the record, in any heap. *)
Definition saves {A} (k : nat) (emb : A -> deep) (f : A -> Version -> res bytes) : Prop :=
  forall n h x v version, (k <= n)%nat -> stands false h (emb x) v -> agrees h (user_save n h v version) (f x version).
(** The same with ints or bools where floats are expected: if the model can save the record. *)
Definition saves_lax {A} (k : nat) (emb : A -> deep) (f : A -> Version -> res bytes) : Prop :=
  forall n h x v version b, (k <= n)%nat -> stands true h (emb x) v -> f x version = Ok b -> agrees h (user_save n h v version) (Ok b).

(** The expression on deep values. *)
Lemma deep_user {A} k (emb : A -> deep) f : writes k emb f -> forall n x version, (k <= n)%nat ->
  d_eval source (d_call source n) "__main__" [("x"%string, emb x); ("version"%string, dver version)]
    (ECall (EAttr (EName "x") "to_bytes") [EName "version"]) = outb (f x version).
Proof.
  intros W n x version N. destruct (W x) as (_ & WA & WC). erewrite call1; [| |cbn [d_eval]|].
  - apply WC, N.
  - reflexivity.
  - change (d_name source "__main__" [("x"%string, emb x); ("version"%string, dver version)] "x") with (Ret (emb x)). cbn [obind]. apply WA.
  - reflexivity.
Qed.
Lemma env1 lax h d v : stands lax h d v -> Forall2 (field_stands lax h) [("x"%string, d)] [("x"%string, v)].
Proof. intros S. constructor; [split; [reflexivity|exact S]|constructor]. Qed.
Lemma env2 lax h d v version : stands lax h d v ->
  Forall2 (field_stands lax h) [("x"%string, d); ("version"%string, dver version)] [("x"%string, v); ("version"%string, version_val version)].
Proof. intros S. constructor; [split; [reflexivity|exact S]|]. constructor; [split; reflexivity|constructor]. Qed.
Lemma saves_of {A} k (emb : A -> deep) f : writes k emb f -> saves k emb f.
Proof.
  intros W n h x v version N S. pose proof (deep_user k emb f W n x version N) as D.
  pose proof (sim_eval source false _ _ "__main__" (call_simulates source false n) h _ _ (ECall (EAttr (EName "x") "to_bytes") [EName "version"]) (env2 false h (emb x) v version S)) as X.
  rewrite D in X. unfold agrees, user_save. destruct (f x version) as [b|e]; cbn [outb sim] in X.
  - destruct X as (b' & h' & E & L & B). cbn [stands] in B. subst b'. exists h'. split; [exact E|exact L].
  - destruct X as [X|X]; [discriminate X|exact X].
Qed.
Lemma saves_lax_of {A} k (emb : A -> deep) f : writes k emb f -> saves_lax k emb f.
Proof.
  intros W n h x v version b N S F. pose proof (deep_user k emb f W n x version N) as D.
  pose proof (sim_eval source true _ _ "__main__" (call_simulates source true n) h _ _ (ECall (EAttr (EName "x") "to_bytes") [EName "version"]) (env2 true h (emb x) v version S)) as X.
  rewrite D, F in X. cbn [outb sim] in X. destruct X as (b' & h' & E & L & B). cbn [stands] in B. subst b'. exists h'. split; [exact E|exact L].
Qed.

Theorem C46_SoundItem : saves 6 SoundItem_deep SoundItem_to_bytes. Proof. apply saves_of, SoundItem_w. Qed.
Theorem C46_Sound : saves 9 Sound_deep Sound_to_bytes. Proof. apply saves_of, Sound_w. Qed.
Theorem C46_PlayerColour : saves 6 PlayerColour_deep PlayerColour_to_bytes. Proof. apply saves_of, PlayerColour_w. Qed.
Theorem C46_EffectCommand : saves 6 EffectCommand_deep EffectCommand_to_bytes. Proof. apply saves_of, EffectCommand_w. Qed.
Theorem C46_Effect : saves 9 Effect_deep Effect_to_bytes. Proof. apply saves_of, Effect_w. Qed.
Theorem C46_TerrainPassGraphic : saves 6 TerrainPassGraphic_deep TerrainPassGraphic_to_bytes. Proof. apply saves_of, TerrainPassGraphic_w. Qed.
Theorem C46_TerrainRestriction : saves 9 TerrainRestriction_deep TerrainRestriction_to_bytes. Proof. apply saves_of, TerrainRestriction_w. Qed.
Theorem C46_GraphicDelta : saves 6 GraphicDelta_deep GraphicDelta_to_bytes. Proof. apply saves_of, GraphicDelta_w. Qed.
Theorem C46_GraphicAngleSound : saves 6 GraphicAngleSound_deep GraphicAngleSound_to_bytes. Proof. apply saves_of, GraphicAngleSound_w. Qed.
Theorem C46_Graphic : saves 9 Graphic_deep Graphic_to_bytes. Proof. apply saves_of, Graphic_w. Qed.
Theorem C46_FrameData : saves 6 FrameData_deep FrameData_to_bytes. Proof. apply saves_of, FrameData_w. Qed.
Theorem C46_Terrain : saves 9 Terrain_deep Terrain_to_bytes. Proof. apply saves_of, Terrain_w. Qed.
Theorem C46_TileSize : saves 6 TileSize_deep TileSize_to_bytes. Proof. apply saves_of, TileSize_w. Qed.
Theorem C46_TerrainBlock : saves 12 TerrainBlock_deep TerrainBlock_to_bytes. Proof. apply saves_of, TerrainBlock_w. Qed.
Theorem C46_MapUnit : saves 6 MapUnit_deep MapUnit_to_bytes. Proof. apply saves_of, MapUnit_w. Qed.
Theorem C46_MapTerrain : saves 6 MapTerrain_deep MapTerrain_to_bytes. Proof. apply saves_of, MapTerrain_w. Qed.
Theorem C46_MapLand : saves 6 MapLand_deep MapLand_to_bytes. Proof. apply saves_of, MapLand_w. Qed.
Theorem C46_MapElevation : saves 6 MapElevation_deep MapElevation_to_bytes. Proof. apply saves_of, MapElevation_w. Qed.
Theorem C46_MapInfo : saves 9 MapInfo_deep MapInfo_to_bytes. Proof. apply saves_of, MapInfo_w. Qed.
Theorem C46_RandomMaps : saves 12 RandomMaps_deep RandomMaps_to_bytes. Proof. apply saves_of, RandomMaps_w. Qed.
Theorem C46_Task : saves 7 Task_deep Task_to_bytes. Proof. apply saves_of, Task_w. Qed.
Theorem C46_UnitHeaders : saves 10 UnitHeaders_deep UnitHeaders_to_bytes. Proof. apply saves_of, UnitHeaders_w. Qed.
Theorem C46_ResourceStorage : saves 6 ResourceStorage_deep ResourceStorage_to_bytes. Proof. apply saves_of, ResourceStorage_w. Qed.
Theorem C46_DamageGraphic : saves 6 DamageGraphic_deep DamageGraphic_to_bytes. Proof. apply saves_of, DamageGraphic_w. Qed.
Theorem C46_DeadFish : saves 6 DeadFish_deep DeadFish_to_bytes. Proof. apply saves_of, DeadFish_w. Qed.
Theorem C46_Bird : saves 10 Bird_deep Bird_to_bytes. Proof. apply saves_of, Bird_w. Qed.
Theorem C46_AttackOrArmor : saves 6 AttackOrArmor_deep AttackOrArmor_to_bytes. Proof. apply saves_of, AttackOrArmor_w. Qed.
Theorem C46_Type50 : saves 9 Type50_deep Type50_to_bytes. Proof. apply saves_of, Type50_w. Qed.
Theorem C46_Projectile : saves 6 Projectile_deep Projectile_to_bytes. Proof. apply saves_of, Projectile_w. Qed.
Theorem C46_ResourceCost : saves 6 ResourceCost_deep ResourceCost_to_bytes. Proof. apply saves_of, ResourceCost_w. Qed.
Theorem C46_TrainLocation : saves 6 TrainLocation_deep TrainLocation_to_bytes. Proof. apply saves_of, TrainLocation_w. Qed.
Theorem C46_Creatable : saves 10 Creatable_deep Creatable_to_bytes. Proof. apply saves_of, Creatable_w. Qed.
Theorem C46_BuildingAnnex : saves 6 BuildingAnnex_deep BuildingAnnex_to_bytes. Proof. apply saves_of, BuildingAnnex_w. Qed.
Theorem C46_Building : saves 9 Building_deep Building_to_bytes. Proof. apply saves_of, Building_w. Qed.
Theorem C46_Unit : saves 14 Unit_deep Unit_to_bytes. Proof. apply saves_of, Unit_w. Qed.
Theorem C46_Civ : saves 17 Civ_deep Civ_to_bytes. Proof. apply saves_of, Civ_w. Qed.
Theorem C46_ResearchResourceCost : saves 6 ResearchResourceCost_deep ResearchResourceCost_to_bytes. Proof. apply saves_of, ResearchResourceCost_w. Qed.
Theorem C46_ResearchLocation : saves 6 ResearchLocation_deep ResearchLocation_to_bytes. Proof. apply saves_of, ResearchLocation_w. Qed.
Theorem C46_Tech : saves 10 Tech_deep Tech_to_bytes. Proof. apply saves_of, Tech_w. Qed.
Theorem C46_Common : saves 6 Common_deep Common_to_bytes. Proof. apply saves_of, Common_w. Qed.
Theorem C46_TechTreeAge : saves 9 TechTreeAge_deep TechTreeAge_to_bytes. Proof. apply saves_of, TechTreeAge_w. Qed.
Theorem C46_BuildingConnection : saves 9 BuildingConnection_deep BuildingConnection_to_bytes. Proof. apply saves_of, BuildingConnection_w. Qed.
Theorem C46_UnitConnection : saves 9 UnitConnection_deep UnitConnection_to_bytes. Proof. apply saves_of, UnitConnection_w. Qed.
Theorem C46_ResearchConnection : saves 9 ResearchConnection_deep ResearchConnection_to_bytes. Proof. apply saves_of, ResearchConnection_w. Qed.
Theorem C46_TechTree : saves 12 TechTree_deep TechTree_to_bytes. Proof. apply saves_of, TechTree_w. Qed.

Lemma deep_user_file n x : (20 <= n)%nat ->
  d_eval source (d_call source n) "__main__" [("x"%string, DatFile_deep x)] (ECall (EAttr (EName "x") "to_bytes") []) = outb (DatFile_to_bytes x UNDEFINED).
Proof.
  intros N. rewrite eval_call. change (d_eval source (d_call source n) "__main__" [("x"%string, DatFile_deep x)] (EAttr (EName "x") "to_bytes"))
    with (d_attr source (d_call source n) (DatFile_deep x) "to_bytes").
  unfold DatFile_deep at 1. erewrite attr_method; [|reflexivity|exact m_DatFile|reflexivity]. cbn [obind args fst snd].
  apply (DatFile_w x n [] UNDEFINED N). left. reflexivity.
Qed.
(** A whole file, with or without the argument (which is ignored). *)
Theorem C46_DatFile : forall n h x v, (20 <= n)%nat -> stands false h (DatFile_deep x) v ->
  agrees h (user_save_file n h v) (DatFile_to_bytes x UNDEFINED) /\
  forall version, agrees h (user_save n h v version) (DatFile_to_bytes x UNDEFINED).
Proof.
  intros n h x v N S. split; [|intros version].
  - pose proof (sim_eval source false _ _ "__main__" (call_simulates source false n) h _ _ (ECall (EAttr (EName "x") "to_bytes") []) (env1 false h _ v S)) as X.
    rewrite (deep_user_file n x N) in X. unfold agrees, user_save_file. destruct (DatFile_to_bytes x UNDEFINED) as [b|e]; cbn [outb sim] in X.
    + destruct X as (b' & h' & E & L & B). cbn [stands] in B. subst b'. exists h'. split; [exact E|exact L].
    + destruct X as [X|X]; [discriminate X|exact X].
  - pose proof (sim_eval source false _ _ "__main__" (call_simulates source false n) h _ _ (ECall (EAttr (EName "x") "to_bytes") [EName "version"]) (env2 false h _ v version S)) as X.
    erewrite call1 in X; [|reflexivity| |reflexivity].
    2:{ cbn [d_eval]. change (d_name source "__main__" [("x"%string, DatFile_deep x); ("version"%string, dver version)] "x") with (Ret (DatFile_deep x)). cbn [obind].
        unfold DatFile_deep at 1. eapply attr_method; [reflexivity|exact m_DatFile|reflexivity]. }
    pose proof (DatFile_w x n [dver version] UNDEFINED N (or_intror (ex_intro _ version eq_refl))) as D. unfold DatFile_deep at 1 in D. rewrite D in X. clear D.
    unfold agrees, user_save. destruct (DatFile_to_bytes x UNDEFINED) as [b|e]; cbn [outb sim] in X.
    + destruct X as (b' & h' & E & L & B). cbn [stands] in B. subst b'. exists h'. split; [exact E|exact L].
    + destruct X as [X|X]; [discriminate X|exact X].
Qed.
(** Nothing the interpreter does not cover is reached. *)
Theorem C46_covered : forall n h x v, (20 <= n)%nat -> stands false h (DatFile_deep x) v ->
  user_save_file n h v <> Raise Unsupported /\ user_save_file n h v <> Raise TypeError /\
  user_save_file n h v <> Raise NameError /\ user_save_file n h v <> Raise RecursionError.
Proof.
  intros n h x v N S. destruct (C46_DatFile n h x v N S) as [A _]. unfold agrees in A.
  destruct (DatFile_to_bytes x UNDEFINED) as [b|e]; [destruct A as (h' & A & _)|]; rewrite A; repeat split; discriminate.
Qed.

(** ** C47: saving changes nothing *)
(** Every object that was in the heap is still there, with the same contents; so what any variable
    refers to still stands for the same data. *)
Theorem C47_unchanged : forall n h x v b h', (20 <= n)%nat -> stands false h (DatFile_deep x) v ->
  user_save_file n h v = Ret (b, h') ->
  (forall l o, nth_error h l = Some o -> nth_error h' l = Some o) /\
  (forall lax d w, stands lax h d w -> stands lax h' d w).
Proof.
  intros n h x v b h' N S E. destruct (C46_DatFile n h x v N S) as [A _]. unfold agrees in A.
  destruct (DatFile_to_bytes x UNDEFINED) as [b'|e]; [|rewrite A in E; discriminate E]. destruct A as (k & A & L). rewrite A in E. injection E as _ ->.
  split; [exact L|]. intros lax d w. apply stands_later, L.
Qed.
(** Saving twice gives the same bytes. *)
Theorem C47_twice : forall n h x v b h', (20 <= n)%nat -> stands false h (DatFile_deep x) v ->
  user_save_file n h v = Ret (b, h') -> exists h'', user_save_file n h' v = Ret (b, h'').
Proof.
  intros n h x v b h' N S E. pose proof (proj2 (C47_unchanged n h x v b h' N S E) false _ _ S) as S'.
  destruct (C46_DatFile n h x v N S) as [A _]. destruct (C46_DatFile n h' x v N S') as [B _]. unfold agrees in *.
  destruct (DatFile_to_bytes x UNDEFINED) as [b'|e]; [|rewrite A in E; discriminate E]. destruct A as (k & A & _). destruct B as (k' & B & _).
  rewrite A in E. injection E as <- _. exists k'. exact B.
Qed.

(** ** C48: other values of the right kind *)
(** Bools for ints and tuples for lists (or the other way round) are already in C46: [stands].  Here:
    ints and bools for floats. *)
Theorem C48_DatFile : forall n h x v b, (20 <= n)%nat -> stands true h (DatFile_deep x) v -> DatFile_to_bytes x UNDEFINED = Ok b ->
  exists h', user_save_file n h v = Ret (PBytes b, h') /\ later h h'.
Proof.
  intros n h x v b N S F.
  pose proof (sim_eval source true _ _ "__main__" (call_simulates source true n) h _ _ (ECall (EAttr (EName "x") "to_bytes") []) (env1 true h _ v S)) as X.
  rewrite (deep_user_file n x N), F in X. cbn [outb sim] in X. destruct X as (b' & h' & E & L & B). cbn [stands] in B. subst b'.
  exists h'. split; [exact E|exact L].
Qed.

Theorem C48_SoundItem : saves_lax 6 SoundItem_deep SoundItem_to_bytes. Proof. apply saves_lax_of, SoundItem_w. Qed.
Theorem C48_Sound : saves_lax 9 Sound_deep Sound_to_bytes. Proof. apply saves_lax_of, Sound_w. Qed.
Theorem C48_PlayerColour : saves_lax 6 PlayerColour_deep PlayerColour_to_bytes. Proof. apply saves_lax_of, PlayerColour_w. Qed.
Theorem C48_EffectCommand : saves_lax 6 EffectCommand_deep EffectCommand_to_bytes. Proof. apply saves_lax_of, EffectCommand_w. Qed.
Theorem C48_Effect : saves_lax 9 Effect_deep Effect_to_bytes. Proof. apply saves_lax_of, Effect_w. Qed.
Theorem C48_TerrainPassGraphic : saves_lax 6 TerrainPassGraphic_deep TerrainPassGraphic_to_bytes. Proof. apply saves_lax_of, TerrainPassGraphic_w. Qed.
Theorem C48_TerrainRestriction : saves_lax 9 TerrainRestriction_deep TerrainRestriction_to_bytes. Proof. apply saves_lax_of, TerrainRestriction_w. Qed.
Theorem C48_GraphicDelta : saves_lax 6 GraphicDelta_deep GraphicDelta_to_bytes. Proof. apply saves_lax_of, GraphicDelta_w. Qed.
Theorem C48_GraphicAngleSound : saves_lax 6 GraphicAngleSound_deep GraphicAngleSound_to_bytes. Proof. apply saves_lax_of, GraphicAngleSound_w. Qed.
Theorem C48_Graphic : saves_lax 9 Graphic_deep Graphic_to_bytes. Proof. apply saves_lax_of, Graphic_w. Qed.
Theorem C48_FrameData : saves_lax 6 FrameData_deep FrameData_to_bytes. Proof. apply saves_lax_of, FrameData_w. Qed.
Theorem C48_Terrain : saves_lax 9 Terrain_deep Terrain_to_bytes. Proof. apply saves_lax_of, Terrain_w. Qed.
Theorem C48_TileSize : saves_lax 6 TileSize_deep TileSize_to_bytes. Proof. apply saves_lax_of, TileSize_w. Qed.
Theorem C48_TerrainBlock : saves_lax 12 TerrainBlock_deep TerrainBlock_to_bytes. Proof. apply saves_lax_of, TerrainBlock_w. Qed.
Theorem C48_MapUnit : saves_lax 6 MapUnit_deep MapUnit_to_bytes. Proof. apply saves_lax_of, MapUnit_w. Qed.
Theorem C48_MapTerrain : saves_lax 6 MapTerrain_deep MapTerrain_to_bytes. Proof. apply saves_lax_of, MapTerrain_w. Qed.
Theorem C48_MapLand : saves_lax 6 MapLand_deep MapLand_to_bytes. Proof. apply saves_lax_of, MapLand_w. Qed.
Theorem C48_MapElevation : saves_lax 6 MapElevation_deep MapElevation_to_bytes. Proof. apply saves_lax_of, MapElevation_w. Qed.
Theorem C48_MapInfo : saves_lax 9 MapInfo_deep MapInfo_to_bytes. Proof. apply saves_lax_of, MapInfo_w. Qed.
Theorem C48_RandomMaps : saves_lax 12 RandomMaps_deep RandomMaps_to_bytes. Proof. apply saves_lax_of, RandomMaps_w. Qed.
Theorem C48_Task : saves_lax 7 Task_deep Task_to_bytes. Proof. apply saves_lax_of, Task_w. Qed.
Theorem C48_UnitHeaders : saves_lax 10 UnitHeaders_deep UnitHeaders_to_bytes. Proof. apply saves_lax_of, UnitHeaders_w. Qed.
Theorem C48_ResourceStorage : saves_lax 6 ResourceStorage_deep ResourceStorage_to_bytes. Proof. apply saves_lax_of, ResourceStorage_w. Qed.
Theorem C48_DamageGraphic : saves_lax 6 DamageGraphic_deep DamageGraphic_to_bytes. Proof. apply saves_lax_of, DamageGraphic_w. Qed.
Theorem C48_DeadFish : saves_lax 6 DeadFish_deep DeadFish_to_bytes. Proof. apply saves_lax_of, DeadFish_w. Qed.
Theorem C48_Bird : saves_lax 10 Bird_deep Bird_to_bytes. Proof. apply saves_lax_of, Bird_w. Qed.
Theorem C48_AttackOrArmor : saves_lax 6 AttackOrArmor_deep AttackOrArmor_to_bytes. Proof. apply saves_lax_of, AttackOrArmor_w. Qed.
Theorem C48_Type50 : saves_lax 9 Type50_deep Type50_to_bytes. Proof. apply saves_lax_of, Type50_w. Qed.
Theorem C48_Projectile : saves_lax 6 Projectile_deep Projectile_to_bytes. Proof. apply saves_lax_of, Projectile_w. Qed.
Theorem C48_ResourceCost : saves_lax 6 ResourceCost_deep ResourceCost_to_bytes. Proof. apply saves_lax_of, ResourceCost_w. Qed.
Theorem C48_TrainLocation : saves_lax 6 TrainLocation_deep TrainLocation_to_bytes. Proof. apply saves_lax_of, TrainLocation_w. Qed.
Theorem C48_Creatable : saves_lax 10 Creatable_deep Creatable_to_bytes. Proof. apply saves_lax_of, Creatable_w. Qed.
Theorem C48_BuildingAnnex : saves_lax 6 BuildingAnnex_deep BuildingAnnex_to_bytes. Proof. apply saves_lax_of, BuildingAnnex_w. Qed.
Theorem C48_Building : saves_lax 9 Building_deep Building_to_bytes. Proof. apply saves_lax_of, Building_w. Qed.
Theorem C48_Unit : saves_lax 14 Unit_deep Unit_to_bytes. Proof. apply saves_lax_of, Unit_w. Qed.
Theorem C48_Civ : saves_lax 17 Civ_deep Civ_to_bytes. Proof. apply saves_lax_of, Civ_w. Qed.
Theorem C48_ResearchResourceCost : saves_lax 6 ResearchResourceCost_deep ResearchResourceCost_to_bytes. Proof. apply saves_lax_of, ResearchResourceCost_w. Qed.
Theorem C48_ResearchLocation : saves_lax 6 ResearchLocation_deep ResearchLocation_to_bytes. Proof. apply saves_lax_of, ResearchLocation_w. Qed.
Theorem C48_Tech : saves_lax 10 Tech_deep Tech_to_bytes. Proof. apply saves_lax_of, Tech_w. Qed.
Theorem C48_Common : saves_lax 6 Common_deep Common_to_bytes. Proof. apply saves_lax_of, Common_w. Qed.
Theorem C48_TechTreeAge : saves_lax 9 TechTreeAge_deep TechTreeAge_to_bytes. Proof. apply saves_lax_of, TechTreeAge_w. Qed.
Theorem C48_BuildingConnection : saves_lax 9 BuildingConnection_deep BuildingConnection_to_bytes. Proof. apply saves_lax_of, BuildingConnection_w. Qed.
Theorem C48_UnitConnection : saves_lax 9 UnitConnection_deep UnitConnection_to_bytes. Proof. apply saves_lax_of, UnitConnection_w. Qed.
Theorem C48_ResearchConnection : saves_lax 9 ResearchConnection_deep ResearchConnection_to_bytes. Proof. apply saves_lax_of, ResearchConnection_w. Qed.
Theorem C48_TechTree : saves_lax 12 TechTree_deep TechTree_to_bytes. Proof. apply saves_lax_of, TechTree_w. Qed.

(** ** Cases *)
Lemma f2_impl {A B} (P Q : A -> B -> Prop) l m : (forall a b, P a b -> Q a b) -> Forall2 P l m -> Forall2 Q l m.
Proof. intros H F. induction F; constructor; auto. Qed.
(** Every record can be built in a heap. *)
Lemma build lax d : forall h, exists h' v, later h h' /\ stands lax h' d v.
Proof.
  induction d as [|z|x|s|b|b|n|c|c m|f|r m IHr|l IH|l IH|c fs IH|x] using deep_rect'; intros h.
  - exists h, PNone. split; [apply later_refl|reflexivity].
  - exists h, (PInt z). split; [apply later_refl|reflexivity].
  - exists h, (PFloat x). split; [apply later_refl|left; reflexivity].
  - exists h, (PStr s). split; [apply later_refl|reflexivity].
  - exists h, (PBool b). split; [apply later_refl|reflexivity].
  - exists h, (PBytes b). split; [apply later_refl|reflexivity].
  - exists h, (PRange n). split; [apply later_refl|reflexivity].
  - exists h, (PClass c). split; [apply later_refl|reflexivity].
  - exists h, (PMember c m). split; [apply later_refl|reflexivity].
  - exists h, (PFun f). split; [apply later_refl|reflexivity].
  - destruct (IHr h) as (h' & v & L & S). exists h', (PMeth v m). split; [exact L|]. exists v. split; [reflexivity|exact S].
  - assert (B : exists h' vs, later h h' /\ Forall2 (stands lax h') l vs).
    { clear -IH. revert h. induction IH as [|d l D IH IHl]; intros h; [exists h, []; split; [apply later_refl|constructor]|].
      destruct (IHl h) as (h1 & vs & L1 & F). destruct (D h1) as (h2 & v & L2 & S). exists h2, (v :: vs). split; [exact (later_trans _ _ _ L1 L2)|].
      constructor; [exact S|]. clear -F L2. induction F; constructor; [eapply stands_later; eassumption|assumption]. }
    destruct B as (h' & vs & L & F). exists (h' ++ [OList vs]), (PRef (List.length h')). split; [eapply later_trans; [exact L|apply later_app]|].
    apply stands_list. exists vs. split; [right; exists (List.length h'); split; [reflexivity|]; rewrite nth_error_app2, Nat.sub_diag by lia; reflexivity|].
    eapply f2_impl; [|exact F]. intros a b. apply stands_later, later_app.
  - assert (B : exists h' vs, later h h' /\ Forall2 (stands lax h') l vs).
    { clear -IH. revert h. induction IH as [|d l D IH IHl]; intros h; [exists h, []; split; [apply later_refl|constructor]|].
      destruct (IHl h) as (h1 & vs & L1 & F). destruct (D h1) as (h2 & v & L2 & S). exists h2, (v :: vs). split; [exact (later_trans _ _ _ L1 L2)|].
      constructor; [exact S|]. clear -F L2. induction F; constructor; [eapply stands_later; eassumption|assumption]. }
    destruct B as (h' & vs & L & F). exists h', (PTuple vs). split; [exact L|]. apply stands_tuple. exists vs. split; [left; reflexivity|exact F].
  - assert (B : exists h' vs, later h h' /\ Forall2 (field_stands lax h') fs vs).
    { clear -IH. revert h. induction IH as [|[x d] l D IH IHl]; intros h; [exists h, []; split; [apply later_refl|constructor]|].
      destruct (IHl h) as (h1 & vs & L1 & F). destruct (D h1) as (h2 & v & L2 & S). exists h2, ((x, v) :: vs). split; [exact (later_trans _ _ _ L1 L2)|].
      constructor; [split; [reflexivity|exact S]|]. clear -F L2. induction F as [|? ? ? ? [E S]]; constructor; [split; [exact E|eapply stands_later; eassumption]|assumption]. }
    destruct B as (h' & vs & L & F). exists (h' ++ [OInst c vs]), (PRef (List.length h')). split; [eapply later_trans; [exact L|apply later_app]|].
    apply stands_obj. exists (List.length h'), vs. split; [reflexivity|]. split; [rewrite nth_error_app2, Nat.sub_diag by lia; reflexivity|].
    eapply f2_impl; [|exact F]. intros a b [E S]. split; [exact E|]. revert S. apply stands_later, later_app.
  - exists h, (PFloat x). split; [apply later_refl|left; left; reflexivity].
Qed.
Theorem C46_objects : forall x h, exists h' v, later h h' /\ stands false h' (DatFile_deep x) v.
Proof. intros x h. apply build. Qed.

Definition all_of_this_file := (C46_DatFile, C46_covered, C46_objects, C47_unchanged, C47_twice, C48_DatFile, C46_SoundItem, C46_Sound, C46_PlayerColour, C46_EffectCommand, C46_Effect, C46_TerrainPassGraphic, C46_TerrainRestriction, C46_GraphicDelta, C46_GraphicAngleSound, C46_Graphic, C46_FrameData, C46_Terrain, C46_TileSize, C46_TerrainBlock, C46_MapUnit, C46_MapTerrain, C46_MapLand, C46_MapElevation, C46_MapInfo, C46_RandomMaps, C46_Task, C46_UnitHeaders, C46_ResourceStorage, C46_DamageGraphic, C46_DeadFish, C46_Bird, C46_AttackOrArmor, C46_Type50, C46_Projectile, C46_ResourceCost, C46_TrainLocation, C46_Creatable, C46_BuildingAnnex, C46_Building, C46_Unit, C46_Civ, C46_ResearchResourceCost, C46_ResearchLocation, C46_Tech, C46_Common, C46_TechTreeAge, C46_BuildingConnection, C46_UnitConnection, C46_ResearchConnection, C46_TechTree, C48_SoundItem, C48_Sound, C48_PlayerColour, C48_EffectCommand, C48_Effect, C48_TerrainPassGraphic, C48_TerrainRestriction, C48_GraphicDelta, C48_GraphicAngleSound, C48_Graphic, C48_FrameData, C48_Terrain, C48_TileSize, C48_TerrainBlock, C48_MapUnit, C48_MapTerrain, C48_MapLand, C48_MapElevation, C48_MapInfo, C48_RandomMaps, C48_Task, C48_UnitHeaders, C48_ResourceStorage, C48_DamageGraphic, C48_DeadFish, C48_Bird, C48_AttackOrArmor, C48_Type50, C48_Projectile, C48_ResourceCost, C48_TrainLocation, C48_Creatable, C48_BuildingAnnex, C48_Building, C48_Unit, C48_Civ, C48_ResearchResourceCost, C48_ResearchLocation, C48_Tech, C48_Common, C48_TechTreeAge, C48_BuildingConnection, C48_UnitConnection, C48_ResearchConnection, C48_TechTree).
Print Assumptions all_of_this_file.
