(** * C23 (out-of-range values never wrap) and C24 (counts that do not fit).
    Generated by tools/gen_range.py. *)
From Verif Require Import Base PyInt PyFloat PyStr PyStruct DataTypes Versions Common Wire Layout Shape Flat Spec Update Stored.
From Verif Require Import M_Sound M_PlayerColour M_Effect M_TerrainRestriction M_Graphic
  M_TerrainBlock M_RandomMaps M_Task M_UnitHeaders M_Unit M_Civ M_Tech M_TechTree M_DatFile.
From Verif Require Import Codec Theory FlatP Sample Props_Classes Props_Size Props_Slots.
From Coq Require Import String ZifyBool.
Open Scope Z_scope.
Local Open Scope list_scope.
Local Notation length := List.length.

(** An integer cell whose value is in the range of its width; other cells are not concerned. *)
Definition in_range (c : cell) : Prop :=
  match c with
  | U8 z => 0 <= z <= 255 | I8 z => -128 <= z <= 127
  | U16 z => 0 <= z <= 65535 | I16 z => -32768 <= z <= 32767
  | U32 z => 0 <= z <= 4294967295 | I32 z => -2147483648 <= z <= 2147483647
  | _ => True
  end.
(** The bytes hold exactly the value of the integer cell: so many bytes, and read back as an
    unsigned or two's complement little-endian integer they give the value. *)
Definition holds (c : cell) (b : bytes) : Prop :=
  match c with
  | U8 z => length b = 1%nat /\ int_from_bytes b false = z
  | I8 z => length b = 1%nat /\ int_from_bytes b true = z
  | U16 z => length b = 2%nat /\ int_from_bytes b false = z
  | I16 z => length b = 2%nat /\ int_from_bytes b true = z
  | U32 z => length b = 4%nat /\ int_from_bytes b false = z
  | I32 z => length b = 4%nat /\ int_from_bytes b true = z
  | _ => True
  end.
Lemma int_cell_stored mk n s z b : int_cell mk n s -> cell_bytes (mk z) = Some b ->
  length b = n /\ int_from_bytes b s = z /\ int_fits n s z = true.
Proof.
  intros H E. rewrite (int_cell_bytes mk n s z H) in E. destruct (int_fits n s z) eqn:F; [|discriminate].
  injection E as <-. split; [apply le_bytes_length|]. split; [apply (int_roundtrip n s z F)|reflexivity].
Qed.
Lemma cell_stored c b : cell_bytes c = Some b -> in_range c /\ holds c b.
Proof.
  destruct c; intros E; try (split; exact I).
  - destruct (int_cell_stored U8 1 false z b ic_u8 E) as (L & V & F). rewrite <- fits_u8 in F. apply within_spec in F. split; [exact F|split; assumption].
  - destruct (int_cell_stored I8 1 true z b ic_i8 E) as (L & V & F). rewrite <- fits_i8 in F. apply within_spec in F. split; [exact F|split; assumption].
  - destruct (int_cell_stored U16 2 false z b ic_u16 E) as (L & V & F). rewrite <- fits_u16 in F. apply within_spec in F. split; [exact F|split; assumption].
  - destruct (int_cell_stored I16 2 true z b ic_i16 E) as (L & V & F). rewrite <- fits_i16 in F. apply within_spec in F. split; [exact F|split; assumption].
  - destruct (int_cell_stored U32 4 false z b ic_u32 E) as (L & V & F). rewrite <- fits_u32 in F. apply within_spec in F. split; [exact F|split; assumption].
  - destruct (int_cell_stored I32 4 true z b ic_i32 E) as (L & V & F). rewrite <- fits_i32 in F. apply within_spec in F. split; [exact F|split; assumption].
Qed.
Lemma encode_split pre c post bs : encode (pre ++ c :: post) = Some bs ->
  exists a b d, encode pre = Some a /\ cell_bytes c = Some b /\ encode post = Some d /\ bs = a ++ b ++ d.
Proof.
  rewrite encode_app, encode_cons. destruct (encode pre) as [a|]; [|discriminate]. destruct (cell_bytes c) as [b|]; [|discriminate].
  destruct (encode post) as [d|]; [|discriminate]. intros [= <-]. exists a, b, d. auto.
Qed.
(** A record's writer returns only if every integer of its table is in range, and then every
    integer is stored as itself at its place in the table; otherwise it raises. *)
Definition range_checked {A} (tb : A -> Version -> res bytes) (lay : Version -> A -> list cell) : Prop :=
  forall v x,
    (forall bs pre c post, tb x v = Ok bs -> lay v x = pre ++ c :: post ->
      in_range c /\ exists a b d, bs = a ++ b ++ d /\ encode pre = Some a /\ holds c b) /\
    (forall c, In c (lay v x) -> ~ in_range c -> exists e, tb x v = Err e).
Lemma table_range {A} (tb : A -> Version -> res bytes) lay : follows_table tb lay always -> range_checked tb lay.
Proof.
  intros H v x. specialize (H v x I). split.
  - intros bs pre c post E L. rewrite E, L in H. cbn [returned] in H. symmetry in H.
    apply encode_split in H as (a & b & d & Ea & Eb & _ & ->). apply cell_stored in Eb as [R S]. split; [exact R|]. eauto 6.
  - intros c Hc N. destruct (tb x v) as [bs|e]; [|eauto]. exfalso. cbn [returned] in H. symmetry in H.
    apply in_split in Hc as (pre & post & L). rewrite L in H. apply encode_split in H as (a & b & d & _ & Eb & _).
    apply cell_stored in Eb as [R _]. contradiction.
Qed.
Lemma range_in {A} {tb : A -> Version -> res bytes} {lay v x bs c} : range_checked tb lay -> tb x v = Ok bs -> In c (lay v x) -> in_range c.
Proof.
  intros H E I. destruct (H v x) as [H1 _]. apply in_split in I as (pre & post & L). exact (proj1 (H1 bs pre c post E L)).
Qed.
Lemma count_u8 {A B} {tb : A -> Version -> res bytes} {lay v x bs} : range_checked tb lay -> tb x v = Ok bs ->
  forall l : list B, In (U8 (count l)) (lay v x) -> (length l <= Z.to_nat 255)%nat.
Proof. intros H E l I. apply (range_in H E) in I. cbn in I. unfold count in I. lia. Qed.
Lemma count_i16 {A B} {tb : A -> Version -> res bytes} {lay v x bs} : range_checked tb lay -> tb x v = Ok bs ->
  forall l : list B, In (I16 (count l)) (lay v x) -> (length l <= Z.to_nat 32767)%nat.
Proof. intros H E l I. apply (range_in H E) in I. cbn in I. unfold count in I. lia. Qed.
Lemma count_u32 {A B} {tb : A -> Version -> res bytes} {lay v x bs} : range_checked tb lay -> tb x v = Ok bs ->
  forall l : list B, In (U32 (count l)) (lay v x) -> (length l <= Z.to_nat 4294967295)%nat.
Proof. intros H E l I. apply (range_in H E) in I. cbn in I. unfold count in I. lia. Qed.
Ltac in_cells := unfold guard; repeat match goal with |- context [if ?c then _ else _] => destruct c end; rewrite ?in_app_iff; cbn [In]; tauto.

(** ** C23 *)
Theorem C23_SoundItem : range_checked SoundItem_to_bytes SoundItem_layout.
Proof. apply table_range, C07_SoundItem. Qed.
Theorem C23_Sound : range_checked Sound_to_bytes Sound_layout.
Proof. apply table_range, C07_Sound. Qed.
Theorem C23_PlayerColour : range_checked PlayerColour_to_bytes PlayerColour_layout.
Proof. apply table_range, C07_PlayerColour. Qed.
Theorem C23_EffectCommand : range_checked EffectCommand_to_bytes EffectCommand_layout.
Proof. apply table_range, C07_EffectCommand. Qed.
Theorem C23_Effect : range_checked Effect_to_bytes Effect_layout.
Proof. apply table_range, C07_Effect. Qed.
Theorem C23_TerrainPassGraphic : range_checked TerrainPassGraphic_to_bytes TerrainPassGraphic_layout.
Proof. apply table_range, C07_TerrainPassGraphic. Qed.
Theorem C23_GraphicDelta : range_checked GraphicDelta_to_bytes GraphicDelta_layout.
Proof. apply table_range, C07_GraphicDelta. Qed.
Theorem C23_GraphicAngleSound : range_checked GraphicAngleSound_to_bytes GraphicAngleSound_layout.
Proof. apply table_range, C07_GraphicAngleSound. Qed.
Theorem C23_Graphic : range_checked Graphic_to_bytes Graphic_layout.
Proof. apply table_range, C07_Graphic. Qed.
Theorem C23_FrameData : range_checked FrameData_to_bytes FrameData_layout.
Proof. apply table_range, C07_FrameData. Qed.
Theorem C23_Terrain : range_checked Terrain_to_bytes Terrain_layout.
Proof. apply table_range, C07_Terrain. Qed.
Theorem C23_TileSize : range_checked TileSize_to_bytes TileSize_layout.
Proof. apply table_range, C07_TileSize. Qed.
Theorem C23_TerrainBlock : range_checked TerrainBlock_to_bytes TerrainBlock_layout.
Proof. apply table_range, C07_TerrainBlock. Qed.
Theorem C23_MapUnit : range_checked MapUnit_to_bytes MapUnit_layout.
Proof. apply table_range, C07_MapUnit. Qed.
Theorem C23_MapTerrain : range_checked MapTerrain_to_bytes MapTerrain_layout.
Proof. apply table_range, C07_MapTerrain. Qed.
Theorem C23_MapLand : range_checked MapLand_to_bytes MapLand_layout.
Proof. apply table_range, C07_MapLand. Qed.
Theorem C23_MapElevation : range_checked MapElevation_to_bytes MapElevation_layout.
Proof. apply table_range, C07_MapElevation. Qed.
Theorem C23_MapInfo : range_checked MapInfo_to_bytes MapInfo_layout.
Proof. apply table_range, C07_MapInfo. Qed.
Theorem C23_RandomMaps : range_checked RandomMaps_to_bytes RandomMaps_layout.
Proof. apply table_range, C07_RandomMaps. Qed.
Theorem C23_Task : range_checked Task_to_bytes Task_layout.
Proof. apply table_range, C07_Task. Qed.
Theorem C23_UnitHeaders : range_checked UnitHeaders_to_bytes UnitHeaders_layout.
Proof. apply table_range, C07_UnitHeaders. Qed.
Theorem C23_ResourceStorage : range_checked ResourceStorage_to_bytes ResourceStorage_layout.
Proof. apply table_range, C07_ResourceStorage. Qed.
Theorem C23_DamageGraphic : range_checked DamageGraphic_to_bytes DamageGraphic_layout.
Proof. apply table_range, C07_DamageGraphic. Qed.
Theorem C23_DeadFish : range_checked DeadFish_to_bytes DeadFish_layout.
Proof. apply table_range, C07_DeadFish. Qed.
Theorem C23_Bird : range_checked Bird_to_bytes Bird_layout.
Proof. apply table_range, C07_Bird. Qed.
Theorem C23_AttackOrArmor : range_checked AttackOrArmor_to_bytes AttackOrArmor_layout.
Proof. apply table_range, C07_AttackOrArmor. Qed.
Theorem C23_Type50 : range_checked Type50_to_bytes Type50_layout.
Proof. apply table_range, C07_Type50. Qed.
Theorem C23_Projectile : range_checked Projectile_to_bytes Projectile_layout.
Proof. apply table_range, C07_Projectile. Qed.
Theorem C23_ResourceCost : range_checked ResourceCost_to_bytes ResourceCost_layout.
Proof. apply table_range, C07_ResourceCost. Qed.
Theorem C23_TrainLocation : range_checked TrainLocation_to_bytes TrainLocation_layout.
Proof. apply table_range, C07_TrainLocation. Qed.
Theorem C23_Creatable : range_checked Creatable_to_bytes Creatable_layout.
Proof. apply table_range, C07_Creatable. Qed.
Theorem C23_BuildingAnnex : range_checked BuildingAnnex_to_bytes BuildingAnnex_layout.
Proof. apply table_range, C07_BuildingAnnex. Qed.
Theorem C23_Building : range_checked Building_to_bytes Building_layout.
Proof. apply table_range, C07_Building. Qed.
Theorem C23_Unit : range_checked Unit_to_bytes Unit_flat_layout.
Proof. apply table_range, C07_Unit_flat. Qed.
Theorem C23_Civ : range_checked Civ_to_bytes Civ_flat_layout.
Proof. apply table_range, C07_Civ_flat. Qed.
Theorem C23_ResearchResourceCost : range_checked ResearchResourceCost_to_bytes ResearchResourceCost_layout.
Proof. apply table_range, C07_ResearchResourceCost. Qed.
Theorem C23_ResearchLocation : range_checked ResearchLocation_to_bytes ResearchLocation_layout.
Proof. apply table_range, C07_ResearchLocation. Qed.
Theorem C23_Tech : range_checked Tech_to_bytes Tech_layout.
Proof. apply table_range, C07_Tech. Qed.
Theorem C23_Common : range_checked Common_to_bytes Common_layout.
Proof. apply table_range, C07_Common. Qed.
Theorem C23_TechTreeAge : range_checked TechTreeAge_to_bytes TechTreeAge_layout.
Proof. apply table_range, C07_TechTreeAge. Qed.
Theorem C23_BuildingConnection : range_checked BuildingConnection_to_bytes BuildingConnection_layout.
Proof. apply table_range, C07_BuildingConnection. Qed.
Theorem C23_UnitConnection : range_checked UnitConnection_to_bytes UnitConnection_layout.
Proof. apply table_range, C07_UnitConnection. Qed.
Theorem C23_ResearchConnection : range_checked ResearchConnection_to_bytes ResearchConnection_layout.
Proof. apply table_range, C07_ResearchConnection. Qed.
Theorem C23_TechTree : range_checked TechTree_to_bytes TechTree_layout.
Proof. apply table_range, C07_TechTree. Qed.
Theorem C23_TerrainRestriction : range_checked TerrainRestriction_to_bytes TerrainRestriction_layout.
Proof. apply table_range, C07_TerrainRestriction. Qed.

(** ** C24 *)
Theorem C24_Sound : forall v x bs, Sound_to_bytes x v = Ok bs ->
  (length (Sound_items x) <= Z.to_nat 32767)%nat.
Proof. intros v x bs E. apply (count_i16 C23_Sound E); unfold Sound_layout; in_cells. Qed.
Theorem C24_Effect : forall v x bs, Effect_to_bytes x v = Ok bs ->
  (length (Effect_effect_commands x) <= Z.to_nat 32767)%nat.
Proof. intros v x bs E. apply (count_i16 C23_Effect E); unfold Effect_layout; in_cells. Qed.
Theorem C24_Graphic : forall v x bs, Graphic_to_bytes x v = Ok bs ->
  (length (Graphic_deltas x) <= Z.to_nat 32767)%nat.
Proof. intros v x bs E. apply (count_i16 C23_Graphic E); unfold Graphic_layout; in_cells. Qed.
Theorem C24_RandomMaps : forall v x bs, RandomMaps_to_bytes x v = Ok bs ->
  (length (RandomMaps_map_info_1 x) <= Z.to_nat 4294967295)%nat.
Proof. intros v x bs E. apply (count_u32 C23_RandomMaps E). pose proof (C07_RandomMaps v x I) as H. rewrite E in H. cbn [returned] in H.
  unfold RandomMaps_layout, guard in *. destruct (_ =? _); [cbn [In app]; tauto|discriminate H]. Qed.
Theorem C24_Bird : forall v x bs, Bird_to_bytes x v = Ok bs ->
  (since 78 v = true -> (length (Bird_drop_sites x) <= Z.to_nat 32767)%nat) /\
  (length (Bird_tasks x) <= Z.to_nat 32767)%nat.
Proof. intros v x bs E. split; [intros V; apply (count_i16 C23_Bird E); unfold Bird_layout; rewrite ?V; in_cells|]. apply (count_i16 C23_Bird E); unfold Bird_layout; in_cells. Qed.
Theorem C24_Type50 : forall v x bs, Type50_to_bytes x v = Ok bs ->
  (length (Type50_attacks x) <= Z.to_nat 32767)%nat /\
  (length (Type50_armours x) <= Z.to_nat 32767)%nat.
Proof. intros v x bs E. split; [apply (count_i16 C23_Type50 E); unfold Type50_layout; in_cells|]. apply (count_i16 C23_Type50 E); unfold Type50_layout; in_cells. Qed.
Theorem C24_Creatable : forall v x bs, Creatable_to_bytes x v = Ok bs ->
  (since 88 v = true -> (length (Creatable_train_locations x) <= Z.to_nat 32767)%nat).
Proof. intros v x bs E. intros V; apply (count_i16 C23_Creatable E); unfold Creatable_layout; rewrite ?V; in_cells. Qed.
Theorem C24_Unit : forall v x bs, Unit_to_bytes x v = Ok bs ->
  (length (Unit_damage_graphics x) <= Z.to_nat 255)%nat.
Proof. intros v x bs E. apply (count_u8 C23_Unit E); unfold Unit_flat_layout; in_cells. Qed.
Theorem C24_Civ : forall v x bs, Civ_to_bytes x v = Ok bs ->
  (length (Civ_resources x) <= Z.to_nat 32767)%nat /\
  (length (Civ_units x) <= Z.to_nat 32767)%nat.
Proof. intros v x bs E. split; [apply (count_i16 C23_Civ E); unfold Civ_flat_layout; in_cells|]. apply (count_i16 C23_Civ E); unfold Civ_flat_layout; in_cells. Qed.
Theorem C24_Tech : forall v x bs, Tech_to_bytes x v = Ok bs ->
  (since 88 v = true -> (length (Tech_research_locations x) <= Z.to_nat 32767)%nat).
Proof. intros v x bs E. intros V; apply (count_i16 C23_Tech E); unfold Tech_layout; rewrite ?V; in_cells. Qed.
Theorem C24_TechTreeAge : forall v x bs, TechTreeAge_to_bytes x v = Ok bs ->
  (length (TechTreeAge_buildings x) <= Z.to_nat 255)%nat /\
  (length (TechTreeAge_units x) <= Z.to_nat 255)%nat /\
  (length (TechTreeAge_techs x) <= Z.to_nat 255)%nat.
Proof. intros v x bs E. split; [apply (count_u8 C23_TechTreeAge E); unfold TechTreeAge_layout; in_cells|]. split; [apply (count_u8 C23_TechTreeAge E); unfold TechTreeAge_layout; in_cells|]. apply (count_u8 C23_TechTreeAge E); unfold TechTreeAge_layout; in_cells. Qed.
Theorem C24_BuildingConnection : forall v x bs, BuildingConnection_to_bytes x v = Ok bs ->
  (length (BuildingConnection_buildings x) <= Z.to_nat 255)%nat /\
  (length (BuildingConnection_units x) <= Z.to_nat 255)%nat /\
  (length (BuildingConnection_techs x) <= Z.to_nat 255)%nat.
Proof. intros v x bs E. split; [apply (count_u8 C23_BuildingConnection E); unfold BuildingConnection_layout; in_cells|]. split; [apply (count_u8 C23_BuildingConnection E); unfold BuildingConnection_layout; in_cells|]. apply (count_u8 C23_BuildingConnection E); unfold BuildingConnection_layout; in_cells. Qed.
Theorem C24_UnitConnection : forall v x bs, UnitConnection_to_bytes x v = Ok bs ->
  (length (UnitConnection_units x) <= Z.to_nat 255)%nat.
Proof. intros v x bs E. apply (count_u8 C23_UnitConnection E); unfold UnitConnection_layout; in_cells. Qed.
Theorem C24_ResearchConnection : forall v x bs, ResearchConnection_to_bytes x v = Ok bs ->
  (length (ResearchConnection_buildings x) <= Z.to_nat 255)%nat /\
  (length (ResearchConnection_units x) <= Z.to_nat 255)%nat /\
  (length (ResearchConnection_techs x) <= Z.to_nat 255)%nat.
Proof. intros v x bs E. split; [apply (count_u8 C23_ResearchConnection E); unfold ResearchConnection_layout; in_cells|]. split; [apply (count_u8 C23_ResearchConnection E); unfold ResearchConnection_layout; in_cells|]. apply (count_u8 C23_ResearchConnection E); unfold ResearchConnection_layout; in_cells. Qed.
Theorem C24_TechTree : forall v x bs, TechTree_to_bytes x v = Ok bs ->
  (length (TechTree_tech_tree_ages x) <= Z.to_nat 255)%nat /\
  (length (TechTree_building_connections x) <= Z.to_nat 255)%nat /\
  (length (TechTree_unit_connections x) <= Z.to_nat 255)%nat /\
  (length (TechTree_research_connections x) <= Z.to_nat 255)%nat.
Proof. intros v x bs E. split; [apply (count_u8 C23_TechTree E); unfold TechTree_layout; in_cells|]. split; [apply (count_u8 C23_TechTree E); unfold TechTree_layout; in_cells|]. split; [apply (count_u8 C23_TechTree E); unfold TechTree_layout; in_cells|]. apply (count_u8 C23_TechTree E); unfold TechTree_layout; in_cells. Qed.
Theorem C24_UnitHeaders : forall v x bs tasks, UnitHeaders_to_bytes x v = Ok bs -> UnitHeaders_exists_ x <> 0 ->
  UnitHeaders_task_list x = Some tasks -> (length tasks <= Z.to_nat 32767)%nat.
Proof.
  intros v x bs tasks E N T. apply (count_i16 C23_UnitHeaders E). unfold UnitHeaders_layout. rewrite T.
  replace (UnitHeaders_exists_ x =? 0) with false by (symmetry; apply Z.eqb_neq, N). cbn [In app]. tauto.
Qed.

(** ** The whole file *)
Lemma file_cells x w bs : DatFile_to_bytes x w = Ok bs -> exists v, file_version (DatFile_version x) = Some v /\
  DatFile_flat_layout x = [Padded 8 (DatFile_version x)] ++ DatFile_flat_body v x.
Proof.
  intros E. pose proof (C07_DatFile_flat x w) as H. rewrite E in H. cbn [returned] in H. unfold DatFile_flat_layout in *.
  destruct (file_version (DatFile_version x)) as [v|]; [|discriminate H]. exists v. split; [reflexivity|].
  unfold guard in *. destruct (_ && _); [reflexivity|discriminate H].
Qed.
Theorem C23_DatFile : range_checked DatFile_to_bytes (fun _ => DatFile_flat_layout).
Proof. apply table_range. intros w x _. apply C07_DatFile_flat. Qed.
(** A few values by name, as a reader of the README meets them: a saved file holds only values
    that fit ... *)
Theorem C23_file_values : forall x w bs, DatFile_to_bytes x w = Ok bs ->
  (forall t c, In t (DatFile_techs x) -> In c (Tech_resource_costs t) ->
     -32768 <= ResearchResourceCost_type c <= 32767 /\ -32768 <= ResearchResourceCost_amount c <= 32767
     /\ 0 <= ResearchResourceCost_flag c <= 255) /\
  (forall c u, In c (DatFile_civs x) -> In (Some u) (Civ_units c) ->
     -128 <= Unit_type u <= 127 /\ -32768 <= Unit_copy_id u <= 32767 /\ -32768 <= Unit_base_id u <= 32767
     /\ 0 <= Unit_convert_terrain u <= 255) /\
  (forall z, In z [DatFile_time_slice x; DatFile_unit_kill_rate x; DatFile_unit_kill_total x; DatFile_unit_hit_point_rate x;
                   DatFile_unit_hit_point_total x; DatFile_razing_kill_rate x; DatFile_razing_kill_total x] ->
     -2147483648 <= z <= 2147483647).
Proof.
  intros x w bs E. destruct (file_cells x w bs E) as (v & V & L).
  assert (R : forall c, In c (DatFile_flat_body v x) -> in_range c).
  { intros c Hc. apply (range_in C23_DatFile E). rewrite L. apply in_or_app. right. exact Hc. }
  clear L. unfold DatFile_flat_body in R. split; [|split].
  - intros t c Ht Hc. assert (K : forall k, In k (ResearchResourceCost_layout v c) -> in_range k).
    { intros k Hk. apply R. do 20 (apply in_or_app; right). apply in_or_app; left. apply in_flat_map. exists t. split; [exact Ht|].
      unfold Tech_layout. destruct (since 88 v); apply in_or_app; right; apply in_or_app; left; apply in_flat_map; exists c; auto. }
    unfold ResearchResourceCost_layout in K. split; [|split].
    + apply (K (I16 _)). left; reflexivity.
    + apply (K (I16 _)). right; left; reflexivity.
    + apply (K (U8 _)). right; right; left; reflexivity.
  - intros c u Hc Hu. assert (K : forall k, In k (Unit_flat_layout v u) -> in_range k).
    { intros k Hk. apply R. do 18 (apply in_or_app; right). apply in_or_app; left. apply in_flat_map. exists c. split; [exact Hc|].
      unfold Civ_flat_layout. do 4 (apply in_or_app; right). unfold slots. apply in_flat_map. exists (Some u). auto. }
    unfold Unit_flat_layout in K.
    assert (K4 : forall k, In k [I16 (Unit_selection_sound u); I16 (Unit_dying_sound u); I32 (Unit_wwise_train_sound_id u);
      I32 (Unit_wwise_damage_sound_id u); I32 (Unit_wwise_selection_sound_id u);
      I32 (Unit_wwise_dying_sound_id u); U8 (Unit_old_attack_reaction u);
      U8 (Unit_convert_terrain u); Text (Unit_name u); I16 (Unit_copy_id u); I16 (Unit_base_id u)] -> in_range k).
    { intros k Hk. apply K. do 4 (apply in_or_app; right). apply in_or_app; left. exact Hk. }
    split; [|split; [|split]].
    + apply (K (I8 _)). apply in_or_app; left. unfold Unit_items, Unit_values. left; reflexivity.
    + apply (K4 (I16 _)). cbn [In]. tauto.
    + apply (K4 (I16 _)). cbn [In]. tauto.
    + apply (K4 (U8 _)). cbn [In]. tauto.
  - intros z Hz. apply (R (I32 z)). do 21 (apply in_or_app; right). apply in_or_app; left. cbn [In] in *.
    intuition (subst; auto 10).
Qed.
(** ... so that setting the amount of a research cost to a value outside 16 bits is an error. *)
Theorem C23_cost_too_large : forall x t c w, In t (DatFile_techs x) -> In c (Tech_resource_costs t) ->
  ~ (-32768 <= ResearchResourceCost_amount c <= 32767) -> exists e, DatFile_to_bytes x w = Err e.
Proof.
  intros x t c w Ht Hc N. destruct (DatFile_to_bytes x w) as [bs|e] eqn:E; [|eauto]. exfalso. apply N.
  apply (C23_file_values x w bs E) with t; assumption.
Qed.

(** No list of a saved file is longer than its count field can say. *)
Theorem C24_DatFile : forall x w bs, DatFile_to_bytes x w = Ok bs ->
  (length (DatFile_terrain_restrictions x) <= Z.to_nat 32767)%nat /\
  (length (DatFile_player_colours x) <= Z.to_nat 32767)%nat /\
  (length (DatFile_sounds x) <= Z.to_nat 32767)%nat /\
  (length (DatFile_graphics x) <= Z.to_nat 32767)%nat /\
  (length (DatFile_effects x) <= Z.to_nat 2147483647)%nat /\
  (length (DatFile_unit_headers x) <= Z.to_nat 2147483647)%nat /\
  (length (DatFile_civs x) <= Z.to_nat 32767)%nat /\
  (length (DatFile_techs x) <= Z.to_nat 32767)%nat /\
  (forall r rest, DatFile_terrain_restrictions x = r :: rest ->
     (length (TerrainRestriction_passable_buildable_dmg_multiplier r) <= Z.to_nat 32767)%nat).
Proof.
  intros x w bs E. destruct (file_cells x w bs E) as (v & V & L).
  assert (R : forall c, In c (DatFile_flat_body v x) -> in_range c).
  { intros c Hc. apply (range_in C23_DatFile E). rewrite L. apply in_or_app. right. exact Hc. }
  clear L. unfold DatFile_flat_body in R.
  assert (K16 : forall A (l : list A), in_range (I16 (count l)) -> (length l <= Z.to_nat 32767)%nat).
  { intros A l H. cbn in H. unfold count in H. lia. }
  assert (K32 : forall A (l : list A), in_range (I32 (count l)) -> (length l <= Z.to_nat 2147483647)%nat).
  { intros A l H. cbn in H. unfold count in H. lia. }
  split; [apply K16, R; left; reflexivity|].
  split; [apply K16, R; do 4 (apply in_or_app; right); left; reflexivity|].
  split; [apply K16, R; do 6 (apply in_or_app; right); left; reflexivity|].
  split; [apply K16, R; do 8 (apply in_or_app; right); left; reflexivity|].
  split; [apply K32, R; do 13 (apply in_or_app; right); left; reflexivity|].
  split; [apply K32, R; do 15 (apply in_or_app; right); left; reflexivity|].
  split; [apply K16, R; do 17 (apply in_or_app; right); left; reflexivity|].
  split; [apply K16, R; do 19 (apply in_or_app; right); left; reflexivity|].
  intros r rest Hr. apply K16. replace (count (TerrainRestriction_passable_buildable_dmg_multiplier r)) with (terrains_used x).
  - apply R. right. left. reflexivity.
  - unfold terrains_used. rewrite Hr. reflexivity.
Qed.
(** The records of a saved file obey the bounds above: for example no civilisation of a saved
    file has more than 32767 unit slots, and no unit more than 255 damage graphics. *)
Theorem C24_file_records : forall x w bs, DatFile_to_bytes x w = Ok bs ->
  (forall s, In s (DatFile_sounds x) -> (length (Sound_items s) <= Z.to_nat 32767)%nat) /\
  (forall g, In (Some g) (DatFile_graphics x) -> (length (Graphic_deltas g) <= Z.to_nat 32767)%nat) /\
  (forall e, In e (DatFile_effects x) -> (length (Effect_effect_commands e) <= Z.to_nat 32767)%nat) /\
  (forall c, In c (DatFile_civs x) -> (length (Civ_units c) <= Z.to_nat 32767)%nat /\ (length (Civ_resources c) <= Z.to_nat 32767)%nat /\
     forall u, In (Some u) (Civ_units c) -> (length (Unit_damage_graphics u) <= Z.to_nat 255)%nat) /\
  (length (TechTree_tech_tree_ages (DatFile_tech_tree x)) <= Z.to_nat 255)%nat.
Proof.
  intros x w bs E. destruct (C35_records x w bs E) as (v & _ & _ & _ & S & G & _ & _ & Ef & _ & Cv & _ & T & _).
  assert (P : forall A (tb : A -> Version -> res bytes) l a, encoded tb v l bs -> In a l -> exists b, tb a v = Ok b).
  { intros A tb l a (parts & F & _) Ha. clear - F Ha. induction F as [|y p l parts Hy F IH]; [destruct Ha|].
    destruct Ha as [->|Ha]; [eauto|apply IH, Ha]. }
  split; [|split; [|split; [|split]]].
  - intros s Hs. destruct (P _ _ _ _ S Hs) as (b & Hb). exact (C24_Sound v s b Hb).
  - intros g Hg. assert (Hg' : In g (flat_map opt_list (DatFile_graphics x))) by (apply in_flat_map; exists (Some g); cbn; auto).
    destruct (P _ _ _ _ G Hg') as (b & Hb). exact (C24_Graphic v g b Hb).
  - intros e He. destruct (P _ _ _ _ Ef He) as (b & Hb). exact (C24_Effect v e b Hb).
  - intros c Hc. destruct (P _ _ _ _ Cv Hc) as (b & Hb). destruct (C24_Civ v c b Hb) as (R1 & R2). split; [exact R2|]. split; [exact R1|].
    intros u Hu. destruct (C22_save_civ c v b Hb) as (pre & us & _ & W).
    assert (EU : encoded Unit_to_bytes v (flat_map opt_list (Civ_units c)) us).
    { apply slots_encoded. exists us. split; [exact W|apply contains_refl]. }
    destruct EU as (parts & F & _). assert (Hu' : In u (flat_map opt_list (Civ_units c))) by (apply in_flat_map; exists (Some u); cbn; auto).
    assert (X : exists b', Unit_to_bytes u v = Ok b').
    { clear - F Hu'. induction F as [|y p l parts Hy F IH]; [destruct Hu'|]. destruct Hu' as [->|Hu']; [eauto|apply IH, Hu']. }
    destruct X as (b' & Hb'). exact (C24_Unit v u b' Hb').
  - destruct (P _ _ _ _ T (or_introl eq_refl)) as (b & Hb). exact (proj1 (C24_TechTree v _ b Hb)).
Qed.

Example C23_case : forall v, v <> UNDEFINED -> exists bs, DatFile_to_bytes (sample v) UNDEFINED = Ok bs.
Proof. intros v H. destruct (dat_round_trip_bytes (sample v) (sample_wf v H)) as (bs & E & _). exists bs. exact E. Qed.
Example C23_case_cost : ResearchResourceCost_to_bytes {| ResearchResourceCost_type := 0; ResearchResourceCost_amount := 32768;
   ResearchResourceCost_flag := 0 |} VER_84 = Err OverflowError.
Proof. reflexivity. Qed.
Example C24_case : UnitConnection_to_bytes (with_UnitConnection_units (repeat 1 256) (sample_UnitConnection VER_84)) VER_84 = Err OverflowError
  /\ exists bs, UnitConnection_to_bytes (with_UnitConnection_units (repeat 1 255) (sample_UnitConnection VER_84)) VER_84 = Ok bs.
Proof. split; [vm_compute; reflexivity|]. eexists. vm_compute. reflexivity. Qed.
Definition all_of_this_file := (C23_SoundItem, C23_Sound, C23_PlayerColour, C23_EffectCommand, C23_Effect, C23_TerrainPassGraphic, C23_GraphicDelta, C23_GraphicAngleSound, C23_Graphic, C23_FrameData, C23_Terrain, C23_TileSize, C23_TerrainBlock, C23_MapUnit, C23_MapTerrain, C23_MapLand, C23_MapElevation, C23_MapInfo, C23_RandomMaps, C23_Task, C23_UnitHeaders, C23_ResourceStorage, C23_DamageGraphic, C23_DeadFish, C23_Bird, C23_AttackOrArmor, C23_Type50, C23_Projectile, C23_ResourceCost, C23_TrainLocation, C23_Creatable, C23_BuildingAnnex, C23_Building, C23_Unit, C23_Civ, C23_ResearchResourceCost, C23_ResearchLocation, C23_Tech, C23_Common, C23_TechTreeAge, C23_BuildingConnection, C23_UnitConnection, C23_ResearchConnection, C23_TechTree, C23_TerrainRestriction, C24_Sound, C24_Effect, C24_Graphic, C24_RandomMaps, C24_Bird, C24_Type50, C24_Creatable, C24_Unit, C24_Civ, C24_Tech, C24_TechTreeAge, C24_BuildingConnection, C24_UnitConnection, C24_ResearchConnection, C24_TechTree, C24_UnitHeaders, C23_DatFile, C23_file_values, C23_cost_too_large, C24_DatFile, C24_file_records).
Print Assumptions all_of_this_file.
