(** * Codecs of graphics, terrains, maps, tech tree. *)
From Verif Require Import Base PyInt PyFloat PyStr PyStruct DataTypes Versions Common Wire Layout Shape.
From Verif Require Import Codec CodecP CodecF CodecC P_Simple.
From Verif Require Import M_Graphic M_TerrainBlock M_RandomMaps M_TechTree M_TerrainRestriction.
From Coq Require Import ZifyBool.
Open Scope Z_scope.
Local Open Scope list_scope.

#[global] Instance Common_codec : Codec Common_to_bytes Common_from_bytes Common_layout Common_shape any.
Proof.
  split; intros.
  - exact I.
  - unfold Common_to_bytes, Common_layout. lay_solve.
  - destruct x. unfold Common_from_bytes, Common_layout; unfold Common_shape in H; cbn in *. destruct H. parses_solve.
  - unfold Reads, Common_from_bytes; repeat fwd_step. fwd_end Common_layout. unfold Common_shape; cbn. tauto.
Qed.

Lemma ok_u32_count {A} (l : list A) n : cell_ok (U32 n) = true -> count l = Z.max 0 n -> n = count l.
Proof. cbv [cell_ok]. rewrite within_spec. lia. Qed.
Ltac codec_shaped to_bytes from_bytes layout shape :=
  split; intros;
  [ exact I
  | unfold to_bytes, layout; lay_solve
  | match goal with H : _ |- Parses _ _ _ ?r => destruct r; unfold shape in H; unfold from_bytes, layout; cbn in H |- *;
      split_ands end; parses_solve
  | unfold Reads, from_bytes; repeat fwd_step; fwd_end layout; unfold shape; cbn; repeat match goal with |- _ /\ _ => split end; first [assumption | eapply ok_u32_count; eassumption | side_count] ].

#[global] Instance TechTreeAge_codec : Codec TechTreeAge_to_bytes TechTreeAge_from_bytes TechTreeAge_layout TechTreeAge_shape any.
Proof. codec_shaped TechTreeAge_to_bytes TechTreeAge_from_bytes TechTreeAge_layout TechTreeAge_shape. Qed.
#[global] Instance BuildingConnection_codec : Codec BuildingConnection_to_bytes BuildingConnection_from_bytes BuildingConnection_layout BuildingConnection_shape any.
Proof. codec_shaped BuildingConnection_to_bytes BuildingConnection_from_bytes BuildingConnection_layout BuildingConnection_shape. Qed.
#[global] Instance UnitConnection_codec : Codec UnitConnection_to_bytes UnitConnection_from_bytes UnitConnection_layout UnitConnection_shape any.
Proof. codec_shaped UnitConnection_to_bytes UnitConnection_from_bytes UnitConnection_layout UnitConnection_shape. Qed.
#[global] Instance ResearchConnection_codec : Codec ResearchConnection_to_bytes ResearchConnection_from_bytes ResearchConnection_layout ResearchConnection_shape any.
Proof. codec_shaped ResearchConnection_to_bytes ResearchConnection_from_bytes ResearchConnection_layout ResearchConnection_shape. Qed.
#[global] Instance TechTree_codec : Codec TechTree_to_bytes TechTree_from_bytes TechTree_layout TechTree_shape any.
Proof. codec_shaped TechTree_to_bytes TechTree_from_bytes TechTree_layout TechTree_shape. Qed.
#[global] Instance Terrain_codec : Codec Terrain_to_bytes Terrain_from_bytes Terrain_layout Terrain_shape any.
Proof. codec_shaped Terrain_to_bytes Terrain_from_bytes Terrain_layout Terrain_shape. Qed.
#[global] Instance TerrainBlock_codec : Codec TerrainBlock_to_bytes TerrainBlock_from_bytes TerrainBlock_layout TerrainBlock_shape any.
Proof. codec_shaped TerrainBlock_to_bytes TerrainBlock_from_bytes TerrainBlock_layout TerrainBlock_shape. Qed.
#[global] Instance MapInfo_codec : Codec MapInfo_to_bytes MapInfo_from_bytes MapInfo_layout MapInfo_shape any.
Proof. codec_shaped MapInfo_to_bytes MapInfo_from_bytes MapInfo_layout MapInfo_shape. Qed.

#[global] Instance RandomMaps_codec : Codec RandomMaps_to_bytes RandomMaps_from_bytes RandomMaps_layout RandomMaps_shape any.
Proof.
  split; intros.
  - exact I.
  - unfold RandomMaps_to_bytes, RandomMaps_layout, py_assert, len, count.
    destruct (Z.of_nat _ =? Z.of_nat _); [|reflexivity]. cbn [rbind guard]. lay_solve.
  - intros G. unfold RandomMaps_layout in *. apply cells_ok_guard in G. destruct G as [E G]. rewrite E.
    cbn [guard]. revert G. change (Parses v
      ([U32 (count (RandomMaps_map_info_1 x)); I32 (RandomMaps_random_maps_ptr x)]
       ++ flat_map (MapInfo_layout v) (RandomMaps_map_info_1 x)
       ++ flat_map (MapInfo_layout v) (RandomMaps_map_info_2 x)) RandomMaps_from_bytes x).
    destruct x; unfold RandomMaps_shape in H; cbn in *. split_ands.
    apply Z.eqb_eq in E. unfold RandomMaps_from_bytes. parses_solve.
  - unfold Reads, RandomMaps_from_bytes; repeat fwd_step. apply Fwd_ret. unfold RandomMaps_layout, RandomMaps_shape; cbn.
    assert (E : count l = count l0) by (drop_cells; lia). rewrite E, Z.eqb_refl. cbn [guard].
    fwd_end0. split; assumption.
Qed.

#[global] Instance Graphic_codec : Codec Graphic_to_bytes Graphic_from_bytes Graphic_layout Graphic_shape any.
Proof.
  split; intros.
  - exact I.
  - unfold Graphic_to_bytes, Graphic_layout. lay_solve.
  - destruct x; unfold Graphic_shape in H; unfold Graphic_from_bytes, Graphic_layout; cbn in *. split_ands.
    parses_solve.
    rewrite truthy_eqb. destruct (Graphic_angle_sounds_used =? 0); cbn [negb].
    + destruct Graphic_angle_sounds; [|discriminate]. apply Parses_ret_bind, Parses_ret.
    + eapply Parses_bind; [|apply Parses_ret]. eapply Parses_arr_kept; [|side_shape].
      unfold count in *. lia.
  - unfold Reads, Graphic_from_bytes; repeat fwd_step. rewrite truthy_eqb.
    match goal with |- context [negb ?b] => destruct b eqn:E end; cbn [negb]; repeat fwd_step; apply Fwd_ret; unfold Graphic_layout; cbn;
      fwd_end0; unfold Graphic_shape; cbn; rewrite E; split; assumption || reflexivity.
Qed.

(** [from_bytes_with_count] reads a fixed number of terrains. *)
Definition TerrainRestriction_count (n : Z) (x : TerrainRestriction) : Prop :=
  count (TerrainRestriction_passable_buildable_dmg_multiplier x) = Z.max 0 n.
Lemma TerrainRestriction_lay v x :
  Lay (TerrainRestriction_to_bytes x v) (TerrainRestriction_layout v x).
Proof.
  unfold TerrainRestriction_to_bytes, TerrainRestriction_layout, py_assert, len, count.
  destruct (Z.of_nat _ =? Z.of_nat _); [|reflexivity]. cbn [rbind guard]. lay_solve.
Qed.
Lemma TerrainRestriction_parses v n x : 0 <= n -> TerrainRestriction_count n x ->
  Parses v (TerrainRestriction_layout v x) (TerrainRestriction_from_bytes_with_count n) x.
Proof.
  intros Hn H G. unfold TerrainRestriction_layout in *. apply cells_ok_guard in G. destruct G as [E G]. rewrite E.
  cbn [guard]. revert G. change (Parses v
      (map F32 (TerrainRestriction_passable_buildable_dmg_multiplier x)
        ++ flat_map (TerrainPassGraphic_layout v) (TerrainRestriction_terrain_pass_graphics x))
      (TerrainRestriction_from_bytes_with_count n) x).
  destruct x; unfold TerrainRestriction_count in H; cbn in *. apply Z.eqb_eq in E.
  unfold TerrainRestriction_from_bytes_with_count. apply Parses_nil_r; norm_cells.
  eapply Parses_bind; [apply Parses_f32_array; unfold count in *; lia|].
  eapply Parses_bind; [eapply Parses_arr; [unfold count in *; lia|side_shape]|]. apply Parses_ret.
Qed.
Lemma TerrainRestriction_reads v n :
  Fwd v (TerrainRestriction_from_bytes_with_count n) (fun P x cs =>
    (P -> cs = TerrainRestriction_layout v x /\ 0 <= n) /\ cells_ok (TerrainRestriction_layout v x)
    /\ TerrainRestriction_count n x).
Proof.
  unfold TerrainRestriction_from_bytes_with_count. repeat fwd_step. apply Fwd_ret.
  unfold TerrainRestriction_layout; cbn.
  assert (E : count l = count l0) by (drop_cells; lia). rewrite E, Z.eqb_refl. cbn [guard].
  split; [|split].
  - use_quiet. split; [reflexivity|apply count_nonneg].
  - ok_cells.
  - unfold TerrainRestriction_count. cbn. assumption.
Qed.
