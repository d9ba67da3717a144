(** * Codec: the three facts about a record class, and their consequences; proof tactics. *)
From Verif Require Import Base PyInt PyFloat PyStr PyStruct DataTypes Versions Common Wire Layout Shape Codec CodecP CodecF.
From Coq Require Import String ZifyBool.
Open Scope Z_scope.
Local Open Scope list_scope.
Local Notation length := List.length.

(** Writer [tb], reader [fb], table [lay], shape [shape]; [arity] is what the writer needs
    in order to follow the table. *)
Class Codec {A : Type} (tb : A -> Version -> res bytes) (fb : rd A)
    (lay : Version -> A -> list cell) (shape : Version -> A -> Prop) (arity : A -> Prop) : Prop := {
  c_arity : forall v x, shape v x -> arity x;
  c_lay : forall v x, arity x -> Lay (tb x v) (lay v x);
  c_parses : forall v x, shape v x -> Parses v (lay v x) fb x;
  c_reads : forall v, Reads v fb (lay v) (shape v) }.

Definition any {A} (_ : A) : Prop := True.
Lemma Forall_any {A} (l : list A) : Forall any l.
Proof. apply Forall_forall. intros; exact I. Qed.
Lemma Forall_True {A} (S : A -> Prop) (l : list A) : (forall x, S x) -> Forall S l.
Proof. intros H. apply Forall_forall. auto. Qed.

Section Use.
  Context {A : Type} {tb : A -> Version -> res bytes} {fb : rd A} {lay : Version -> A -> list cell}
    {shape : Version -> A -> Prop} {arity : A -> Prop} {C : Codec tb fb lay shape arity}.

  Lemma Lay_arr v l : Forall arity l -> Lay (write_class_array tb (map Some l) v) (flat_map (lay v) l).
  Proof. intros H. apply Lay_class_array. eapply Forall_impl; [|exact H]. intros; apply c_lay; assumption. Qed.
  Lemma Lay_opt v l : Forall (on_some arity) l -> Lay (write_class_array tb l v) (slots (lay v) l).
  Proof.
    intros H. apply Lay_slots. eapply Forall_impl; [|exact H]. intros [x|] Hx; [|exact I]. apply c_lay, Hx.
  Qed.
  Lemma Lay_one v x : arity x -> Lay (write_class tb x v) (lay v x).
  Proof. intros H. apply Lay_class. apply c_lay, H. Qed.

  Lemma Parses_arr v n l : n = count l -> Forall (shape v) l ->
    Parses v (flat_map (lay v) l) (read_class_array fb n) l.
  Proof. intros E H. apply Parses_class_array; [exact E|]. eapply Forall_impl; [|exact H]. intros; apply c_parses; assumption. Qed.
  Lemma Parses_fix v k m l : is_loop k m fb -> count l = k -> Forall (shape v) l ->
    Parses v (flat_map (lay v) l) m l.
  Proof.
    intros L E H. eapply Parses_fixed_class; [exact L|exact E|]. eapply Forall_impl; [|exact H].
    intros; apply c_parses; assumption.
  Qed.
  Lemma Parses_opt v n l : n = count l -> Forall (on_some (shape v)) l ->
    Parses v (slots (lay v) l) (read_class_array_with_pointers fb n (map flag_of l)) l.
  Proof.
    intros E H. apply Parses_pointers; [exact E|]. eapply Forall_impl; [|exact H].
    intros [x|] Hx; [|exact I]. apply c_parses, Hx.
  Qed.
  Lemma Parses_arr_kept v n l : Z.to_nat n = length l -> Forall (shape v) l ->
    Parses v (flat_map (lay v) l) (read_class_array_kept fb n) l.
  Proof. intros E H. apply Parses_class_array_kept; [exact E|]. eapply Forall_impl; [|exact H]. intros; apply c_parses; assumption. Qed.
  Lemma Parses_one v x : shape v x -> Parses v (lay v x) (read_class fb) x.
  Proof. intros H. apply Parses_class, c_parses, H. Qed.

  Lemma Fwd_arr v n : Fwd v (read_class_array fb n) (fun P l cs =>
    (P -> cs = flat_map (lay v) l /\ n = count l) /\
    cells_ok (flat_map (lay v) l) /\ Forall (shape v) l /\ count l = Z.max 0 n).
  Proof. apply Fwd_for_range, c_reads. Qed.
  Lemma Fwd_arr_kept v n : Fwd v (read_class_array_kept fb n) (fun P l cs =>
    (P -> cs = flat_map (lay v) l) /\
    cells_ok (flat_map (lay v) l) /\ Forall (shape v) l /\ count l = Z.max 0 n).
  Proof.
    unfold read_class_array_kept. eapply Fwd_weaken; [apply Fwd_loop, c_reads|]. cbv beta.
    intros P l cs (H & O & S & L). split; [exact H|]. split; [exact O|]. split; [exact S|]. unfold count. lia.
  Qed.
  Lemma Fwd_fix v k m : is_loop k m fb -> 0 <= k -> Fwd v m (fun P l cs =>
    (P -> cs = flat_map (lay v) l) /\ cells_ok (flat_map (lay v) l) /\ Forall (shape v) l /\ count l = k).
  Proof. intros L E. eapply Fwd_fixed_class; [exact L|exact E|apply c_reads]. Qed.
  Lemma Fwd_opt v n ptrs : count ptrs = Z.max 0 n ->
    Fwd v (read_class_array_with_pointers fb n ptrs) (fun P l cs =>
      (P -> cs = slots (lay v) l /\ ptrs = map flag_of l) /\ cells_ok (slots (lay v) l) /\
      Forall (on_some (shape v)) l /\ count l = Z.max 0 n).
  Proof. intros H. eapply Fwd_weaken; [apply (Fwd_pointers v fb (lay v) (shape v) n ptrs (c_reads v) H)|]. auto. Qed.
  Lemma Fwd_one v : Fwd v (read_class fb) (fun P x cs =>
    (P -> cs = lay v x) /\ cells_ok (lay v x) /\ shape v x).
  Proof. apply Fwd_class, c_reads. Qed.
End Use.

(** Tables and shapes are unfolded explicitly only. *)
#[global] Arguments SoundItem_layout : simpl never.
#[global] Arguments Sound_layout : simpl never.
#[global] Arguments PlayerColour_layout : simpl never.
#[global] Arguments EffectCommand_layout : simpl never.
#[global] Arguments Effect_layout : simpl never.
#[global] Arguments TerrainPassGraphic_layout : simpl never.
#[global] Arguments TerrainRestriction_layout : simpl never.
#[global] Arguments GraphicDelta_layout : simpl never.
#[global] Arguments GraphicAngleSound_layout : simpl never.
#[global] Arguments Graphic_layout : simpl never.
#[global] Arguments FrameData_layout : simpl never.
#[global] Arguments Terrain_layout : simpl never.
#[global] Arguments TileSize_layout : simpl never.
#[global] Arguments TerrainBlock_layout : simpl never.
#[global] Arguments MapUnit_layout : simpl never.
#[global] Arguments MapTerrain_layout : simpl never.
#[global] Arguments MapLand_layout : simpl never.
#[global] Arguments MapElevation_layout : simpl never.
#[global] Arguments MapInfo_layout : simpl never.
#[global] Arguments RandomMaps_layout : simpl never.
#[global] Arguments Task_layout : simpl never.
#[global] Arguments UnitHeaders_layout : simpl never.
#[global] Arguments ResourceStorage_layout : simpl never.
#[global] Arguments DamageGraphic_layout : simpl never.
#[global] Arguments DeadFish_layout : simpl never.
#[global] Arguments Bird_layout : simpl never.
#[global] Arguments AttackOrArmor_layout : simpl never.
#[global] Arguments Type50_layout : simpl never.
#[global] Arguments Projectile_layout : simpl never.
#[global] Arguments ResourceCost_layout : simpl never.
#[global] Arguments TrainLocation_layout : simpl never.
#[global] Arguments Creatable_layout : simpl never.
#[global] Arguments BuildingAnnex_layout : simpl never.
#[global] Arguments Building_layout : simpl never.
#[global] Arguments Unit_sections_layout : simpl never.
#[global] Arguments Unit_layout : simpl never.
#[global] Arguments Civ_layout : simpl never.
#[global] Arguments ResearchResourceCost_layout : simpl never.
#[global] Arguments ResearchLocation_layout : simpl never.
#[global] Arguments Tech_layout : simpl never.
#[global] Arguments Common_layout : simpl never.
#[global] Arguments TechTreeAge_layout : simpl never.
#[global] Arguments BuildingConnection_layout : simpl never.
#[global] Arguments UnitConnection_layout : simpl never.
#[global] Arguments ResearchConnection_layout : simpl never.
#[global] Arguments TechTree_layout : simpl never.
#[global] Arguments DatFile_body : simpl never.
#[global] Arguments DatFile_layout : simpl never.
#[global] Arguments SoundItem_shape : simpl never.
#[global] Arguments Sound_shape : simpl never.
#[global] Arguments PlayerColour_shape : simpl never.
#[global] Arguments EffectCommand_shape : simpl never.
#[global] Arguments Effect_shape : simpl never.
#[global] Arguments TerrainPassGraphic_shape : simpl never.
#[global] Arguments TerrainRestriction_shape : simpl never.
#[global] Arguments GraphicDelta_shape : simpl never.
#[global] Arguments GraphicAngleSound_shape : simpl never.
#[global] Arguments Graphic_shape : simpl never.
#[global] Arguments FrameData_shape : simpl never.
#[global] Arguments Terrain_shape : simpl never.
#[global] Arguments TileSize_shape : simpl never.
#[global] Arguments TerrainBlock_shape : simpl never.
#[global] Arguments MapUnit_shape : simpl never.
#[global] Arguments MapTerrain_shape : simpl never.
#[global] Arguments MapLand_shape : simpl never.
#[global] Arguments MapElevation_shape : simpl never.
#[global] Arguments MapInfo_shape : simpl never.
#[global] Arguments RandomMaps_shape : simpl never.
#[global] Arguments Task_shape : simpl never.
#[global] Arguments UnitHeaders_shape : simpl never.
#[global] Arguments ResourceStorage_shape : simpl never.
#[global] Arguments DamageGraphic_shape : simpl never.
#[global] Arguments DeadFish_shape : simpl never.
#[global] Arguments Bird_shape : simpl never.
#[global] Arguments AttackOrArmor_shape : simpl never.
#[global] Arguments Type50_shape : simpl never.
#[global] Arguments Projectile_shape : simpl never.
#[global] Arguments ResourceCost_shape : simpl never.
#[global] Arguments TrainLocation_shape : simpl never.
#[global] Arguments Creatable_core_shape : simpl never.
#[global] Arguments Creatable_shape : simpl never.
#[global] Arguments BuildingAnnex_shape : simpl never.
#[global] Arguments Building_shape : simpl never.
#[global] Arguments Unit_sections_shape : simpl never.
#[global] Arguments Unit_hot_key_shape : simpl never.
#[global] Arguments Unit_shape : simpl never.
#[global] Arguments Civ_shape : simpl never.
#[global] Arguments ResearchResourceCost_shape : simpl never.
#[global] Arguments ResearchLocation_shape : simpl never.
#[global] Arguments Tech_shape : simpl never.
#[global] Arguments Common_shape : simpl never.
#[global] Arguments TechTreeAge_shape : simpl never.
#[global] Arguments BuildingConnection_shape : simpl never.
#[global] Arguments UnitConnection_shape : simpl never.
#[global] Arguments ResearchConnection_shape : simpl never.
#[global] Arguments TechTree_shape : simpl never.
#[global] Arguments DatFile_body_shape : simpl never.
#[global] Arguments DatFile_shape : simpl never.

(** ** Tactics *)
Ltac norm_cells := repeat progress (repeat rewrite <- app_assoc; cbn [app]).

Ltac split_ands := repeat match goal with H : _ /\ _ |- _ => destruct H end.
(** Side conditions. *)
Ltac side_arity := first [ exact I | apply Forall_any | assumption | apply Forall_True; intros [?|]; exact I ].
Ltac side_shape := first [ exact I | assumption | apply Forall_True; intros; exact I ].
Lemma to_nat_count {A} (l : list A) : Z.to_nat (count l) = length l.
Proof. unfold count. lia. Qed.
Lemma to_nat_count_eq {A} (l : list A) n : count l = n -> Z.to_nat n = length l.
Proof. intros <-. apply to_nat_count. Qed.
Ltac drop_cells :=
  repeat match goal with
         | H : cell_ok _ = true |- _ => clear H
         | H : cells_ok _ |- _ => clear H
         end.
Ltac count_lia := drop_cells; cbv [TILE_TYPE_COUNT TERRAIN_COUNT TERRAIN_UNITS_SIZE] in *; lia.
Ltac side_count :=
  lazymatch goal with
  | |- _ = _ => first [reflexivity | assumption | symmetry; assumption | count_lia]
  | |- _ => first [assumption | count_lia]
  end.

(** Writers. *)
Ltac lay_prim :=
  first [ apply Lay_u8 | apply Lay_i16 | apply Lay_u16 | apply Lay_i16_off | apply Lay_i32 | apply Lay_u32 | apply Lay_f32
        | apply Lay_text | apply Lay_empty
        | apply Lay_u8_array | apply Lay_i16_array | apply Lay_i32_array | apply Lay_f32_array
        | eapply Lay_arr; side_arity | eapply Lay_opt; side_arity | eapply Lay_one; side_arity ].
Ltac lay_step :=
  first [ apply Lay_join_nil
        | apply Lay_join_cons; [solve [lay_prim]|]
        | apply Lay_join_app; [solve [lay_prim]|]
        | apply (Lay_join_app _ _ []); [solve [lay_prim]|] ].
Ltac lay_solve := apply Lay_nil_r; norm_cells; repeat lay_step.
Ltac lay_struct := eapply Lay_struct; [vm_compute; reflexivity| |vm_compute; reflexivity]; reflexivity.

(** Readers, towards. *)
Ltac parses_one m :=
  lazymatch m with
  | read_int_8 => eapply Parses_cons; [apply Parses_u8|]
  | read_int_16 true => eapply Parses_cons; [apply Parses_i16|]
  | read_int_16 false => eapply Parses_cons; [apply Parses_u16|]
  | read_int_32 true => eapply Parses_cons; [apply Parses_i32|]
  | read_int_32 false => eapply Parses_cons; [apply Parses_u32|]
  | read_float => eapply Parses_cons; [apply Parses_f32|]
  | read_debug_string => eapply Parses_cons; [apply Parses_text|]
  | read_int_8_array _ => eapply Parses_bind; [apply Parses_u8_array; side_count|]
  | read_int_16_array _ => eapply Parses_bind; [apply Parses_i16_array; side_count|]
  | read_int_32_array _ => eapply Parses_bind; [apply Parses_i32_array; side_count|]
  | read_float_array _ => eapply Parses_bind; [apply Parses_f32_array; side_count|]
  | read_int_8_array_2 => eapply Parses_bind; [eapply Parses_fixed; [apply il_u8_2|side_count|intros; apply Parses_u8]|]
  | read_int_8_array_3 => eapply Parses_bind; [eapply Parses_fixed; [apply il_u8_3|side_count|intros; apply Parses_u8]|]
  | read_int_8_array_5 => eapply Parses_bind; [eapply Parses_fixed; [apply il_u8_5|side_count|intros; apply Parses_u8]|]
  | read_int_8_array_6 => eapply Parses_bind; [eapply Parses_fixed; [apply il_u8_6|side_count|intros; apply Parses_u8]|]
  | read_int_8_array_10 => eapply Parses_bind; [eapply Parses_fixed; [apply il_u8_10|side_count|intros; apply Parses_u8]|]
  | read_int_16_array_2 => eapply Parses_bind; [eapply Parses_fixed; [apply il_i16_2|side_count|intros; apply Parses_i16]|]
  | read_int_16_array_3 => eapply Parses_bind; [eapply Parses_fixed; [apply il_i16_3|side_count|intros; apply Parses_i16]|]
  | read_int_16_array_4 => eapply Parses_bind; [eapply Parses_fixed; [apply il_i16_4|side_count|intros; apply Parses_i16]|]
  | read_int_16_array_6 => eapply Parses_bind; [eapply Parses_fixed; [apply il_i16_6|side_count|intros; apply Parses_i16]|]
  | read_int_32_array_10 => eapply Parses_bind; [eapply Parses_fixed; [apply il_i32_10|side_count|intros; apply Parses_i32]|]
  | read_float_array_2 => eapply Parses_bind; [eapply Parses_fixed; [apply il_f32_2|side_count|intros; apply Parses_f32]|]
  | read_float_array_3 => eapply Parses_bind; [eapply Parses_fixed; [apply il_f32_3|side_count|intros; apply Parses_f32]|]
  | read_class_array_3 _ => eapply Parses_bind; [eapply Parses_fix; [apply il_class_3|side_count|side_shape]|]
  | read_class_array_4 _ => eapply Parses_bind; [eapply Parses_fix; [apply il_class_4|side_count|side_shape]|]
  | read_class_array _ _ => eapply Parses_bind; [eapply Parses_arr; [side_count|side_shape]|]
  | read_class_array_with_pointers _ _ _ => eapply Parses_bind; [eapply Parses_opt; [side_count|side_shape]|]
  | read_class _ => eapply Parses_bind; [eapply Parses_one; side_shape|]
  end.
Ltac parses_step :=
  cbv beta zeta;
  lazymatch goal with
  | |- Parses _ _ (ret _) _ => apply Parses_ret
  | |- Parses _ _ (bind get_version _) _ => apply Parses_get_version
  | |- Parses _ _ (bind (ret _) _) _ => apply Parses_ret_bind
  | |- Parses _ _ (bind (bind _ _) _) _ => apply Parses_assoc
  | |- Parses _ _ (bind ?m _) _ => parses_one m
  end.
Ltac parses_struct :=
  eapply Parses_struct_bind; [vm_compute; reflexivity|reflexivity|vm_compute; reflexivity|];
  cbn [firstn skipn length map val_of].
Ltac parses_solve := apply Parses_nil_r; norm_cells; repeat parses_step.

(** Readers, from. *)
Ltac fwd_prim f L :=
  eapply (Fwd_bind_det _ _ _ _ f); [apply L|];
  cbv beta; let x := fresh "x" in let H := fresh "Hx" in intros x H; cbn [app].
Ltac fwd_bind t :=
  eapply Fwd_bind;
  [ t
  | cbv beta; let P := fresh "P" in let l := fresh "l" in let c := fresh "c" in intros P l c;
    let H := fresh "H" in intros H; split_ands ].
Ltac fwd_one m :=
  lazymatch m with
  | read_int_8 => fwd_prim (fun z => [U8 z]) Fwd_u8
  | read_int_16 true => fwd_prim (fun z => [I16 z]) Fwd_i16
  | read_int_16 false => fwd_prim (fun z => [U16 z]) Fwd_u16
  | read_int_32 true => fwd_prim (fun z => [I32 z]) Fwd_i32
  | read_int_32 false => fwd_prim (fun z => [U32 z]) Fwd_u32
  | read_float => fwd_prim (fun z => [F32 z]) Fwd_f32
  | read_debug_string => fwd_prim (fun z => [Text z]) Fwd_text
  | read_int_8_array _ => fwd_bind ltac:(apply Fwd_u8_array)
  | read_int_16_array _ => fwd_bind ltac:(apply Fwd_i16_array)
  | read_int_32_array _ => fwd_bind ltac:(apply Fwd_i32_array)
  | read_float_array _ => fwd_bind ltac:(apply Fwd_f32_array)
  | read_int_8_array_2 => fwd_bind ltac:(eapply Fwd_fixed; [apply il_u8_2|discriminate|apply Fwd_u8])
  | read_int_8_array_3 => fwd_bind ltac:(eapply Fwd_fixed; [apply il_u8_3|discriminate|apply Fwd_u8])
  | read_int_8_array_5 => fwd_bind ltac:(eapply Fwd_fixed; [apply il_u8_5|discriminate|apply Fwd_u8])
  | read_int_8_array_6 => fwd_bind ltac:(eapply Fwd_fixed; [apply il_u8_6|discriminate|apply Fwd_u8])
  | read_int_8_array_10 => fwd_bind ltac:(eapply Fwd_fixed; [apply il_u8_10|discriminate|apply Fwd_u8])
  | read_int_16_array_2 => fwd_bind ltac:(eapply Fwd_fixed; [apply il_i16_2|discriminate|apply Fwd_i16])
  | read_int_16_array_3 => fwd_bind ltac:(eapply Fwd_fixed; [apply il_i16_3|discriminate|apply Fwd_i16])
  | read_int_16_array_4 => fwd_bind ltac:(eapply Fwd_fixed; [apply il_i16_4|discriminate|apply Fwd_i16])
  | read_int_16_array_6 => fwd_bind ltac:(eapply Fwd_fixed; [apply il_i16_6|discriminate|apply Fwd_i16])
  | read_int_32_array_10 => fwd_bind ltac:(eapply Fwd_fixed; [apply il_i32_10|discriminate|apply Fwd_i32])
  | read_float_array_2 => fwd_bind ltac:(eapply Fwd_fixed; [apply il_f32_2|discriminate|apply Fwd_f32])
  | read_float_array_3 => fwd_bind ltac:(eapply Fwd_fixed; [apply il_f32_3|discriminate|apply Fwd_f32])
  | read_class_array_3 _ => fwd_bind ltac:(eapply Fwd_fix; [apply il_class_3|discriminate])
  | read_class_array_4 _ => fwd_bind ltac:(eapply Fwd_fix; [apply il_class_4|discriminate])
  | read_class_array _ _ => fwd_bind ltac:(eapply Fwd_arr)
  | read_class_array_kept _ _ => fwd_bind ltac:(eapply Fwd_arr_kept)
  | read_class_array_with_pointers _ _ _ => fwd_bind ltac:(eapply Fwd_opt; eassumption)
  | read_class _ => fwd_bind ltac:(eapply Fwd_one)
  end.
Ltac fwd_struct :=
  eapply Fwd_struct; [vm_compute; reflexivity|]; cbn [all_cells];
  repeat (match goal with |- forall _, cell_ok _ = true -> _ =>
            let x := fresh "x" in let H := fresh "Hx" in intros x H end); cbn [app].
Ltac fwd_step :=
  cbv beta zeta;
  lazymatch goal with
  | |- Fwd _ (bind get_version _) _ => apply Fwd_get_version
  | |- Fwd _ (bind (ret _) _) _ => apply Fwd_ret_bind
  | |- Fwd _ (bind (bind _ _) _) _ => apply Fwd_assoc
  | |- Fwd _ (bind (read_struct _ _) _) _ => fwd_struct
  | |- Fwd _ (bind ?m _) _ => fwd_one m
  end.

(** A count that is stored is representable if the one read was. *)
Lemma ok_count_i16 {A} (l : list A) n : count l = Z.max 0 n -> cell_ok (I16 n) = true -> cell_ok (I16 (count l)) = true.
Proof. cbv [cell_ok]. rewrite !within_spec. lia. Qed.
Lemma ok_count_u8 {A} (l : list A) n : count l = Z.max 0 n -> cell_ok (U8 n) = true -> cell_ok (U8 (count l)) = true.
Proof. cbv [cell_ok]. rewrite !within_spec. lia. Qed.
Lemma ok_count_i32 {A} (l : list A) n : count l = Z.max 0 n -> cell_ok (I32 n) = true -> cell_ok (I32 (count l)) = true.
Proof. cbv [cell_ok]. rewrite !within_spec. lia. Qed.
Lemma ok_count_u32 {A} (l : list A) n : count l = Z.max 0 n -> cell_ok (U32 n) = true -> cell_ok (U32 (count l)) = true.
Proof. cbv [cell_ok]. rewrite !within_spec. lia. Qed.

Ltac ok_cells :=
  norm_cells;
  repeat first
    [ assumption
    | lazymatch goal with
      | |- cells_ok [] => exact cells_ok_nil
      | |- cells_ok (flags _) => apply flags_ok
      | |- cells_ok (_ :: _) => apply cells_ok_cons; split
      | |- cells_ok (_ ++ _) => apply cells_ok_app; split
      | |- cell_ok (I16 (count _)) = true => eapply ok_count_i16; eassumption
      | |- cell_ok (U8 (count _)) = true => eapply ok_count_u8; eassumption
      | |- cell_ok (I32 (count _)) = true => eapply ok_count_i32; eassumption
      | |- cell_ok (U32 (count _)) = true => eapply ok_count_u32; eassumption
      end ].
Ltac use_quiet :=
  let H := fresh "HQ" in
  intros H; split_ands;
  repeat match goal with
         | H : ?P -> _, p : ?P |- _ => specialize (H p)
         | H : _ /\ _ |- _ => destruct H
         end;
  subst; norm_cells; rewrite ?app_nil_r.
(** Final goal: cells, representability, shape. *)
Ltac fwd_end0 :=
  split; [ solve [use_quiet; first [reflexivity | congruence]] | split; [ solve [ok_cells] | ] ].
Ltac fwd_end lay := apply Fwd_ret; unfold lay; cbn; fwd_end0.

(** A class without conditions on its shape. *)
Ltac codec_plain to_bytes from_bytes layout shape :=
  split; intros;
  [ exact I
  | unfold to_bytes, layout; lay_solve
  | match goal with |- Parses _ _ _ ?r => destruct r end; unfold from_bytes, layout; cbn; parses_solve
  | unfold Reads, from_bytes; repeat fwd_step; fwd_end layout; exact I ].
(** A struct-packed class. *)
Ltac codec_struct to_bytes from_bytes layout shape :=
  split; intros;
  [ exact I
  | unfold to_bytes, layout; lay_struct
  | match goal with |- Parses _ _ _ ?r => destruct r end; unfold from_bytes, layout; cbn; parses_struct; apply Parses_ret
  | unfold Reads, from_bytes; fwd_step; fwd_end layout; exact I ].
