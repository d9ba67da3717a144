(** * The writers follow the tables of Flat.v, without any condition. *)
From Verif Require Import Base PyInt PyFloat PyStr PyStruct DataTypes Versions Common Wire Layout Shape Flat.
From Verif Require Import Codec CodecP CodecF CodecC P_Simple P_More P_Unit P_UnitR P_Civ P_DatFile.
From Verif Require Import M_Sound M_PlayerColour M_Effect M_TerrainRestriction M_Graphic
  M_TerrainBlock M_RandomMaps M_Task M_UnitHeaders M_Unit M_Civ M_Tech M_TechTree M_DatFile.
From Coq Require Import ZifyBool.
Open Scope Z_scope.
Local Open Scope list_scope.
Local Notation length := List.length.

Lemma pack1_item k a : Lay (pack1 k a) [item_cell k a].
Proof.
  assert (F : forall x, Lay (pack_float x) [F32s x]).
  { intros x. unfold Lay. rewrite encode_one. unfold pack_float. cbv [cell_bytes]. rewrite little_endian_le_bytes.
    destruct (f64_too_large x); reflexivity. }
  destruct k, a; cbn [pack1 item_cell]; try reflexivity.
  - unfold Lay. rewrite encode_one, (int_cell_bytes I8 1 true) by constructor. destruct (int_fits 1 true z); reflexivity.
  - unfold Lay. rewrite encode_one, (int_cell_bytes I16 2 true) by constructor. destruct (int_fits 2 true z); reflexivity.
  - unfold Lay. rewrite encode_one, (int_cell_bytes I32 4 true) by constructor. destruct (int_fits 4 true z); reflexivity.
  - destruct (f64_of_Z z); [apply F|reflexivity].
  - apply F.
Qed.
Lemma item_cells_bad ks l : length ks <> length l -> encode (item_cells ks l) = None.
Proof.
  revert l. induction ks as [|k ks IH]; intros [|a l] H; cbn [item_cells]; try reflexivity.
  { destruct H; reflexivity. }
  rewrite encode_cons, IH by (cbn [length] in H; congruence). destruct (cell_bytes _); reflexivity.
Qed.
Lemma Lay_struct_any fmt ks l : parse_fmt fmt = Some ks -> Lay (struct_pack fmt l) (item_cells ks l).
Proof.
  intros P. unfold struct_pack. rewrite P. destruct (Nat.eqb_spec (length ks) (length l)) as [E|E].
  - clear P. revert l E. induction ks as [|k ks IH]; intros [|a l] E; try discriminate; cbn [item_cells pack_items].
    + reflexivity.
    + apply (Lay_wapp _ _ [item_cell k a]); [apply pack1_item|apply IH]. cbn [length] in E. congruence.
  - apply Lay_Err, item_cells_bad, E.
Qed.

Lemma Unit_flat_layout_eq v x : Unit_flat_layout v x =
  item_cells (Unit_items v) (Unit_values v x) ++ Unit_mid v x ++ Unit_sections_layout v x.
Proof. unfold Unit_flat_layout, Unit_mid. rewrite <- !app_assoc. reflexivity. Qed.
Lemma Unit_flat_lay v x : Lay (Unit_to_bytes x v) (Unit_flat_layout v x).
Proof.
  rewrite Unit_flat_layout_eq.
  unfold Unit_to_bytes, Unit_sections_layout. rewrite ge_88.
  destruct (since 88 v) eqn:V.
  - unfold Unit_to_bytes_88. cbn [rbind]. rewrite sections_write.
    apply (Lay_sections _ _ _ _ _ _ _ _ _ _ _ _ _ _ _
     [ write_class_array ResourceStorage_to_bytes (map Some (Unit_resource_storages x)) v;
    write_int_8 (len (Unit_damage_graphics x));
    write_class_array DamageGraphic_to_bytes (map Some (Unit_damage_graphics x)) v;
    write_int_16 (Unit_selection_sound x) true true;
    write_int_16 (Unit_dying_sound x) true true;
    write_int_32 (Unit_wwise_train_sound_id x) true;
    write_int_32 (Unit_wwise_damage_sound_id x) true;
    write_int_32 (Unit_wwise_selection_sound_id x) true;
    write_int_32 (Unit_wwise_dying_sound_id x) true;
    write_int_8 (Unit_old_attack_reaction x);
    write_int_8 (Unit_convert_terrain x);
    write_debug_string (Unit_name x);
    write_int_16 (Unit_copy_id x) true true;
    write_int_16 (Unit_base_id x) true true ]).
    + unfold Unit_values, Unit_items. rewrite V. cbn [app]. apply Lay_struct_any. vm_compute. reflexivity.
    + unfold Unit_mid. lay_solve.
    + apply Lay_opt_write. intros; apply Lay_f32.
    + apply Lay_opt_write. intros; eapply Lay_one; side_arity.
    + apply Lay_opt_write. intros; eapply Lay_one; side_arity.
    + apply Lay_opt_write. intros; eapply Lay_one; side_arity.
    + apply Lay_opt_write. intros; eapply Lay_one; side_arity.
    + apply Lay_opt_write. intros; eapply Lay_one; side_arity.
    + apply Lay_opt_write. intros; eapply Lay_one; side_arity.
  - unfold Unit_to_bytes_84. cbn [rbind]. rewrite sections_write.
    apply (Lay_sections _ _ _ _ _ _ _ _ _ _ _ _ _ _ _
     [ write_class_array ResourceStorage_to_bytes (map Some (Unit_resource_storages x)) v;
    write_int_8 (len (Unit_damage_graphics x));
    write_class_array DamageGraphic_to_bytes (map Some (Unit_damage_graphics x)) v;
    write_int_16 (Unit_selection_sound x) true true;
    write_int_16 (Unit_dying_sound x) true true;
    write_int_32 (Unit_wwise_train_sound_id x) true;
    write_int_32 (Unit_wwise_damage_sound_id x) true;
    write_int_32 (Unit_wwise_selection_sound_id x) true;
    write_int_32 (Unit_wwise_dying_sound_id x) true;
    write_int_8 (Unit_old_attack_reaction x);
    write_int_8 (Unit_convert_terrain x);
    write_debug_string (Unit_name x);
    write_int_16 (Unit_copy_id x) true true;
    write_int_16 (Unit_base_id x) true true ]).
    + unfold Unit_values, Unit_items. rewrite V. cbn [app]. apply Lay_struct_any. vm_compute. reflexivity.
    + unfold Unit_mid. lay_solve.
    + apply Lay_opt_write. intros; apply Lay_f32.
    + apply Lay_opt_write. intros; eapply Lay_one; side_arity.
    + apply Lay_opt_write. intros; eapply Lay_one; side_arity.
    + apply Lay_opt_write. intros; eapply Lay_one; side_arity.
    + apply Lay_opt_write. intros; eapply Lay_one; side_arity.
    + apply Lay_opt_write. intros; eapply Lay_one; side_arity.
    + apply Lay_opt_write. intros; eapply Lay_one; side_arity.
Qed.
#[global] Arguments Unit_flat_layout : simpl never.
#[global] Arguments Civ_flat_layout : simpl never.

Lemma Civ_flat_lay v x : Lay (Civ_to_bytes x v) (Civ_flat_layout v x).
Proof.
  unfold Civ_to_bytes, Civ_flat_layout. rewrite Civ_pointers_flags, flags_map.
  apply Lay_nil_r; norm_cells.
  repeat first [apply Lay_join_app; [apply Lay_slots, Forall_True; intros [u|]; [apply Unit_flat_lay|exact I]|] | lay_step].
Qed.
Lemma DatFile_flat_lay x w : Lay (DatFile_to_bytes x w) (DatFile_flat_layout x).
Proof.
  unfold DatFile_to_bytes, DatFile_flat_layout. rewrite version_lookup_spec.
  destruct (file_version (DatFile_version x)) as [v|]; [|reflexivity]. cbn [rbind]. cbv zeta.
  change @len with @count. unfold py_assert.
  match goal with |- Lay (rbind (if ?a then _ else _) _) (guard ?b _) => assert (E : a = b) by (clear; generalize (count (DatFile_float_ptr_terrain_tables x)), (count (DatFile_terrain_pass_graphic_pointers x)), (count (DatFile_terrain_restrictions x)); intros; repeat match goal with |- context [Z.eqb ?p ?q] => destruct (Z.eqb_spec p q) end; cbn; congruence); rewrite E; destruct b end;
    [|reflexivity].
  cbn [rbind guard]. unfold DatFile_flat_body.
  assert (Ht : (if nonempty (DatFile_terrain_restrictions x) then
      first <-- py_index (DatFile_terrain_restrictions x) 0 ;;;
      Ok (count (TerrainRestriction_passable_buildable_dmg_multiplier first))
     else Ok 0) = Ok (terrains_used x)).
  { unfold terrains_used. destruct (DatFile_terrain_restrictions x); reflexivity. }
  rewrite Ht. cbn [rbind]. change (DatFile_graphic_pointers x) with (map flag_of (DatFile_graphics x)).
  rewrite flags_map. apply Lay_nil_r; norm_cells.
  apply Lay_join_cons; [apply Lay_padded; lia|].
  repeat first [apply Lay_join_app; [apply Lay_class_array, Forall_True; intros; apply TerrainRestriction_lay|]
    | apply Lay_join_app; [apply Lay_class_array, Forall_True; intros; apply Civ_flat_lay|] | lay_step].
Qed.
