(** * Saving as a version before 8.8 raises IndexError if a creatable section has no train location. *)
From Verif Require Import Base PyInt PyFloat PyStr PyStruct DataTypes Versions Common Wire Layout Shape Update Convert.
From Verif Require Import Codec CodecP CodecF CodecC P_Simple P_More P_Unit P_UnitR P_Civ P_DatFile Spec Theory ConvertP.
From Verif Require Import M_Sound M_PlayerColour M_Effect M_TerrainRestriction M_Graphic
  M_TerrainBlock M_RandomMaps M_Task M_UnitHeaders M_Unit M_Civ M_Tech M_TechTree M_DatFile.
From Coq Require Import ZifyBool.
Open Scope Z_scope.
Local Open Scope list_scope.
Local Notation length := List.length.

(** If it raises, it raises [e]. *)
Definition Only {A} (e : exn) (w : res A) : Prop := match w with Ok _ => True | Err e' => e' = e end.
Lemma Only_rbind {A B} e (w : res A) (k : A -> res B) : Only e w -> (forall a, Only e (k a)) -> Only e (rbind w k).
Proof. destruct w; cbn; auto. Qed.
Lemma Only_wapp e a b : Only e a -> Only e b -> Only e (a +++ b).
Proof. intros Ha Hb. unfold wapp. apply Only_rbind; [exact Ha|]. intros x. apply Only_rbind; [exact Hb|]. intros y. exact I. Qed.
Lemma Only_join e l : Forall (Only e) l -> Only e (join l).
Proof. induction 1 as [|w l Hw Hl IH]; [exact I|]. rewrite join_cons. apply Only_wapp; assumption. Qed.
Lemma Only_ok e w cs : Lay w cs -> cells_ok cs -> Only e w.
Proof. intros L H. destruct (cells_ok_encode cs H) as (bs & E). destruct w; [exact I|]. unfold Lay in L. rewrite E in L. discriminate. Qed.
Lemma Only_class_array {A} e (tb : A -> Version -> res bytes) l v : Forall (on_some (fun x => Only e (tb x v))) l ->
  Only e (write_class_array tb l v).
Proof.
  rewrite write_class_array_eq. induction 1 as [|[x|] l Hx Hl IH]; cbn; [exact I| |exact IH]. apply Only_wapp; assumption.
Qed.
Lemma Only_sections e w1 w2 w3 w4 w5 w6 w7 head mid :
  Only e head -> Only e (join mid) -> Only e w1 -> Only e w2 -> Only e w3 -> Only e w4 -> Only e w5 -> Only e w6 -> Only e w7 ->
  Only e (s1 <-- w1 ;;; s2 <-- w2 ;;; s3 <-- w3 ;;; s4 <-- w4 ;;; s5 <-- w5 ;;; s6 <-- w6 ;;; s7 <-- w7 ;;;
       head +++ join (mid ++ [Ok s1; Ok s2; Ok s3; Ok s4; Ok s5; Ok s6; Ok s7])).
Proof.
  intros Hh Hm H1 H2 H3 H4 H5 H6 H7. do 7 (apply Only_rbind; [assumption|]; intros ?).
  apply Only_wapp; [exact Hh|]. rewrite join_app. apply Only_wapp; [exact Hm|]. apply Only_join. repeat constructor.
Qed.
Lemma Only_opt_write {A} e t (w : A -> res bytes) f o : (forall x, Lay (w x) (f x)) -> cells_ok (stored t f o) -> Only e (opt_write t w o).
Proof. intros L H. exact (Only_ok e _ _ (Lay_opt_write t w f o L) H). Qed.

Definition needs_location (x : Creatable) : Prop := Creatable_train_locations x = [].
Lemma Creatable_index v x : since 88 v = false -> needs_location x ->
  cells_ok (flat_map (ResourceCost_layout v) (Creatable_resource_costs x)) ->
  Creatable_to_bytes x v = Err IndexError.
Proof.
  intros V N H. unfold needs_location in N. unfold Creatable_to_bytes. rewrite ge_88, V.
  assert (O : exists b, write_class_array ResourceCost_to_bytes (map Some (Creatable_resource_costs x)) v = Ok b).
  { pose proof (Lay_class_array ResourceCost_to_bytes (ResourceCost_layout v) (Creatable_resource_costs x) v) as L.
    specialize (L (Forall_True _ _ (fun y => c_lay v y I))). destruct (cells_ok_encode _ H) as (bs & E). unfold Lay in L. rewrite E in L.
    destruct (write_class_array _ _ _); [eauto|discriminate]. }
  destruct O as (b & O).
  destruct (version_ge v VER_84); [unfold Creatable_to_bytes_84|unfold Creatable_to_bytes_78]; rewrite O, N; reflexivity.
Qed.

Lemma Unit_conv_ok_rest u v x : Unit_shape u x -> cells_ok (Unit_layout u x) ->
  cells_ok (Unit_head v x ++ exactly 2 (Unit_standing_graphic x) (map I16 (Unit_standing_graphic x)) ++ Unit_rest v x) /\
  cells_ok (Unit_mid v x) /\
  cells_ok (stored (has_speed (Unit_type x)) (fun s => [F32 s]) (Unit_speed x)) /\
  cells_ok (stored (has_dead_fish (Unit_type x)) (DeadFish_layout v) (Unit_dead_fish x)) /\
  cells_ok (stored (has_bird (Unit_type x)) (Bird_layout v) (Unit_bird x)) /\
  cells_ok (stored (has_type_50 (Unit_type x)) (Type50_layout v) (Unit_type_50 x)) /\
  cells_ok (stored (has_projectile (Unit_type x)) (Projectile_layout v) (Unit_projectile x)) /\
  cells_ok (stored (has_building (Unit_type x)) (Building_layout v) (Unit_building x)).
Proof.
  intros (S1 & S2 & S3 & S4 & S5 & S6 & S7 & S8 & S9) H.
  assert (K : cells_ok [I32 (Unit_hot_key x)]).
  { unfold Unit_hot_key_shape in S5. unfold Unit_layout, Unit_sections_layout in H. rewrite !cells_ok_app in H.
    destruct H as (A1 & A2 & A3 & A4 & A5 & A6 & A7 & A8 & A9 & A10 & A11 & A12 & A13 & B1 & B2 & B3 & B4 & B5 & B6 & B7).
    destruct (since 88 u) eqn:U; [|exact A8].
    rewrite S5. unfold train_hot_key. destruct S4 as (_ & _ & _ & _ & _ & S4 & _). destruct (Unit_creatable x) as [c|]; [|reflexivity].
    cbn [present] in S4. rewrite <- S4 in B6. cbn [stored opt_cells] in B6. unfold Creatable_layout in B6. rewrite U in B6.
    destruct (Creatable_train_locations c) as [|t l]; [reflexivity|]. rewrite !cells_ok_app in B6. destruct B6 as (_ & (_ & B6) & _).
    cbn [flat_map] in B6. apply cells_ok_app in B6. destruct B6 as [B6 _]. unfold TrainLocation_layout in B6. rewrite U in B6.
    apply cells_ok_app in B6. apply B6. }
  rewrite Unit_layout_eq in H. unfold Unit_head, Unit_rest, Unit_mid, Unit_sections_layout in *. rewrite !cells_ok_app in *.
  destruct H as ((A1 & A2 & A3 & A4 & A5 & A6 & A7 & A8 & A9) & (M1 & M2 & M3 & M4) & B1 & B2 & B3 & B4 & B5 & B6 & B7).
  split; [|split; [|split; [|split; [|split; [|split; [|split]]]]]].
  - repeat (split; [assumption|]). split; [destruct (since 88 v); [apply cells_ok_nil|exact K]|assumption].
  - split; [exact M1|]. split; [exact M2|]. split; [exact M3|exact M4].
  - exact B1.
  - exact B2.
  - revert B3. apply (stored_conv_ok _ _ _ _ (Bird_shape u) S6). intros b. apply Bird_conv_ok.
  - revert B4. apply (stored_conv_ok _ _ _ _ (Type50_shape u) S7). intros b. apply Type50_conv_ok.
  - exact B5.
  - exact B7.
Qed.
Lemma Unit_only v u x : since 88 v = false -> Unit_shape u x -> cells_ok (Unit_layout u x) -> Only IndexError (Unit_to_bytes x v).
Proof.
  intros V S H. destruct (Unit_conv_ok_rest u v x S H) as (Hh & Hm & H1 & H2 & H3 & H4 & H5 & H7).
  destruct S as (S1 & (S2 & S3 & S4) & S5 & S6 & S7 & S8 & S9 & S10 & S11).
  unfold Unit_to_bytes. rewrite ge_88, V. unfold Unit_to_bytes_84. cbn [rbind]. rewrite sections_write.
  destruct (two_elements _ S2) as (a1 & a2 & E1). destruct (two_elements _ S3) as (b1 & b2 & E2).
  destruct (two_elements _ S4) as (d1 & d2 & E3).
  apply (Only_sections _ _ _ _ _ _ _ _ _
     [ write_class_array ResourceStorage_to_bytes (map Some (Unit_resource_storages x)) v;
    write_int_8 (len (Unit_damage_graphics x));
    write_class_array DamageGraphic_to_bytes (map Some (Unit_damage_graphics x)) v;
    write_int_16 (Unit_selection_sound x) true true;
    write_int_16 (Unit_dying_sound x) true true;
    write_int_32 (Unit_wwise_train_sound_id x) true;
    write_int_32 (Unit_wwise_damage_sound_id x) true;
    write_int_32 (Unit_wwise_selection_sound_id x) true;
    write_int_32 (Unit_wwise_dying_sound_id x) true;
    write_int_8 (Unit_old_attack_reaction x);
    write_int_8 (Unit_convert_terrain x);
    write_debug_string (Unit_name x);
    write_int_16 (Unit_copy_id x) true true;
    write_int_16 (Unit_base_id x) true true ]).
  - eapply Only_ok; [|exact Hh]. unfold Unit_rest. rewrite V, E1, E2, E3.
    eapply (Lay_struct_exact' _ _ (Unit_head v x) VInt I16 Fh 2 (Unit_standing_graphic x));
      [ reflexivity | vm_compute; reflexivity | reflexivity | reflexivity | reflexivity | vm_compute; reflexivity ].
  - eapply Only_ok; [|exact Hm]. unfold Unit_mid. lay_solve.
  - eapply Only_opt_write; [|exact H1]. intros; apply Lay_f32.
  - eapply Only_opt_write; [|exact H2]. intros; eapply Lay_one; side_arity.
  - eapply Only_opt_write; [|exact H3]. intros; eapply Lay_one; side_arity.
  - eapply Only_opt_write; [|exact H4]. intros; eapply Lay_one; side_arity.
  - eapply Only_opt_write; [|exact H5]. intros; eapply Lay_one; side_arity.
  - unfold write_class. destruct (has_creatable (Unit_type x)) eqn:T; [|exact I]. destruct (Unit_creatable x) as [c|] eqn:Ec; [|exact I]. cbn [on_some] in S10.
    unfold Unit_layout, Unit_sections_layout in H. rewrite !cells_ok_app in H. rewrite Ec, T in H. cbn [stored opt_cells] in H.
    destruct H as (_ & _ & _ & _ & _ & _ & _ & _ & _ & _ & _ & _ & _ & _ & _ & _ & _ & _ & H & _).
    destruct (Creatable_train_locations c) as [|t l] eqn:El.
    + unfold write_class_array; cbn [join map flat_map]; rewrite ?Creatable_index; [exact eq_refl|exact V|exact El|]. unfold Creatable_layout in H. apply cells_ok_app in H. apply H.
    + apply (Only_ok _ _ (Creatable_layout v c)); [eapply Lay_one; side_arity|]. apply (Creatable_conv_ok u); [congruence| |exact S10|exact H].
      intros U. unfold Unit_hot_key_shape, train_hot_key in S7. rewrite U, Ec, El in S7. specialize (S7 ltac:(discriminate)).
      destruct S10 as (_ & _ & S10 & _). specialize (S10 U). rewrite El in *. destruct l; [|exfalso; unfold count in S10; cbn [length] in S10; lia].
      constructor; [|constructor]. rewrite <- S7. unfold Unit_rest in Hh. rewrite V in Hh. rewrite !cells_ok_app in Hh. tauto.
  - eapply Only_opt_write; [|exact H7]. intros; eapply Lay_one; side_arity.
Qed.

Lemma Civ_only v u x : since 88 v = false -> Civ_shape u x -> cells_ok (Civ_layout u x) -> Only IndexError (Civ_to_bytes x v).
Proof.
  intros V S H. unfold Civ_shape in S. unfold Civ_layout in H. rewrite !cells_ok_app, slots_ok in H. destruct H as (H1 & H2 & H3 & H4 & H5).
  assert (U : Only IndexError (write_class_array Unit_to_bytes (Civ_units x) v)).
  { apply Only_class_array. rewrite Forall_forall in *. intros [y|] Hy; [|exact I]. exact (Unit_only v u y V (S _ Hy) (H5 _ Hy)). }
  (* the same civ without units *)
  assert (L : forall w, Only IndexError w -> Only IndexError (join
    [ write_int_8 (Civ_player_type x); write_debug_string (Civ_name x); write_int_16 (len (Civ_resources x)) true true;
      write_int_16 (Civ_tech_tree_id x) true true; write_int_16 (Civ_team_bonus_id x) true true; write_float_array (Civ_resources x);
      write_int_8 (Civ_icon_set x); write_int_16 (len (Civ_units x)) true true; write_int_32_array (Civ_unit_pointers x); w ])).
  { intros w Hw.
    change ([ write_int_8 (Civ_player_type x); write_debug_string (Civ_name x); write_int_16 (len (Civ_resources x)) true true;
      write_int_16 (Civ_tech_tree_id x) true true; write_int_16 (Civ_team_bonus_id x) true true; write_float_array (Civ_resources x);
      write_int_8 (Civ_icon_set x); write_int_16 (len (Civ_units x)) true true; write_int_32_array (Civ_unit_pointers x); w ])
    with ([ write_int_8 (Civ_player_type x); write_debug_string (Civ_name x); write_int_16 (len (Civ_resources x)) true true;
      write_int_16 (Civ_tech_tree_id x) true true; write_int_16 (Civ_team_bonus_id x) true true; write_float_array (Civ_resources x);
      write_int_8 (Civ_icon_set x); write_int_16 (len (Civ_units x)) true true; write_int_32_array (Civ_unit_pointers x)] ++ [w]).
    rewrite join_app. apply Only_wapp; [|apply Only_join; repeat constructor; exact Hw].
    eapply (Only_ok _ _ ([U8 (Civ_player_type x); Text (Civ_name x); I16 (count (Civ_resources x));
      I16 (Civ_tech_tree_id x); I16 (Civ_team_bonus_id x)] ++ map F32 (Civ_resources x)
      ++ [U8 (Civ_icon_set x); I16 (count (Civ_units x))] ++ flags (Civ_units x))).
    - rewrite Civ_pointers_flags, flags_map. lay_solve.
    - rewrite !cells_ok_app. auto. }
  exact (L _ U).
Qed.

Lemma Only_join_snoc e l1 w l2 : Only e (join l1) -> Only e w -> Only e (join l2) -> Only e (join (l1 ++ w :: l2)).
Proof. intros H1 Hw H2. rewrite join_app, join_cons. auto using Only_wapp. Qed.
Lemma DatFile_only v x : v <> UNDEFINED -> since 88 v = false -> DatFile_wf x -> Only IndexError (to_bytes (DatFile_retagged v x)).
Proof.
  intros N V [H S]. unfold DatFile_layout, DatFile_shape in *.
  destruct (file_version (DatFile_version x)) as [u|] eqn:Eu; [|destruct S].
  destruct S as (_ & _ & _ & _ & S5 & S6 & S7 & _).
  apply cells_ok_guard in H. destruct H as [G H]. apply cells_ok_app in H. destruct H as [_ H].
  unfold DatFile_body in *. rewrite !cells_ok_app in *.
  destruct H as (A1 & A2 & A3 & A4 & A5 & A6 & A7 & A8 & A9 & A10 & A11 & A12 & A13 & B1 & B2 & B3 & B4 & B5 & B6 & B7 & B8 & B9 & B10).
  assert (P : cells_ok [Padded 8 (version_value v)]) by (destruct v; [congruence|..]; vm_compute; reflexivity).
  assert (C4 : cells_ok (flat_map (UnitHeaders_layout v) (DatFile_unit_headers x))).
  { revert B4; apply (conv_flat_ok _ _ _ _ S5); intros; eapply UnitHeaders_conv_ok; eassumption. }
  assert (C8 : cells_ok (flat_map (Tech_layout v) (DatFile_techs x))).
  { revert B8; apply (conv_flat_ok _ _ _ _ S7); intros; eapply Tech_conv_ok; eassumption. }
  assert (Cc : Only IndexError (write_class_array Civ_to_bytes (map Some (DatFile_civs x)) v)).
  { apply Only_class_array, Forall_map. cbn [on_some]. rewrite cells_ok_flat_map in B6. eapply Forall_impl; [|exact (Forall_both _ _ _ S6 B6)].
    intros c [Sc Hc]. exact (Civ_only v u c V Sc Hc). }
  clear B4 B6 B8 S5 S6 S7 Eu.
  unfold to_bytes, DatFile_to_bytes, DatFile_retagged, with_DatFile_version. rewrite version_lookup_spec.
  destruct x. cbn [M_DatFile.DatFile_version M_DatFile.DatFile_unit_headers
    M_DatFile.DatFile_civs M_DatFile.DatFile_techs M_DatFile.DatFile_float_ptr_terrain_tables M_DatFile.DatFile_terrain_pass_graphic_pointers
    M_DatFile.DatFile_terrain_restrictions M_DatFile.DatFile_player_colours M_DatFile.DatFile_sounds M_DatFile.DatFile_graphics
    M_DatFile.DatFile_terrain_block M_DatFile.DatFile_random_maps M_DatFile.DatFile_effects M_DatFile.DatFile_time_slice
    M_DatFile.DatFile_unit_kill_rate M_DatFile.DatFile_unit_kill_total M_DatFile.DatFile_unit_hit_point_rate M_DatFile.DatFile_unit_hit_point_total
    M_DatFile.DatFile_razing_kill_rate M_DatFile.DatFile_razing_kill_total M_DatFile.DatFile_tech_tree DatFile_graphic_pointers] in *.
  rewrite (file_version_value v N). cbn [rbind]. cbv zeta.
  change @len with @count. unfold py_assert.
  match goal with |- Only _ (rbind (if ?a then _ else _) _) => assert (E : a = true) by lia; rewrite E end. cbn [rbind].
  match goal with |- Only _ (rbind ?t _) => assert (Ht : exists n, t = Ok n /\ cells_ok [I16 n]) end.
  { apply cells_ok_cons in A1. destruct A1 as [_ A1]. exists (match DatFile_terrain_restrictions with r :: _ => count (TerrainRestriction_passable_buildable_dmg_multiplier r) | [] => 0 end).
    split; [destruct DatFile_terrain_restrictions; reflexivity|exact A1]. }
  destruct Ht as (n & -> & Hn). cbn [rbind].
  match goal with |- Only _ (join [?p1; ?p2; ?p3; ?p4; ?p5; ?p6; ?p7; ?p8; ?p9; ?q1; ?q2; ?q3; ?q4; ?q5; ?q6; ?q7; ?q8; ?q9; ?r1; ?r2; ?r3; ?r4; ?r5; ?r6; ?r7; ?r8; ?r9; ?s1; ?s2; ?s3; ?s4 ]) =>
    apply (Only_join_snoc _ [p1; p2; p3; p4; p5; p6; p7; p8; p9; q1; q2; q3; q4; q5; q6; q7; q8; q9; r1; r2] r3 [r4; r5; r6; r7; r8; r9; s1; s2; s3; s4]) end.
  2: exact Cc.
  - apply (Only_ok _ _ ([Padded 8 (version_value v); I16 (count DatFile_terrain_restrictions); I16 n]
      ++ map I32 DatFile_float_ptr_terrain_tables ++ map I32 DatFile_terrain_pass_graphic_pointers
      ++ flat_map (TerrainRestriction_layout v) DatFile_terrain_restrictions
      ++ [I16 (count DatFile_player_colours)] ++ flat_map (PlayerColour_layout v) DatFile_player_colours
      ++ [I16 (count DatFile_sounds)] ++ flat_map (Sound_layout v) DatFile_sounds
      ++ [I16 (count DatFile_graphics)] ++ flags DatFile_graphics ++ slots (Graphic_layout v) DatFile_graphics
      ++ TerrainBlock_layout v DatFile_terrain_block ++ RandomMaps_layout v DatFile_random_maps
      ++ [I32 (count DatFile_effects)] ++ flat_map (Effect_layout v) DatFile_effects
      ++ [I32 (count DatFile_unit_headers)] ++ flat_map (UnitHeaders_layout v) DatFile_unit_headers
      ++ [I16 (count DatFile_civs)])).
    + change (map (fun x : option Graphic => match x with Some _ => 1 | None => 0 end) DatFile_graphics) with (map flag_of DatFile_graphics).
      rewrite flags_map. apply Lay_nil_r; norm_cells. apply Lay_join_cons; [apply Lay_padded; lia|].
      repeat first [apply Lay_join_app; [apply Lay_class_array, Forall_True; intros; apply TerrainRestriction_lay|] | lay_step].
    + rewrite !cells_ok_app. apply cells_ok_cons in A1. destruct A1 as [A1 _].
      split; [apply cells_ok_cons in P; apply cells_ok_cons in Hn; rewrite !cells_ok_cons; tauto|].
      split; [exact A2|]. split; [exact A3|]. split; [exact A4|]. split; [exact A5|]. split; [exact A6|]. split; [exact A7|]. split; [exact A8|].
      split; [exact A9|]. split; [exact A10|]. split; [exact A11|]. split; [exact A12|]. split; [exact A13|]. split; [exact B1|]. split; [exact B2|].
      split; [exact B3|]. split; [exact C4|]. exact B5.
  - apply (Only_ok _ _ ([I16 (count DatFile_techs)] ++ flat_map (Tech_layout v) DatFile_techs
      ++ [I32 DatFile_time_slice; I32 DatFile_unit_kill_rate; I32 DatFile_unit_kill_total;
      I32 DatFile_unit_hit_point_rate; I32 DatFile_unit_hit_point_total;
      I32 DatFile_razing_kill_rate; I32 DatFile_razing_kill_total] ++ TechTree_layout v DatFile_tech_tree)).
    + lay_solve.
    + rewrite !cells_ok_app. split; [exact B7|]. split; [exact C8|]. split; [exact B9|exact B10].
Qed.

Lemma encode_flat_None {A} (f : A -> list cell) l x : In x l -> encode (f x) = None -> encode (flat_map f l) = None.
Proof.
  induction l as [|a l IH]; [intros []|]. intros [->|Hx] E; cbn [flat_map]; [apply encode_None_l, E|apply encode_None_r, IH; assumption].
Qed.
Lemma encode_slots_None {A} (f : A -> list cell) l x : In (Some x) l -> encode (f x) = None -> encode (slots f l) = None.
Proof. intros H E. apply (encode_flat_None _ l (Some x) H). exact E. Qed.
Lemma Creatable_no_location v x : since 88 v = false -> Creatable_train_locations x = [] -> encode (Creatable_layout v x) = None.
Proof. intros V E. unfold Creatable_layout. rewrite V, E. apply encode_None_r, encode_None_l. reflexivity. Qed.
Lemma DatFile_no_location v x c u k : v <> UNDEFINED -> since 88 v = false -> DatFile_wf x ->
  In c (DatFile_civs x) -> In (Some u) (Civ_units c) -> Unit_creatable u = Some k -> Creatable_train_locations k = [] ->
  to_bytes (DatFile_retagged v x) = Err IndexError.
Proof.
  intros N V W Hc Hu Hk Hl. pose proof (DatFile_only v x N V W) as O.
  pose proof (to_bytes_table _ UNDEFINED (retagged_arity v x (wf_arity x W))) as T. unfold to_bytes in *.
  assert (E : encode (DatFile_layout (DatFile_retagged v x)) = None).
  { unfold DatFile_layout. replace (DatFile_version (DatFile_retagged v x)) with (version_value v) by (destruct x; reflexivity).
    rewrite (file_version_value v N). unfold guard. match goal with |- context [if ?b then _ else _] => destruct b end; [|reflexivity].
    apply encode_None_r. replace (DatFile_body v (DatFile_retagged v x)) with (DatFile_body v x) by (unfold DatFile_retagged; destruct x; reflexivity).
    unfold DatFile_body. do 18 apply encode_None_r. apply encode_None_l. apply (encode_flat_None _ _ c Hc).
    unfold Civ_layout. do 4 apply encode_None_r. apply (encode_slots_None _ _ u Hu).
    rewrite Unit_layout_eq. do 2 apply encode_None_r. unfold Unit_sections_layout. do 5 apply encode_None_r. apply encode_None_l.
    destruct W as [_ S]. unfold DatFile_shape in S. destruct (file_version (DatFile_version x)); [|destruct S].
    destruct S as (_ & _ & _ & _ & _ & S & _). rewrite Forall_forall in S. specialize (S c Hc). unfold Civ_shape in S. rewrite Forall_forall in S.
    specialize (S _ Hu). cbn [on_some] in S. destruct S as (_ & _ & _ & (_ & _ & _ & _ & _ & P & _) & _). rewrite Hk in P. cbn [present] in P.
    rewrite <- P, Hk. cbn [stored opt_cells]. apply Creatable_no_location; assumption. }
  rewrite E in T. destruct (DatFile_to_bytes (DatFile_retagged v x) UNDEFINED) as [b|e]; [discriminate|]. cbn in O. subst. reflexivity.
Qed.

(** Replacing the civs of a well-formed file by well-formed ones. *)
Lemma with_civs_wf u x l : DatFile_wf x -> file_version (DatFile_version x) = Some u ->
  Forall (fun c => cells_ok (Civ_layout u c) /\ Civ_shape u c) l -> count l < 32768 ->
  DatFile_wf (with_DatFile_civs l x).
Proof.
  intros [H S] V F C. split.
  - unfold DatFile_layout in *. replace (DatFile_version (with_DatFile_civs l x)) with (DatFile_version x) by (destruct x; reflexivity). rewrite V in *.
    apply cells_ok_guard in H. destruct H as [G H]. apply cells_ok_guard. split; [destruct x; exact G|].
    apply cells_ok_app in H. destruct H as [H1 H]. apply cells_ok_app. split; [exact H1|].
    unfold DatFile_body, terrains_used in *. rewrite !cells_ok_app in *.
    assert (C1 : cells_ok [I16 (count (DatFile_civs (with_DatFile_civs l x)))]).
    { replace (DatFile_civs _) with l by (destruct x; reflexivity). unfold cells_ok. cbn [forallb cell_ok]. unfold within, count in *. unfold cell_ok, within. lia. }
    assert (C2 : cells_ok (flat_map (Civ_layout u) (DatFile_civs (with_DatFile_civs l x)))).
    { replace (DatFile_civs _) with l by (destruct x; reflexivity). apply cells_ok_flat_map. eapply Forall_impl; [|exact F]. intros c Hc. apply Hc. }
    revert C1 C2. generalize (DatFile_civs (with_DatFile_civs l x)). intros cs C1 C2. destruct x; cbn in *. tauto.
  - unfold DatFile_shape in *. replace (DatFile_version (with_DatFile_civs l x)) with (DatFile_version x) by (destruct x; reflexivity). rewrite V in *.
    unfold DatFile_body_shape, terrains_used in *. destruct x; cbn -[TerrainBlock_shape RandomMaps_shape TechTree_shape] in *.
    assert (C2 : Forall (Civ_shape u) l) by (eapply Forall_impl; [|exact F]; intros c Hc; apply Hc). tauto.
Qed.
