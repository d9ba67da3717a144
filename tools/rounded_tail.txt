(** * C41: saving rounds the floats and changes nothing else. *)
From Verif Require Import Base PyInt PyFloat PyStr PyStruct DataTypes Versions Common Wire Layout Shape Spec Update FloatSpec Floats Rounded.
From Verif Require Import M_Sound M_PlayerColour M_Effect M_TerrainRestriction M_Graphic
  M_TerrainBlock M_RandomMaps M_Task M_UnitHeaders M_Unit M_Civ M_Tech M_TechTree M_DatFile.
From Verif Require Import Codec CodecC P_More P_Unit P_Civ P_DatFile Theory FloatP ConvertP Sample FloatsP.
Open Scope Z_scope.
Local Open Scope list_scope.
Local Notation length := List.length.

(** ** Rounding a cell *)
Local Notation cell_norm := (cell_map nearest).
Lemma nearest_word x : f32_of_f64 (nearest x) = f32_of_f64 x.
Proof. apply f32_of_f64_of_f32; [apply f32_of_f64_range|apply f32_of_f64_not_snan]. Qed.
Lemma nearest_exact x : f32_exact (nearest x) = true.
Proof. apply f32_exact_of_f32, f32_of_f64_range. Qed.
Lemma cell_norm_bytes c b : cell_bytes c = Some b -> cell_bytes (cell_norm c) = Some b.
Proof.
  destruct c; cbn [cell_map]; try (intros H; exact H); unfold cell_bytes; rewrite nearest_word.
  - intros H; exact H.
  - rewrite (f32_exact_fits _ (nearest_exact x)). destruct (f64_too_large x); [discriminate|]. intros H; exact H.
Qed.
Lemma norm_encode l bs : encode l = Some bs -> encode (map cell_norm l) = Some bs.
Proof.
  revert bs. induction l as [|c l IH]; intros bs H; [exact H|]. cbn [map]. rewrite encode_cons in *.
  destruct (cell_bytes c) as [a|] eqn:A; [|discriminate]. destruct (encode l) as [b|]; [|discriminate].
  rewrite (cell_norm_bytes c a A), (IH b eq_refl). exact H.
Qed.
Definition plain (s : pystr) : Prop := no_trailing_nul s = true.
Lemma norm_ok l bs : encode l = Some bs -> (forall s, In (Text s) l -> no_trailing_nul s = true) ->
  (forall n s, In (Padded n s) l -> cell_ok (Padded n s) = true) -> cells_ok (map cell_norm l).
Proof.
  revert bs. induction l as [|c l IH]; intros bs H T P; [reflexivity|]. cbn [map]. rewrite encode_cons in H.
  destruct (cell_bytes c) as [a|] eqn:A; [|discriminate]. destruct (encode l) as [b|]; [|discriminate].
  apply cells_ok_cons. split.
  - clear IH H. destruct c; cbn [cell_map cell_ok]; unfold cell_bytes in A;
      try (match type of A with (if ?c then _ else _) = _ => destruct c eqn:E; [|discriminate] end); try exact E; try apply nearest_exact.
    + unfold cell_ok. apply andb_prop in E as [E1 E2]. rewrite E1, E2, (T s (or_introl eq_refl)). reflexivity.
    + apply P. left. reflexivity.
    + discriminate.
  - apply (IH b eq_refl); intros; [apply T|apply P]; right; assumption.
Qed.

Lemma file_rounded x : map cell_norm (DatFile_layout x) = DatFile_layout (DatFile_rounded x).
Proof. apply file_norm. Qed.

(** *** The shape does not depend on the floats, except that absent ones are 0 or 1 *)
Lemma nearest_zero : nearest f64_zero = f64_zero. Proof. vm_compute. reflexivity. Qed.
Lemma nearest_one : nearest f64_one = f64_one. Proof. vm_compute. reflexivity. Qed.
Lemma Forall_map_to {A B} (P : A -> Prop) (Q : B -> Prop) f l : (forall a, P a -> Q (f a)) -> Forall P l -> Forall Q (map f l).
Proof. intros H F. induction F; cbn [map]; constructor; auto. Qed.
Lemma on_some_map {A B} (P : A -> Prop) (Q : B -> Prop) f o : (forall a, P a -> Q (f a)) -> on_some P o -> on_some Q (option_map f o).
Proof. intros H. destruct o; cbn; auto. Qed.
Lemma Graphic_rshape v x : Graphic_shape v x -> Graphic_shape v ((Graphic_floats nearest) x).
Proof. intros H. exact H. Qed.
Lemma Terrain_rshape v x : Terrain_shape v x -> Terrain_shape v ((Terrain_floats nearest) x).
Proof. intros H. exact H. Qed.
Lemma TerrainBlock_rshape v x : TerrainBlock_shape v x -> TerrainBlock_shape v ((TerrainBlock_floats nearest) x).
Proof.
  intros (H1 & H2 & H3). split; [exact H1|]. unfold TerrainBlock_floats; cbn [TerrainBlock_terrains]. rewrite count_map. split; [exact H2|].
  revert H3. apply Forall_map_to. apply Terrain_rshape.
Qed.
Lemma Task_rshape v x : Task_shape v x -> Task_shape v ((Task_floats nearest) x).
Proof. intros H. exact H. Qed.
Lemma UnitHeaders_rshape v x : UnitHeaders_shape v x -> UnitHeaders_shape v ((UnitHeaders_floats nearest) x).
Proof.
  unfold UnitHeaders_shape, UnitHeaders_floats. destruct x as [e [l|]]; cbn; [|exact (fun H => H)]. intros [H1 H2]. split; [exact H1|].
  revert H2. apply Forall_map_to. apply Task_rshape.
Qed.
Lemma Bird_rshape v x : Bird_shape v x -> Bird_shape v ((Bird_floats nearest) x).
Proof. intros [H1 H2]. split; [exact H1|]. revert H2. apply Forall_map_to. apply Task_rshape. Qed.
Lemma Type50_rshape v x : Type50_shape v x -> Type50_shape v ((Type50_floats nearest) x).
Proof.
  intros [H1 H2]. split; [exact (eq_trans (count_map _ _) H1)|]. intros V. destruct (H2 V) as (A & B & C & D & E).
  unfold Type50_floats. cbn [Type50_damage_reflection Type50_friendly_fire_damage Type50_interrupt_frame Type50_garrison_firepower Type50_attack_graphic_2].
  rewrite A, B, D, nearest_zero, nearest_one. auto.
Qed.
Lemma Creatable_rshape v x : Creatable_core_shape v x -> Creatable_core_shape v ((Creatable_floats nearest) x).
Proof.
  intros (H0 & H1 & H2 & H3). split; [exact H0|]. split; [exact (eq_trans (count_map _ _) H1)|]. split; [exact H2|].
  intros V. destruct (H3 V) as (A & B & C & D & E & F & G). split; [exact A|]. split; [exact B|]. split; [exact C|]. split; [exact D|].
  split; [|split; [exact F|exact G]]. unfold Creatable_floats. cbn [Creatable_invulnerability_level]. rewrite E. apply nearest_zero.
Qed.
Lemma Building_rshape v x : Building_shape v x -> Building_shape v ((Building_floats nearest) x).
Proof. intros [H1 H2]. split; [exact (eq_trans (count_map _ _) H1)|exact H2]. Qed.
Lemma present_map {A B} (f : A -> B) o : present (option_map f o) = present o.
Proof. destruct o; reflexivity. Qed.
Lemma rounded_hot_key x : train_hot_key ((Unit_floats nearest) x) = train_hot_key x.
Proof. unfold train_hot_key, Unit_floats. cbn [Unit_creatable]. destruct (Unit_creatable x); reflexivity. Qed.
Lemma Unit_rshape v x : Unit_shape v x -> Unit_shape v ((Unit_floats nearest) x).
Proof.
  intros (H1 & (A1 & A2 & A3) & H3 & (S1 & S2 & S3 & S4 & S5 & S6 & S7) & H5 & H6 & H7 & H8 & H9). split; [exact H1|].
  split; [split; [exact A1|]; split; [exact A2|]; exact (eq_trans (count_map _ _) A3)|]. split; [exact (eq_trans (count_map _ _) H3)|].
  split.
  { unfold Unit_sections_shape, Unit_floats. cbn [Unit_type Unit_speed Unit_dead_fish Unit_bird Unit_type_50 Unit_projectile Unit_creatable Unit_building].
    rewrite !present_map. auto 10. }
  split.
  { unfold Unit_hot_key_shape in *. rewrite rounded_hot_key. destruct (since 88 v); [exact H5|]. intros N. apply H5. intros E. apply N.
    unfold Unit_floats. cbn [Unit_creatable]. rewrite E. reflexivity. }
  split; [exact (on_some_map _ _ _ _ (Bird_rshape v) H6)|]. split; [exact (on_some_map _ _ _ _ (Type50_rshape v) H7)|].
  split; [exact (on_some_map _ _ _ _ (Creatable_rshape v) H8)|]. exact (on_some_map _ _ _ _ (Building_rshape v) H9).
Qed.
Lemma Civ_rshape v x : Civ_shape v x -> Civ_shape v ((Civ_floats nearest) x).
Proof. unfold Civ_shape. apply Forall_map_to. intros o. apply on_some_map, Unit_rshape. Qed.
Lemma DatFile_rshape x : DatFile_shape x -> DatFile_shape (DatFile_rounded x).
Proof.
  unfold DatFile_shape. replace (DatFile_version (DatFile_rounded x)) with (DatFile_version x) by reflexivity.
  destruct (file_version (DatFile_version x)) as [v|]; [|exact (fun H => H)].
  intros (H1 & H2 & H3 & H4 & H5 & H6 & H7 & H8). split.
  { rewrite (floats_terrains nearest). revert H1. apply Forall_map_to. intros r Hr. exact (eq_trans (count_map _ _) Hr). }
  split; [revert H2; apply Forall_map_to; intros o; apply on_some_map, Graphic_rshape|].
  split; [exact (TerrainBlock_rshape v _ H3)|]. split; [exact H4|].
  split; [revert H5; apply Forall_map_to, UnitHeaders_rshape|]. split; [revert H6; apply Forall_map_to, Civ_rshape|]. split; [exact H7|exact H8].
Qed.

(** ** C41 *)
Lemma padded_in_file x n s : In (Padded n s) (DatFile_layout x) -> DatFile_shape x -> DatFile_version x <> version_value UNDEFINED ->
  cell_ok (Padded n s) = true.
Proof.
  unfold DatFile_layout, DatFile_shape. destruct (file_version (DatFile_version x)) as [v|] eqn:V; [|contradiction]. intros I _ U.
  unfold guard in I. destruct (_ && _) in I; [|destruct I as [I|[]]; discriminate].
  cbn [app] in I. destruct I as [I|I].
  - injection I as <- <-. apply find_some in V as [_ V]. destruct (list_eq_dec Z.eq_dec (version_value v) (DatFile_version x)) as [Ev|]; [|discriminate].
    destruct v; try (rewrite <- Ev; reflexivity). exfalso. apply U. symmetry. exact Ev.
  - pose proof (body_np v x) as N. rewrite forallb_forall in N. specialize (N _ I). discriminate.
Qed.
Theorem C41_save_rounds : forall x bs, DatFile_shape x -> DatFile_version x <> version_value UNDEFINED ->
  (forall s, In (Text s) (DatFile_layout x) -> no_trailing_nul s = true) ->
  to_bytes x = Ok bs -> from_bytes bs = Ok (DatFile_rounded x) /\ to_bytes (DatFile_rounded x) = Ok bs.
Proof.
  intros x bs S U T E.
  assert (A : DatFile_arity x).
  { unfold DatFile_shape in S. destruct (file_version (DatFile_version x)); [|contradiction].
    destruct S as (_ & _ & _ & _ & _ & H & _). eapply Forall_impl; [|exact H]. intros c Hc. eapply c_arity, Hc. }
  pose proof (to_bytes_table x UNDEFINED A) as L. unfold to_bytes in E. rewrite E in L. cbn [returned] in L. symmetry in L.
  assert (W : DatFile_wf (DatFile_rounded x)).
  { split; [|exact (DatFile_rshape x S)]. rewrite <- file_rounded. apply (norm_ok _ bs L T). intros n s I. exact (padded_in_file x n s I S U). }
  destruct (dat_round_trip_bytes _ W) as (b & Eb & Fb & _).
  pose proof (to_bytes_table _ UNDEFINED (wf_arity _ W)) as Lb. unfold to_bytes in Eb. rewrite Eb in Lb. cbn [returned] in Lb.
  rewrite <- file_rounded, (norm_encode _ bs L) in Lb. injection Lb as ->. split; [exact Fb|exact Eb].
Qed.
(** What rounding does to a number. *)
Theorem C41_nearest : forall x, f64_finite x -> f64_too_large x = false ->
  f64_finite (nearest x) /\ exists b, nearest_even (f64_value x) b /\ f64_value (nearest x) = f32_value b.
Proof.
  intros x F L. pose proof (round_nearest x F L) as N. destruct (widen_value (f32_of_f64 x) (proj1 N)) as (A & _ & B).
  split; [exact A|]. exists (f32_of_f64 x). split; [exact N|exact B].
Qed.
(** Rounding twice is rounding once; what is a binary32 value stays. *)
Theorem C41_nearest_stays : forall x, nearest (nearest x) = nearest x /\ (nearest x = x <-> f32_exact x = true).
Proof. intros x. split; [unfold nearest at 1; rewrite nearest_word; reflexivity|]. symmetry. apply f32_exact_eq. Qed.

(** A well-formed file is not changed. *)
Theorem C41_no_rounding : forall x, DatFile_wf x -> DatFile_rounded x = x.
Proof.
  intros x W. destruct (dat_round_trip_bytes x W) as (bs & E & F & _).
  assert (S : from_bytes bs = Ok (DatFile_rounded x)); [|congruence].
  destruct W as [C S]. refine (proj1 (C41_save_rounds x bs S _ _ E)).
  - intros U. clear -C U. unfold DatFile_layout in C. rewrite U in C. cbn [file_version] in C.
    apply cells_ok_guard in C as [_ C]. apply cells_ok_app in C as [C _]. discriminate C.
  - intros s I. unfold cells_ok in C. rewrite forallb_forall in C. specialize (C _ I). unfold cell_ok in C.
    apply andb_prop in C as [C _]. apply andb_prop in C as [_ C]. exact C.
Qed.
(** Saving and loading any number of times gives the rounded object. *)
Theorem C41_settles : forall x bs n, DatFile_shape x -> DatFile_version x <> version_value UNDEFINED ->
  (forall s, In (Text s) (DatFile_layout x) -> no_trailing_nul s = true) -> to_bytes x = Ok bs -> cycle (S n) x = Ok (DatFile_rounded x).
Proof.
  intros x bs n S U T E. destruct (C41_save_rounds x bs S U T E) as [F _]. cbn [cycle]. rewrite E, F. apply (dat_fixpoint bs), F.
Qed.

(** ** A case: 0.1 in the sample file *)
Definition with_min_x (t : f64) (x : DatFile) : DatFile :=
  with_DatFile_terrain_block (with_TerrainBlock_map_min_x t (DatFile_terrain_block x)) x.
Lemma min_x_table x v : file_version (DatFile_version x) = Some v -> exists pre post,
  (forall t, DatFile_layout (with_min_x t x) = guard
     ((count (DatFile_float_ptr_terrain_tables x) =? count (DatFile_terrain_restrictions x))
             && (count (DatFile_terrain_pass_graphic_pointers x) =? count (DatFile_terrain_restrictions x))) (pre ++ [F32 t] ++ post)).
Proof.
  intros V. assert (B : exists p q, forall t, TerrainBlock_layout v (with_TerrainBlock_map_min_x t (DatFile_terrain_block x)) = p ++ [F32 t] ++ q).
  { destruct (DatFile_terrain_block x). unfold TerrainBlock_layout. cbn [with_TerrainBlock_map_min_x].
    cbn [M_TerrainBlock.TerrainBlock_virtual_function_ptr M_TerrainBlock.TerrainBlock_map_pointer M_TerrainBlock.TerrainBlock_map_width M_TerrainBlock.TerrainBlock_map_height M_TerrainBlock.TerrainBlock_world_width M_TerrainBlock.TerrainBlock_world_height M_TerrainBlock.TerrainBlock_tile_sizes M_TerrainBlock.TerrainBlock_padding_ts M_TerrainBlock.TerrainBlock_terrains M_TerrainBlock.TerrainBlock_map_min_x M_TerrainBlock.TerrainBlock_map_min_y M_TerrainBlock.TerrainBlock_map_max_x M_TerrainBlock.TerrainBlock_map_max_y M_TerrainBlock.TerrainBlock_map_max_x_plus_1 M_TerrainBlock.TerrainBlock_map_max_y_plus_1 M_TerrainBlock.TerrainBlock_terrains_used_2 M_TerrainBlock.TerrainBlock_borders_used M_TerrainBlock.TerrainBlock_max_terrain M_TerrainBlock.TerrainBlock_tile_width M_TerrainBlock.TerrainBlock_tile_height M_TerrainBlock.TerrainBlock_tile_half_height M_TerrainBlock.TerrainBlock_tile_half_width M_TerrainBlock.TerrainBlock_elev_height M_TerrainBlock.TerrainBlock_cur_row M_TerrainBlock.TerrainBlock_cur_col M_TerrainBlock.TerrainBlock_block_beg_row M_TerrainBlock.TerrainBlock_block_end_row M_TerrainBlock.TerrainBlock_block_beg_col M_TerrainBlock.TerrainBlock_block_end_col M_TerrainBlock.TerrainBlock_search_map_ptr M_TerrainBlock.TerrainBlock_search_map_rows_ptr M_TerrainBlock.TerrainBlock_any_frame_change M_TerrainBlock.TerrainBlock_map_visible_flag M_TerrainBlock.TerrainBlock_fog_flag].
    match goal with |- exists p q, forall t, ?a ++ ?b ++ ?c ++ ?e ++ (_ :: ?d) = _ => exists (a ++ b ++ c ++ e), d end.
    intros t. rewrite <- !app_assoc. reflexivity. }
  destruct B as (p & q & B). unfold DatFile_layout.
  assert (E : exists pre post, forall b, [Padded 8 (DatFile_version x)] ++ DatFile_body v (with_DatFile_terrain_block b x) = pre ++ TerrainBlock_layout v b ++ post).
  { destruct x. unfold DatFile_body, terrains_used. cbn [with_DatFile_terrain_block PROJS].
    match goal with |- exists p q, forall t, ?a0 ++ ?a1 ++ ?a2 ++ ?a3 ++ ?a4 ++ ?a5 ++ ?a6 ++ ?a7 ++ ?a8 ++ ?a9 ++ ?a10 ++ ?a11 ++ _ ++ ?d = _ =>
      exists (a0 ++ a1 ++ a2 ++ a3 ++ a4 ++ a5 ++ a6 ++ a7 ++ a8 ++ a9 ++ a10 ++ a11), d end.
    intros t. rewrite <- !app_assoc. reflexivity. }
  destruct E as (pre & post & E). exists (pre ++ p), (q ++ post). intros t.
  specialize (E (with_TerrainBlock_map_min_x t (DatFile_terrain_block x))). fold (with_min_x t x) in E.
  replace (DatFile_version (with_min_x t x)) with (DatFile_version x) by (destruct x; reflexivity). rewrite V.
  replace (DatFile_float_ptr_terrain_tables (with_min_x t x)) with (DatFile_float_ptr_terrain_tables x) by (destruct x; reflexivity).
  replace (DatFile_terrain_pass_graphic_pointers (with_min_x t x)) with (DatFile_terrain_pass_graphic_pointers x) by (destruct x; reflexivity).
  rewrite E.
  replace (DatFile_terrain_restrictions (with_min_x t x)) with (DatFile_terrain_restrictions x) by (destruct x; reflexivity).
  rewrite B, <- !app_assoc. reflexivity.
Qed.

Lemma min_x_same x : with_min_x (TerrainBlock_map_min_x (DatFile_terrain_block x)) x = x.
Proof. destruct x as [? ? ? ? ? ? ? []]; reflexivity. Qed.
Lemma min_x_version t x : DatFile_version (with_min_x t x) = DatFile_version x.
Proof. destruct x; reflexivity. Qed.
Lemma min_x_shape t x : DatFile_shape x -> DatFile_shape (with_min_x t x).
Proof.
  unfold DatFile_shape. rewrite min_x_version. destruct (file_version (DatFile_version x)) as [v|]; [|exact (fun H => H)].
  unfold with_min_x. destruct x as [? ? ? ? ? ? ? []]. exact (fun H => H).
Qed.
(** Any well-formed file with any storable number put in one place meets the hypotheses of
    C41_save_rounds and is read back as the same file with that number rounded. *)
Theorem C41_one_number : forall x t, DatFile_wf x -> exists bs,
  to_bytes (with_min_x t x) = Ok bs /\ from_bytes bs = Ok (with_min_x (nearest t) x).
Proof.
  intros x t W. pose proof W as [C S]. pose proof (wf_arity x W) as A.
  assert (V : exists v, file_version (DatFile_version x) = Some v).
  { unfold DatFile_shape in S. destruct (file_version (DatFile_version x)); [eauto|contradiction]. }
  destruct V as [v V]. destruct (min_x_table x v V) as (pre & post & T).
  assert (C0 := T (TerrainBlock_map_min_x (DatFile_terrain_block x))). rewrite min_x_same in C0. rewrite C0 in C.
  apply cells_ok_guard in C as [G C]. rewrite G in C0, T. cbn [guard] in C0, T.
  apply cells_ok_app in C as [Cp C]. apply cells_ok_app in C as [Ct Cq].
  destruct (cells_ok_encode _ Cp) as [bp Ep]. destruct (cells_ok_encode _ Cq) as [bq Eq].
  assert (At : DatFile_arity (with_min_x t x)) by (destruct x; exact A).
  pose proof (to_bytes_table (with_min_x t x) UNDEFINED At) as E. rewrite T, !encode_app, Ep, Eq in E.
  assert (Et : exists b, encode [F32 t] = Some b) by (eexists; reflexivity).
  destruct Et as [bt Et]. rewrite Et in E. cbn [oapp] in E.
  destruct (DatFile_to_bytes (with_min_x t x) UNDEFINED) as [bs|] eqn:Eb; [|discriminate E].
  exists bs. split; [exact Eb|].
  assert (U : DatFile_version x <> version_value UNDEFINED).
  { intros U. clear -W U. destruct W as [C _]. unfold DatFile_layout in C. rewrite U in C. cbn [file_version] in C.
    apply cells_ok_guard in C as [_ C]. apply cells_ok_app in C as [C _]. discriminate C. }
  destruct (C41_save_rounds (with_min_x t x) bs (min_x_shape t x S)) as [F _].
  - rewrite min_x_version. exact U.
  - intros s I. rewrite T in I. assert (K : cell_ok (Text s) = true).
    { destruct W as [K _]. unfold cells_ok in K. rewrite forallb_forall in K. apply K. rewrite C0. clear -I.
      apply in_app_iff in I as [I|I]; [apply in_app_iff; left; exact I|]. destruct I as [I|I]; [discriminate I|].
      apply in_app_iff; right. right. exact I. }
    unfold cell_ok in K. apply andb_prop in K as [K _]. apply andb_prop in K as [_ K]. exact K.
  - exact Eb.
  - rewrite F. f_equal. transitivity (with_min_x (nearest t) (DatFile_rounded x)).
    + unfold with_min_x, DatFile_rounded, DatFile_floats. destruct x as [? ? ? ? ? ? ? []]. reflexivity.
    + rewrite (C41_no_rounding x W). reflexivity.
Qed.
(** 0.1 (0x3FB999999999999A) in the sample file: the file is saved, what is read back differs and
    holds 0x3FB99999A0000000, the binary32 number nearest to 0.1. *)
Example C41_case : forall v, v <> UNDEFINED -> exists bs y, to_bytes (with_min_x (f64_of_bits 4591870180066957722) (sample v)) = Ok bs /\
  from_bytes bs = Ok y /\ y <> with_min_x (f64_of_bits 4591870180066957722) (sample v) /\
  TerrainBlock_map_min_x (DatFile_terrain_block y) = f64_of_bits 4591870180174331904.
Proof.
  intros v U. destruct (C41_one_number (sample v) (f64_of_bits 4591870180066957722) (sample_wf v U)) as (bs & E & F).
  exists bs, (with_min_x (nearest (f64_of_bits 4591870180066957722)) (sample v)). split; [exact E|]. split; [exact F|].
  assert (N : nearest (f64_of_bits 4591870180066957722) = f64_of_bits 4591870180174331904) by (vm_compute; reflexivity). rewrite N.
  assert (M : forall t, TerrainBlock_map_min_x (DatFile_terrain_block (with_min_x t (sample v))) = t)
    by (intros t; unfold with_min_x; destruct (sample v) as [? ? ? ? ? ? ? []]; reflexivity).
  split; [|apply M]. intros Y. apply (f_equal (fun d => TerrainBlock_map_min_x (DatFile_terrain_block d))) in Y. rewrite !M in Y.
  revert Y. vm_compute. discriminate.
Qed.

Definition all_of_this_file := (C41_save_rounds, C41_nearest, C41_nearest_stays, C41_no_rounding, C41_settles, C41_one_number, C41_case).
Print Assumptions all_of_this_file.
