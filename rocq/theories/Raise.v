(** * Which exceptions a writer can raise. *)
From Verif Require Import Base PyInt PyFloat PyStr PyStruct DataTypes Versions Common Wire Layout Stored Faults.
From Verif Require Import Codec P_Unit P_DatFile.
From Verif Require Import M_Sound M_PlayerColour M_Effect M_TerrainRestriction M_Graphic
  M_TerrainBlock M_RandomMaps M_Task M_UnitHeaders M_Unit M_Civ M_Tech M_TechTree M_DatFile.
From Coq Require Import String ZifyBool.
Open Scope Z_scope.
Local Open Scope list_scope.
Local Notation length := List.length.

(** [w] returns or raises an exception in [S]. *)
Definition raises {A} (S : exn -> Prop) (w : res A) : Prop := match w with Ok _ => True | Err e => S e end.

Section Raise.
  Context {S : exn -> Prop}.
  Lemma raises_Ok {A} (a : A) : raises S (Ok a). Proof. exact I. Qed.
  Lemma raises_rbind {A B} (m : res A) (k : A -> res B) :
    raises S m -> (forall a, m = Ok a -> raises S (k a)) -> raises S (rbind m k).
  Proof. destruct m; cbn; auto. Qed.
  Lemma raises_wapp a b : raises S a -> raises S b -> raises S (a +++ b).
  Proof. intros H1 H2. destruct a; [|exact H1]. destruct b; [exact I|exact H2]. Qed.
  Lemma raises_join_nil : raises S (join []). Proof. exact I. Qed.
  Lemma raises_join_cons w ws : raises S w -> raises S (join ws) -> raises S (join (w :: ws)).
  Proof. rewrite join_cons. apply raises_wapp. Qed.
  Lemma raises_map {A} (f : A -> res bytes) l : (forall x, In x l -> raises S (f x)) -> raises S (join (map f l)).
  Proof.
    induction l as [|x l IH]; intros H; [exact I|]. cbn [map]. apply raises_join_cons; [apply H; left; reflexivity|].
    apply IH. intros y Hy. apply H. right. exact Hy.
  Qed.
  Lemma raises_int n s z : S OverflowError -> raises S (Int_to_bytes z n s).
  Proof. intros H. unfold Int_to_bytes, int_to_bytes. destruct (int_fits n s z); [exact I|exact H]. Qed.
  Lemma raises_i16 z s c : S OverflowError -> raises S (write_int_16 z s c).
  Proof. intros H. unfold write_int_16. destruct (negb c); [exact I|apply raises_int, H]. Qed.
  Lemma raises_u8 z : S OverflowError -> raises S (write_int_8 z).
  Proof. apply raises_int. Qed.
  Lemma raises_i32 z s : S OverflowError -> raises S (write_int_32 z s).
  Proof. apply raises_int. Qed.
  Lemma raises_f32 x : raises S (write_float x). Proof. exact I. Qed.
  Lemma raises_u8s l : S OverflowError -> raises S (write_int_8_array l).
  Proof. intros H. apply raises_map. intros. apply raises_u8, H. Qed.
  Lemma raises_i16s l : S OverflowError -> raises S (write_int_16_array l).
  Proof. intros H. apply raises_map. intros. apply raises_i16, H. Qed.
  Lemma raises_i32s l : S OverflowError -> raises S (write_int_32_array l).
  Proof. intros H. apply raises_map. intros. apply raises_i32, H. Qed.
  Lemma raises_f32s l : raises S (write_float_array l).
  Proof. apply raises_map. intros. apply raises_f32. Qed.
  Lemma raises_encode s : (not_text s -> S UnicodeEncodeError) -> raises S (str_encode s).
  Proof.
    intros H. unfold str_encode. destruct (forallb scalar s) eqn:E; [exact I|]. apply H.
    apply Bool.not_true_iff_false in E. unfold not_text.
    induction s as [|c s IH]; [contradiction (E eq_refl)|]. cbn [forallb] in E. destruct (scalar c) eqn:Ec.
    - cbn [andb] in E. destruct IH as (d & Hd & Hs); [|exact E|exists d; split; [right; exact Hd|exact Hs]].
      intros (d & Hd & Hs). apply H. exists d. split; [right; exact Hd|exact Hs].
    - exists c. split; [left; reflexivity|]. clear -Ec. unfold scalar, surrogate in Ec. lia.
  Qed.
  Lemma raises_text s : S OverflowError -> (not_text s -> S UnicodeEncodeError) -> raises S (write_debug_string s).
  Proof.
    intros H H'. apply raises_rbind; [apply raises_encode, H'|]. intros b _.
    apply raises_wapp; [apply raises_i16, H|]. apply raises_wapp; [apply raises_i16, H|exact I].
  Qed.
  Lemma raises_string n s : (not_text s -> S UnicodeEncodeError) -> raises S (write_string n s).
  Proof. intros H. apply raises_rbind; [apply raises_encode, H|]. intros b _. exact I. Qed.
  Lemma raises_pack fmt vs : S OverflowError -> S StructError -> raises S (struct_pack fmt vs).
  Proof.
    intros HO HS. unfold struct_pack. destruct (parse_fmt fmt) as [cs|]; [|exact HS].
    destruct (Nat.eqb _ _); [|exact HS]. revert vs. induction cs as [|c cs IH]; intros [|v vs]; try exact I.
    cbn [pack_items]. apply raises_wapp; [|apply IH]. destruct c, v; cbn [pack1]; try exact HS.
    1-3: match goal with |- context [int_fits ?a ?b ?c] => destruct (int_fits a b c) end; [exact I|exact HS].
    - destruct (f64_of_Z z); [|exact HS]. unfold pack_float. destruct (f64_too_large _); [exact HO|exact I].
    - unfold pack_float. destruct (f64_too_large _); [exact HO|exact I].
  Qed.
  Lemma raises_class {A} (tb : A -> Version -> res bytes) x v : raises S (tb x v) -> raises S (write_class tb x v).
  Proof. rewrite write_class_eq. auto. Qed.
  Lemma raises_classes {A} (tb : A -> Version -> res bytes) l v :
    (forall x, In x l -> raises S (tb x v)) -> raises S (write_class_array tb (map Some l) v).
  Proof. rewrite write_class_array_some. apply raises_map. Qed.
  Lemma raises_slots {A} (tb : A -> Version -> res bytes) l v :
    (forall x, In (Some x) l -> raises S (tb x v)) -> raises S (write_class_array tb l v).
  Proof.
    rewrite write_class_array_eq. induction l as [|[x|] l IH]; intros H; [exact I| |].
    - cbn [flat_map app]. apply raises_join_cons; [apply H; left; reflexivity|]. apply IH. intros y Hy. apply H. right. exact Hy.
    - cbn [flat_map app]. apply IH. intros y Hy. apply H. right. exact Hy.
  Qed.
  Lemma raises_if {A} (c : bool) (a b : res A) : raises S a -> raises S b -> raises S (if c then a else b).
  Proof. destruct c; auto. Qed.
  Lemma raises_opt {A} (o : option A) (f : A -> res bytes) : (forall x, o = Some x -> raises S (f x)) -> raises S (match o with Some x => f x | None => Ok [] end).
  Proof. destruct o; [auto|intros; exact I]. Qed.
End Raise.
Create HintDb raisesdb.
#[global] Hint Resolve raises_Ok raises_u8 raises_i16 raises_i32 raises_f32 raises_u8s raises_i16s raises_i32s raises_f32s raises_pack : raisesdb.
Ltac rs1 := match goal with
  | |- raises _ (Ok _) => exact I
  | |- raises _ (write_float _) => exact I
  | |- raises _ (write_float_array _) => apply raises_f32s
  | |- raises _ (write_int_8 _) => apply raises_u8; assumption
  | |- raises _ (write_int_16 _ _ _) => apply raises_i16; assumption
  | |- raises _ (write_int_32 _ _) => apply raises_i32; assumption
  | |- raises _ (write_int_8_array _) => apply raises_u8s; assumption
  | |- raises _ (write_int_16_array _) => apply raises_i16s; assumption
  | |- raises _ (write_int_32_array _) => apply raises_i32s; assumption
  | |- raises _ (struct_pack _ _) => apply raises_pack; assumption
  | |- raises _ (write_debug_string _) => apply raises_text; [assumption|]
  | |- raises _ (write_string _ _) => apply raises_string
  | |- raises _ (join []) => exact I
  | |- raises _ (join (_ :: _)) => apply raises_join_cons
  | |- raises _ (_ +++ _) => apply raises_wapp
  | |- raises _ (write_class _ _ _) => apply raises_class
  | |- raises _ (write_class_array _ (map Some _) _) => apply raises_classes; intros ? ?
  | |- raises _ (write_class_array _ _ _) => apply raises_slots; intros ? ?
  | |- raises _ (if _ then _ else _) => apply raises_if
  | |- raises _ (match _ with Some _ => _ | None => _ end) => apply raises_opt; intros ? ?
  | |- raises _ (rbind _ _) => apply raises_rbind; [|intros ? _]
  | |- raises _ (_ _ _) => solve [eauto 3 with raisesdb]
  end.
Ltac rs := repeat rs1.

Lemma SoundItem_raises {S : exn -> Prop} v x : S OverflowError -> S StructError ->
  (forall s, In s (SoundItem_strings x) -> not_text s -> S UnicodeEncodeError) ->
  raises S (SoundItem_to_bytes x v).
Proof. intros HO HS HU. unfold SoundItem_to_bytes. rs; try (apply HU; cbn; auto; fail). Qed.

Lemma Sound_raises {S : exn -> Prop} v x : S OverflowError -> S StructError ->
  (forall s, In s (Sound_strings x) -> not_text s -> S UnicodeEncodeError) ->
  raises S (Sound_to_bytes x v).
Proof. intros HO HS HU. unfold Sound_to_bytes. rs. apply SoundItem_raises; auto. intros s Hs. apply HU. apply in_flat_map. eauto. Qed.

Lemma PlayerColour_raises {S : exn -> Prop} v x : S OverflowError -> S StructError -> raises S (PlayerColour_to_bytes x v).
Proof. intros HO HS. unfold PlayerColour_to_bytes; try unfold PlayerColour_to_bytes_84, PlayerColour_to_bytes_78; try unfold PlayerColour_to_bytes_88; rs. Qed.
#[global] Hint Resolve PlayerColour_raises : raisesdb.
Lemma EffectCommand_raises {S : exn -> Prop} v x : S OverflowError -> S StructError -> raises S (EffectCommand_to_bytes x v).
Proof. intros HO HS. unfold EffectCommand_to_bytes; try unfold EffectCommand_to_bytes_84, EffectCommand_to_bytes_78; try unfold EffectCommand_to_bytes_88; rs. Qed.
#[global] Hint Resolve EffectCommand_raises : raisesdb.
Lemma Effect_raises {S : exn -> Prop} v x : S OverflowError -> S StructError ->
  (forall s, In s (Effect_strings x) -> not_text s -> S UnicodeEncodeError) ->
  raises S (Effect_to_bytes x v).
Proof. intros HO HS HU. unfold Effect_to_bytes. rs; try (apply HU; cbn; auto; fail). Qed.

Lemma TerrainPassGraphic_raises {S : exn -> Prop} v x : S OverflowError -> S StructError -> raises S (TerrainPassGraphic_to_bytes x v).
Proof. intros HO HS. unfold TerrainPassGraphic_to_bytes; try unfold TerrainPassGraphic_to_bytes_84, TerrainPassGraphic_to_bytes_78; try unfold TerrainPassGraphic_to_bytes_88; rs. Qed.
#[global] Hint Resolve TerrainPassGraphic_raises : raisesdb.
Lemma len_neq {A B} (a : list A) (b : list B) : (len a =? len b) = false -> length a <> length b.
Proof. unfold len. intros H E. rewrite E in H. lia. Qed.
Lemma TerrainRestriction_raises {S : exn -> Prop} v x : S OverflowError -> S StructError ->
  (uneven_restriction x -> S AssertionError) -> raises S (TerrainRestriction_to_bytes x v).
Proof.
  intros HO HS HA. unfold TerrainRestriction_to_bytes. apply raises_rbind; [|intros _ _; rs].
  unfold py_assert. destruct (_ =? _) eqn:E; [exact I|]. apply HA. exact (len_neq _ _ E).
Qed.

Lemma GraphicDelta_raises {S : exn -> Prop} v x : S OverflowError -> S StructError -> raises S (GraphicDelta_to_bytes x v).
Proof. intros HO HS. unfold GraphicDelta_to_bytes; try unfold GraphicDelta_to_bytes_84, GraphicDelta_to_bytes_78; try unfold GraphicDelta_to_bytes_88; rs. Qed.
#[global] Hint Resolve GraphicDelta_raises : raisesdb.
Lemma GraphicAngleSound_raises {S : exn -> Prop} v x : S OverflowError -> S StructError -> raises S (GraphicAngleSound_to_bytes x v).
Proof. intros HO HS. unfold GraphicAngleSound_to_bytes; try unfold GraphicAngleSound_to_bytes_84, GraphicAngleSound_to_bytes_78; try unfold GraphicAngleSound_to_bytes_88; rs. Qed.
#[global] Hint Resolve GraphicAngleSound_raises : raisesdb.
Lemma Graphic_raises {S : exn -> Prop} v x : S OverflowError -> S StructError ->
  (forall s, In s (Graphic_strings x) -> not_text s -> S UnicodeEncodeError) ->
  raises S (Graphic_to_bytes x v).
Proof. intros HO HS HU. unfold Graphic_to_bytes. rs; try (apply HU; cbn; auto; fail). Qed.

Lemma FrameData_raises {S : exn -> Prop} v x : S OverflowError -> S StructError -> raises S (FrameData_to_bytes x v).
Proof. intros HO HS. unfold FrameData_to_bytes; try unfold FrameData_to_bytes_84, FrameData_to_bytes_78; try unfold FrameData_to_bytes_88; rs. Qed.
#[global] Hint Resolve FrameData_raises : raisesdb.
Lemma Terrain_raises {S : exn -> Prop} v x : S OverflowError -> S StructError ->
  (forall s, In s (Terrain_strings x) -> not_text s -> S UnicodeEncodeError) ->
  raises S (Terrain_to_bytes x v).
Proof. intros HO HS HU. unfold Terrain_to_bytes. rs; try (apply HU; cbn; auto; fail). Qed.

Lemma TileSize_raises {S : exn -> Prop} v x : S OverflowError -> S StructError -> raises S (TileSize_to_bytes x v).
Proof. intros HO HS. unfold TileSize_to_bytes; try unfold TileSize_to_bytes_84, TileSize_to_bytes_78; try unfold TileSize_to_bytes_88; rs. Qed.
#[global] Hint Resolve TileSize_raises : raisesdb.
Lemma TerrainBlock_raises {S : exn -> Prop} v x : S OverflowError -> S StructError ->
  (forall s, In s (TerrainBlock_strings x) -> not_text s -> S UnicodeEncodeError) ->
  raises S (TerrainBlock_to_bytes x v).
Proof. intros HO HS HU. unfold TerrainBlock_to_bytes. rs. apply Terrain_raises; auto. intros s Hs. apply HU. apply in_flat_map. eauto. Qed.

Lemma MapUnit_raises {S : exn -> Prop} v x : S OverflowError -> S StructError -> raises S (MapUnit_to_bytes x v).
Proof. intros HO HS. unfold MapUnit_to_bytes; try unfold MapUnit_to_bytes_84, MapUnit_to_bytes_78; try unfold MapUnit_to_bytes_88; rs. Qed.
#[global] Hint Resolve MapUnit_raises : raisesdb.
Lemma MapTerrain_raises {S : exn -> Prop} v x : S OverflowError -> S StructError -> raises S (MapTerrain_to_bytes x v).
Proof. intros HO HS. unfold MapTerrain_to_bytes; try unfold MapTerrain_to_bytes_84, MapTerrain_to_bytes_78; try unfold MapTerrain_to_bytes_88; rs. Qed.
#[global] Hint Resolve MapTerrain_raises : raisesdb.
Lemma MapLand_raises {S : exn -> Prop} v x : S OverflowError -> S StructError -> raises S (MapLand_to_bytes x v).
Proof. intros HO HS. unfold MapLand_to_bytes; try unfold MapLand_to_bytes_84, MapLand_to_bytes_78; try unfold MapLand_to_bytes_88; rs. Qed.
#[global] Hint Resolve MapLand_raises : raisesdb.
Lemma MapElevation_raises {S : exn -> Prop} v x : S OverflowError -> S StructError -> raises S (MapElevation_to_bytes x v).
Proof. intros HO HS. unfold MapElevation_to_bytes; try unfold MapElevation_to_bytes_84, MapElevation_to_bytes_78; try unfold MapElevation_to_bytes_88; rs. Qed.
#[global] Hint Resolve MapElevation_raises : raisesdb.
Lemma MapInfo_raises {S : exn -> Prop} v x : S OverflowError -> S StructError -> raises S (MapInfo_to_bytes x v).
Proof. intros HO HS. unfold MapInfo_to_bytes; try unfold MapInfo_to_bytes_84, MapInfo_to_bytes_78; try unfold MapInfo_to_bytes_88; rs. Qed.
#[global] Hint Resolve MapInfo_raises : raisesdb.
Lemma RandomMaps_raises {S : exn -> Prop} v x : S OverflowError -> S StructError ->
  (uneven_maps x -> S AssertionError) -> raises S (RandomMaps_to_bytes x v).
Proof.
  intros HO HS HA. unfold RandomMaps_to_bytes. apply raises_rbind; [|intros _ _; rs].
  unfold py_assert. destruct (_ =? _) eqn:E; [exact I|]. apply HA. exact (len_neq _ _ E).
Qed.

Lemma Task_raises {S : exn -> Prop} v x : S OverflowError -> S StructError -> raises S (Task_to_bytes x v).
Proof. intros HO HS. unfold Task_to_bytes; try unfold Task_to_bytes_84, Task_to_bytes_78; try unfold Task_to_bytes_88; rs. Qed.
#[global] Hint Resolve Task_raises : raisesdb.
Lemma UnitHeaders_raises {S : exn -> Prop} v x : S OverflowError -> S StructError -> raises S (UnitHeaders_to_bytes x v).
Proof. intros HO HS. unfold UnitHeaders_to_bytes; try unfold UnitHeaders_to_bytes_84, UnitHeaders_to_bytes_78; try unfold UnitHeaders_to_bytes_88; rs. Qed.
#[global] Hint Resolve UnitHeaders_raises : raisesdb.
Lemma ResourceStorage_raises {S : exn -> Prop} v x : S OverflowError -> S StructError -> raises S (ResourceStorage_to_bytes x v).
Proof. intros HO HS. unfold ResourceStorage_to_bytes; try unfold ResourceStorage_to_bytes_84, ResourceStorage_to_bytes_78; try unfold ResourceStorage_to_bytes_88; rs. Qed.
#[global] Hint Resolve ResourceStorage_raises : raisesdb.
Lemma DamageGraphic_raises {S : exn -> Prop} v x : S OverflowError -> S StructError -> raises S (DamageGraphic_to_bytes x v).
Proof. intros HO HS. unfold DamageGraphic_to_bytes; try unfold DamageGraphic_to_bytes_84, DamageGraphic_to_bytes_78; try unfold DamageGraphic_to_bytes_88; rs. Qed.
#[global] Hint Resolve DamageGraphic_raises : raisesdb.
Lemma DeadFish_raises {S : exn -> Prop} v x : S OverflowError -> S StructError -> raises S (DeadFish_to_bytes x v).
Proof. intros HO HS. unfold DeadFish_to_bytes; try unfold DeadFish_to_bytes_84, DeadFish_to_bytes_78; try unfold DeadFish_to_bytes_88; rs. Qed.
#[global] Hint Resolve DeadFish_raises : raisesdb.
Lemma Bird_raises {S : exn -> Prop} v x : S OverflowError -> S StructError -> raises S (Bird_to_bytes x v).
Proof. intros HO HS. unfold Bird_to_bytes; try unfold Bird_to_bytes_84, Bird_to_bytes_78; try unfold Bird_to_bytes_88; rs. Qed.
#[global] Hint Resolve Bird_raises : raisesdb.
Lemma AttackOrArmor_raises {S : exn -> Prop} v x : S OverflowError -> S StructError -> raises S (AttackOrArmor_to_bytes x v).
Proof. intros HO HS. unfold AttackOrArmor_to_bytes; try unfold AttackOrArmor_to_bytes_84, AttackOrArmor_to_bytes_78; try unfold AttackOrArmor_to_bytes_88; rs. Qed.
#[global] Hint Resolve AttackOrArmor_raises : raisesdb.
Lemma Type50_raises {S : exn -> Prop} v x : S OverflowError -> S StructError -> raises S (Type50_to_bytes x v).
Proof. intros HO HS. unfold Type50_to_bytes; cbv zeta; rs. Qed.
#[global] Hint Resolve Type50_raises : raisesdb.
Lemma Projectile_raises {S : exn -> Prop} v x : S OverflowError -> S StructError -> raises S (Projectile_to_bytes x v).
Proof. intros HO HS. unfold Projectile_to_bytes; try unfold Projectile_to_bytes_84, Projectile_to_bytes_78; try unfold Projectile_to_bytes_88; rs. Qed.
#[global] Hint Resolve Projectile_raises : raisesdb.
Lemma ResourceCost_raises {S : exn -> Prop} v x : S OverflowError -> S StructError -> raises S (ResourceCost_to_bytes x v).
Proof. intros HO HS. unfold ResourceCost_to_bytes; try unfold ResourceCost_to_bytes_84, ResourceCost_to_bytes_78; try unfold ResourceCost_to_bytes_88; rs. Qed.
#[global] Hint Resolve ResourceCost_raises : raisesdb.
Lemma TrainLocation_raises {S : exn -> Prop} v x : S OverflowError -> S StructError -> raises S (TrainLocation_to_bytes x v).
Proof. intros HO HS. unfold TrainLocation_to_bytes; try unfold TrainLocation_to_bytes_84, TrainLocation_to_bytes_78; try unfold TrainLocation_to_bytes_88; rs. Qed.
#[global] Hint Resolve TrainLocation_raises : raisesdb.
Lemma Creatable_raises {S : exn -> Prop} v x : S OverflowError -> S StructError ->
  (trains_nowhere v x -> S IndexError) -> raises S (Creatable_to_bytes x v).
Proof.
  intros HO HS HI. unfold Creatable_to_bytes. rewrite ge_88, ge_84. destruct (since 88 v) eqn:V.
  - unfold Creatable_to_bytes_88. rs.
  - assert (HF : raises S (py_index (Creatable_train_locations x) 0)).
    { unfold py_index. destruct (Creatable_train_locations x) as [|l r] eqn:E; [|exact I]. apply HI. split; assumption. }
    apply raises_if; [unfold Creatable_to_bytes_84|unfold Creatable_to_bytes_78];
    (apply raises_wapp; [rs|]; apply raises_rbind; [exact HF|]; intros f _; rs).
Qed.

Lemma BuildingAnnex_raises {S : exn -> Prop} v x : S OverflowError -> S StructError -> raises S (BuildingAnnex_to_bytes x v).
Proof. intros HO HS. unfold BuildingAnnex_to_bytes; try unfold BuildingAnnex_to_bytes_84, BuildingAnnex_to_bytes_78; try unfold BuildingAnnex_to_bytes_88; rs. Qed.
#[global] Hint Resolve BuildingAnnex_raises : raisesdb.
Lemma Building_raises {S : exn -> Prop} v x : S OverflowError -> S StructError -> raises S (Building_to_bytes x v).
Proof. intros HO HS. unfold Building_to_bytes; try unfold Building_to_bytes_84, Building_to_bytes_78; try unfold Building_to_bytes_88; rs. Qed.
#[global] Hint Resolve Building_raises : raisesdb.
Lemma Unit_raises {S : exn -> Prop} v x : S OverflowError -> S StructError ->
  (forall s, In s (Unit_strings x) -> not_text s -> S UnicodeEncodeError) ->
  (unit_trains_nowhere v x -> S IndexError) -> raises S (Unit_to_bytes x v).
Proof.
  intros HO HS HU HI. unfold Unit_to_bytes.
  assert (HC : has_creatable (Unit_type x) = true -> raises S
    match Unit_creatable x with Some c => write_class Creatable_to_bytes c v | None => Ok [] end).
  { intros T. apply raises_opt. intros c Ec. apply raises_class, Creatable_raises; auto. intros Hn. apply HI. split; [exact T|]. eauto. }
  apply raises_if; [unfold Unit_to_bytes_88|unfold Unit_to_bytes_84]; cbn [rbind]; rewrite sections_write;
  (apply raises_rbind; [rs|intros s1 _]; apply raises_rbind; [rs|intros s2 _]; apply raises_rbind; [rs|intros s3 _];
   apply raises_rbind; [rs|intros s4 _]; apply raises_rbind; [rs|intros s5 _];
   apply raises_rbind; [destruct (has_creatable (Unit_type x)); [auto|exact I]|intros s6 _];
   apply raises_rbind; [rs|intros s7 _]; rs; apply HU; left; reflexivity).
Qed.

Lemma Civ_raises {S : exn -> Prop} v x : S OverflowError -> S StructError ->
  (forall s, In s (Civ_strings x) -> not_text s -> S UnicodeEncodeError) ->
  (forall u, In (Some u) (Civ_units x) -> unit_trains_nowhere v u -> S IndexError) -> raises S (Civ_to_bytes x v).
Proof.
  intros HO HS HU HI. unfold Civ_to_bytes. rs; [apply HU; left; reflexivity|]. apply Unit_raises; eauto.
  intros s Hs. apply HU. right. apply in_flat_map. exists x0. split; [|exact Hs].
  apply in_flat_map. exists (Some x0). split; [assumption|left; reflexivity].
Qed.

Lemma ResearchResourceCost_raises {S : exn -> Prop} v x : S OverflowError -> S StructError -> raises S (ResearchResourceCost_to_bytes x v).
Proof. intros HO HS. unfold ResearchResourceCost_to_bytes; try unfold ResearchResourceCost_to_bytes_84, ResearchResourceCost_to_bytes_78; try unfold ResearchResourceCost_to_bytes_88; rs. Qed.
#[global] Hint Resolve ResearchResourceCost_raises : raisesdb.
Lemma ResearchLocation_raises {S : exn -> Prop} v x : S OverflowError -> S StructError -> raises S (ResearchLocation_to_bytes x v).
Proof. intros HO HS. unfold ResearchLocation_to_bytes; try unfold ResearchLocation_to_bytes_84, ResearchLocation_to_bytes_78; try unfold ResearchLocation_to_bytes_88; rs. Qed.
#[global] Hint Resolve ResearchLocation_raises : raisesdb.
Lemma Tech_raises {S : exn -> Prop} v x : S OverflowError -> S StructError ->
  (forall s, In s (Tech_strings x) -> not_text s -> S UnicodeEncodeError) -> raises S (Tech_to_bytes x v).
Proof.
  intros HO HS HU. unfold Tech_to_bytes. apply raises_if; [unfold Tech_to_bytes_88; rs; apply HU; left; reflexivity|].
  unfold Tech_to_bytes_84. cbv zeta. apply raises_rbind.
  - destruct (Tech_research_locations x); exact I.
  - intros [[[a b] c] d] _. rs. apply HU. left. reflexivity.
Qed.

Lemma Common_raises {S : exn -> Prop} v x : S OverflowError -> S StructError -> raises S (Common_to_bytes x v).
Proof. intros HO HS. unfold Common_to_bytes; try unfold Common_to_bytes_84, Common_to_bytes_78; try unfold Common_to_bytes_88; rs. Qed.
#[global] Hint Resolve Common_raises : raisesdb.
Lemma TechTreeAge_raises {S : exn -> Prop} v x : S OverflowError -> S StructError -> raises S (TechTreeAge_to_bytes x v).
Proof. intros HO HS. unfold TechTreeAge_to_bytes; try unfold TechTreeAge_to_bytes_84, TechTreeAge_to_bytes_78; try unfold TechTreeAge_to_bytes_88; rs. Qed.
#[global] Hint Resolve TechTreeAge_raises : raisesdb.
Lemma BuildingConnection_raises {S : exn -> Prop} v x : S OverflowError -> S StructError -> raises S (BuildingConnection_to_bytes x v).
Proof. intros HO HS. unfold BuildingConnection_to_bytes; try unfold BuildingConnection_to_bytes_84, BuildingConnection_to_bytes_78; try unfold BuildingConnection_to_bytes_88; rs. Qed.
#[global] Hint Resolve BuildingConnection_raises : raisesdb.
Lemma UnitConnection_raises {S : exn -> Prop} v x : S OverflowError -> S StructError -> raises S (UnitConnection_to_bytes x v).
Proof. intros HO HS. unfold UnitConnection_to_bytes; try unfold UnitConnection_to_bytes_84, UnitConnection_to_bytes_78; try unfold UnitConnection_to_bytes_88; rs. Qed.
#[global] Hint Resolve UnitConnection_raises : raisesdb.
Lemma ResearchConnection_raises {S : exn -> Prop} v x : S OverflowError -> S StructError -> raises S (ResearchConnection_to_bytes x v).
Proof. intros HO HS. unfold ResearchConnection_to_bytes; try unfold ResearchConnection_to_bytes_84, ResearchConnection_to_bytes_78; try unfold ResearchConnection_to_bytes_88; rs. Qed.
#[global] Hint Resolve ResearchConnection_raises : raisesdb.
Lemma TechTree_raises {S : exn -> Prop} v x : S OverflowError -> S StructError -> raises S (TechTree_to_bytes x v).
Proof. intros HO HS. unfold TechTree_to_bytes; try unfold TechTree_to_bytes_84, TechTree_to_bytes_78; try unfold TechTree_to_bytes_88; rs. Qed.
#[global] Hint Resolve TechTree_raises : raisesdb.

Ltac in_str := intros; unfold DatFile_strings; rewrite ?in_app_iff; cbn [In]; rewrite ?in_app_iff, ?in_flat_map.
Lemma in_strings_sounds x y s : In y (DatFile_sounds x) -> In s (Sound_strings y) -> In s (DatFile_strings x).
Proof. in_str. right. left. eauto. Qed.
Lemma in_strings_graphics x y s : In (Some y) (DatFile_graphics x) -> In s (Graphic_strings y) -> In s (DatFile_strings x).
Proof. in_str. right. right. left. exists y. split; [|assumption]. apply in_flat_map. exists (Some y). split; [assumption|left; reflexivity]. Qed.
Lemma in_strings_terrains x s : In s (TerrainBlock_strings (DatFile_terrain_block x)) -> In s (DatFile_strings x).
Proof. in_str. right. right. right. left. assumption. Qed.
Lemma in_strings_effects x y s : In y (DatFile_effects x) -> In s (Effect_strings y) -> In s (DatFile_strings x).
Proof. in_str. right. right. right. right. left. eauto. Qed.
Lemma in_strings_civs x y s : In y (DatFile_civs x) -> In s (Civ_strings y) -> In s (DatFile_strings x).
Proof. in_str. right. right. right. right. right. left. eauto. Qed.
Lemma in_strings_techs x y s : In y (DatFile_techs x) -> In s (Tech_strings y) -> In s (DatFile_strings x).
Proof. in_str. right. right. right. right. right. right. eauto. Qed.

(** The reasons for which a data file cannot be saved. *)
Lemma DatFile_raises {S : exn -> Prop} x w : S OverflowError -> S StructError ->
  (file_version (DatFile_version x) = None -> S ValueError) ->
  (uneven_tables x \/ (exists r, In r (DatFile_terrain_restrictions x) /\ uneven_restriction r) \/
   uneven_maps (DatFile_random_maps x) -> S AssertionError) ->
  (forall s, In s (DatFile_strings x) -> not_text s -> S UnicodeEncodeError) ->
  (forall v u, file_version (DatFile_version x) = Some v -> In u (units_of x) -> unit_trains_nowhere v u -> S IndexError) ->
  raises S (DatFile_to_bytes x w).
Proof.
  intros HO HS HV HA HU HI. unfold DatFile_to_bytes. rewrite version_lookup_spec.
  destruct (file_version (DatFile_version x)) as [v|] eqn:V; [|apply HV; reflexivity]. cbn [rbind]. cbv zeta.
  apply raises_rbind.
  { unfold py_assert. destruct (_ && _) eqn:E; [exact I|]. apply HA. left. unfold uneven_tables. unfold len in E. lia. }
  intros _ _. apply raises_rbind.
  { destruct (DatFile_terrain_restrictions x); exact I. }
  intros t _. rs.
  - apply HU. left. reflexivity.
  - apply TerrainRestriction_raises; auto. intros Hr. apply HA. right. left. eauto.
  - apply Sound_raises; auto. intros s Hs. apply HU. apply (in_strings_sounds _ _ _ H Hs).
  - apply Graphic_raises; auto. intros s Hs. apply HU. apply (in_strings_graphics _ _ _ H Hs).
  - apply TerrainBlock_raises; auto. intros s Hs. apply HU. apply (in_strings_terrains _ _ Hs).
  - apply RandomMaps_raises; auto.
  - apply Effect_raises; auto. intros s Hs. apply HU. apply (in_strings_effects _ _ _ H Hs).
  - apply Civ_raises; auto.
    + intros s Hs. apply HU. apply (in_strings_civs _ _ _ H Hs).
    + intros u Hu. apply (HI v u eq_refl). unfold units_of. apply in_flat_map. eexists. split; [exact H|].
      apply in_flat_map. exists (Some u). split; [exact Hu|left; reflexivity].
  - apply Tech_raises; auto. intros s Hs. apply HU. apply (in_strings_techs _ _ _ H Hs).
Qed.
