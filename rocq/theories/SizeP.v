(** * The size formulas of Size.v agree with the tables. *)
From Verif Require Import Base PyInt PyFloat PyStr PyStruct DataTypes Versions Common Wire Layout Shape Flat Size.
From Verif Require Import Codec CodecP CodecF CodecC P_Simple P_More P_Unit P_UnitR P_Civ P_DatFile FlatP.
From Verif Require Import M_Sound M_PlayerColour M_Effect M_TerrainRestriction M_Graphic
  M_TerrainBlock M_RandomMaps M_Task M_UnitHeaders M_Unit M_Civ M_Tech M_TechTree M_DatFile.
From Coq Require Import ZifyBool.
Open Scope nat_scope.
Local Open Scope list_scope.
Local Notation length := List.length.

(** If the cells are representable they take [n] bytes. *)
Definition Esz (cs : list cell) (n : nat) : Prop := forall bs, encode cs = Some bs -> length bs = n.
Lemma little_endian_length n z : length (little_endian n z) = n.
Proof. unfold little_endian. rewrite map_length, seq_length. reflexivity. Qed.
Lemma cell_bytes_size c bs : cell_bytes c = Some bs -> length bs = cell_size c.
Proof.
  assert (S : forall a b : bytes, Some a = Some b -> a = b) by congruence.
  destruct c; cbv [cell_bytes]; cbn [cell_size];
    repeat match goal with |- context [if ?b then _ else _] => destruct b end; try discriminate;
    intros H; apply S in H; subst bs; rewrite ?app_length, ?little_endian_length, ?repeat_length; cbn [length]; lia.
Qed.
Lemma Some_inj {A} (a b : A) : Some a = Some b -> a = b.
Proof. congruence. Qed.
Lemma Esz_nil : Esz [] 0.
Proof. intros bs H. apply Some_inj in H. subst bs. reflexivity. Qed.
Lemma Esz_cons c l k n : cell_size c = k -> Esz l n -> Esz (c :: l) (k + n).
Proof.
  intros <- H bs. rewrite encode_cons. destruct (cell_bytes c) eqn:E; [|discriminate]. destruct (encode l) eqn:El; [|discriminate]. unfold oapp.
  intros H'; apply Some_inj in H'; subst bs. rewrite app_length, (cell_bytes_size _ _ E), (H _ El). reflexivity.
Qed.
Lemma Esz_refuse n : Esz [Refuse] n.
Proof. intros bs. discriminate. Qed.
Lemma Esz_app a b n m : Esz a n -> Esz b m -> Esz (a ++ b) (n + m).
Proof.
  intros Ha Hb bs. rewrite encode_app. destruct (encode a) eqn:Ea; [|discriminate]. destruct (encode b) eqn:Eb; [|discriminate]. unfold oapp.
  intros H'; apply Some_inj in H'; subst bs. rewrite app_length, (Ha _ Ea), (Hb _ Eb). reflexivity.
Qed.
Lemma Esz_guard c l n : (c = true -> Esz l n) -> Esz (guard c l) n.
Proof. destruct c; cbn [guard]; intros H; [auto|apply Esz_refuse]. Qed.
Lemma Esz_exactly {A} k (a : list A) l n : (length a = k -> Esz l n) -> Esz (exactly k a l) n.
Proof. intros H. apply Esz_guard. intros E. apply H, Nat.eqb_eq, E. Qed.
Lemma Esz_flat_map {A} (f : A -> list cell) g l : (forall x, Esz (f x) (g x)) -> Esz (flat_map f l) (total g l).
Proof. intros H. induction l as [|a l IH]; [apply Esz_nil|]. cbn. apply Esz_app; auto. Qed.
Lemma Esz_map {A} (c : A -> cell) k l : (forall x, cell_size (c x) = k) -> Esz (map c l) (k * length l).
Proof.
  intros H. induction l as [|a l IH]; cbn [map length]; [rewrite Nat.mul_0_r; apply Esz_nil|].
  replace (k * S (length l)) with (k + k * length l) by lia. apply Esz_cons; auto.
Qed.
Lemma Esz_exactly_map {A} k (c : A -> cell) s l : (forall x, cell_size (c x) = s) -> Esz (exactly k l (map c l)) (s * k).
Proof. intros H. apply Esz_exactly. intros <-. apply Esz_map, H. Qed.
Lemma Esz_slots {A} (f : A -> list cell) g l : (forall x, Esz (f x) (g x)) -> Esz (slots f l) (total (if_some g) l).
Proof. intros H. apply (Esz_flat_map _ (if_some g)). intros [x|]; [apply H|apply Esz_nil]. Qed.
Lemma Esz_flags {A} (l : list (option A)) : Esz (flags l) (4 * length l).
Proof. apply Esz_map. intros [x|]; reflexivity. Qed.
Lemma Esz_stored {A} c (f : A -> list cell) g o : (forall x, Esz (f x) (g x)) -> Esz (stored c f o) (when c (if_some g o)).
Proof. intros H. destruct c, o; cbn; auto using Esz_nil. Qed.
Lemma Esz_eq cs n m : Esz cs n -> n = m -> Esz cs m.
Proof. intros H <-. exact H. Qed.
Definition item_size (k : fc) : nat := match k with Fb => 1 | Fh => 2 | Fl | Ff => 4 end.
Lemma Esz_items ks l : Esz (item_cells ks l) (total item_size ks).
Proof.
  revert l. induction ks as [|k ks IH]; intros [|a l]; cbn [item_cells]; try apply Esz_refuse; [apply Esz_nil|].
  assert (D : item_cell k a = Refuse \/ cell_size (item_cell k a) = item_size k).
  { destruct k, a; cbn; auto. destruct (f64_of_Z z); auto. }
  cbn [total fold_right]. destruct D as [D|D].
  - rewrite D. intros bs. discriminate.
  - apply Esz_cons; [exact D|apply IH].
Qed.
Lemma total_const {A} k (l : list A) : total (fun _ => k) l = k * length l.
Proof. unfold total. induction l as [|a l IH]; cbn [fold_right length]; [lia|]. rewrite IH. lia. Qed.
Lemma total_ext {A} (f g : A -> nat) l : (forall x, f x = g x) -> total f l = total g l.
Proof. intros H. unfold total. induction l as [|a l IH]; cbn [fold_right]; [reflexivity|]. rewrite H, IH. reflexivity. Qed.

Create HintDb esz.
Ltac esz_step :=
  match goal with
  | |- Esz (_ :: _) _ => eapply Esz_cons; [reflexivity|]
  | |- Esz [] _ => apply Esz_nil
  | |- Esz (_ ++ _) _ => eapply Esz_app
  | |- Esz (map _ _) _ => eapply Esz_map; intros; cbn [cell_size]; reflexivity
  | |- Esz (guard _ _) _ => apply Esz_guard; let H := fresh "G" in intros H
  | |- Esz (exactly _ _ _) _ => apply Esz_exactly_map; intros; cbn [cell_size]; reflexivity
  | |- Esz (flat_map _ _) _ => eapply Esz_flat_map; solve [auto with esz nocore]
  | |- Esz (slots _ _) _ => eapply Esz_slots; solve [auto with esz nocore]
  | |- Esz (flags _) _ => apply Esz_flags
  | |- Esz (stored _ (fun s => [F32 s]) _) _ => eapply (Esz_stored _ _ (fun _ => 4)); intros s; exact (Esz_cons (F32 s) [] 4 0 eq_refl Esz_nil)
  | |- Esz (stored _ _ _) _ => eapply Esz_stored; solve [auto with esz nocore]
  | |- Esz (item_cells _ _) _ => apply Esz_items
  | |- Esz _ _ => solve [auto with esz nocore]
  end.
Ltac fold_consts := unfold total_const.
Ltac consts := rewrite ?total_const; repeat match goal with |- context [total item_size ?l] => let n := eval vm_compute in (total item_size l) in change (total item_size l) with n end.
Ltac bool_hyps := repeat match goal with
  | H : (_ && _)%bool = true |- _ => apply andb_prop in H; destruct H
  | H : Z.eqb _ _ = true |- _ => apply Z.eqb_eq in H
  end.

Lemma SoundItem_esz v x : Esz (SoundItem_layout v x) (SoundItem_size v x).
Proof.
  unfold SoundItem_layout, SoundItem_size, from.
  all: try (apply Esz_guard; intros G); eapply Esz_eq; [repeat esz_step|]; consts; unfold count, chars in *; bool_hyps; cbn -[total Nat.mul if_some when]; try lia.
Qed.
#[global] Hint Resolve SoundItem_esz : esz.

Lemma Sound_esz v x : Esz (Sound_layout v x) (Sound_size v x).
Proof.
  unfold Sound_layout, Sound_size, from.
  all: try (apply Esz_guard; intros G); eapply Esz_eq; [repeat esz_step|]; consts; unfold count, chars in *; bool_hyps; cbn -[total Nat.mul if_some when]; try lia.
Qed.
#[global] Hint Resolve Sound_esz : esz.

Lemma PlayerColour_esz v x : Esz (PlayerColour_layout v x) (PlayerColour_size v x).
Proof.
  unfold PlayerColour_layout, PlayerColour_size, from.
  all: try (apply Esz_guard; intros G); eapply Esz_eq; [repeat esz_step|]; consts; unfold count, chars in *; bool_hyps; cbn -[total Nat.mul if_some when]; try lia.
Qed.
#[global] Hint Resolve PlayerColour_esz : esz.

Lemma EffectCommand_esz v x : Esz (EffectCommand_layout v x) (EffectCommand_size v x).
Proof.
  unfold EffectCommand_layout, EffectCommand_size, from.
  all: try (apply Esz_guard; intros G); eapply Esz_eq; [repeat esz_step|]; consts; unfold count, chars in *; bool_hyps; cbn -[total Nat.mul if_some when]; try lia.
Qed.
#[global] Hint Resolve EffectCommand_esz : esz.

Lemma Effect_esz v x : Esz (Effect_layout v x) (Effect_size v x).
Proof.
  unfold Effect_layout, Effect_size, from.
  all: try (apply Esz_guard; intros G); eapply Esz_eq; [repeat esz_step|]; unfold EffectCommand_size; consts; unfold count, chars in *; bool_hyps; cbn -[total Nat.mul if_some when]; try lia.
Qed.
#[global] Hint Resolve Effect_esz : esz.

Lemma TerrainPassGraphic_esz v x : Esz (TerrainPassGraphic_layout v x) (TerrainPassGraphic_size v x).
Proof.
  unfold TerrainPassGraphic_layout, TerrainPassGraphic_size, from.
  all: try (apply Esz_guard; intros G); eapply Esz_eq; [repeat esz_step|]; consts; unfold count, chars in *; bool_hyps; cbn -[total Nat.mul if_some when]; try lia.
Qed.
#[global] Hint Resolve TerrainPassGraphic_esz : esz.

Lemma TerrainRestriction_esz v x : Esz (TerrainRestriction_layout v x) (TerrainRestriction_size v x).
Proof.
  unfold TerrainRestriction_layout, TerrainRestriction_size, from.
  all: try (apply Esz_guard; intros G); eapply Esz_eq; [repeat esz_step|]; unfold TerrainPassGraphic_size; consts; unfold count, chars in *; bool_hyps; cbn -[total Nat.mul if_some when]; try lia.
Qed.
#[global] Hint Resolve TerrainRestriction_esz : esz.

Lemma GraphicDelta_esz v x : Esz (GraphicDelta_layout v x) (GraphicDelta_size v x).
Proof.
  unfold GraphicDelta_layout, GraphicDelta_size, from.
  all: try (apply Esz_guard; intros G); eapply Esz_eq; [repeat esz_step|]; consts; unfold count, chars in *; bool_hyps; cbn -[total Nat.mul if_some when]; try lia.
Qed.
#[global] Hint Resolve GraphicDelta_esz : esz.

Lemma GraphicAngleSound_esz v x : Esz (GraphicAngleSound_layout v x) (GraphicAngleSound_size v x).
Proof.
  unfold GraphicAngleSound_layout, GraphicAngleSound_size, from.
  all: try (apply Esz_guard; intros G); eapply Esz_eq; [repeat esz_step|]; consts; unfold count, chars in *; bool_hyps; cbn -[total Nat.mul if_some when]; try lia.
Qed.
#[global] Hint Resolve GraphicAngleSound_esz : esz.

Lemma Graphic_esz v x : Esz (Graphic_layout v x) (Graphic_size v x).
Proof.
  unfold Graphic_layout, Graphic_size, from.
  all: try (apply Esz_guard; intros G); eapply Esz_eq; [repeat esz_step|]; unfold GraphicDelta_size, GraphicAngleSound_size; consts; unfold count, chars in *; bool_hyps; cbn -[total Nat.mul if_some when]; try lia.
Qed.
#[global] Hint Resolve Graphic_esz : esz.

Lemma FrameData_esz v x : Esz (FrameData_layout v x) (FrameData_size v x).
Proof.
  unfold FrameData_layout, FrameData_size, from.
  all: try (apply Esz_guard; intros G); eapply Esz_eq; [repeat esz_step|]; consts; unfold count, chars in *; bool_hyps; cbn -[total Nat.mul if_some when]; try lia.
Qed.
#[global] Hint Resolve FrameData_esz : esz.

Lemma Terrain_esz v x : Esz (Terrain_layout v x) (Terrain_size v x).
Proof.
  unfold Terrain_layout, Terrain_size, from.
  all: try (apply Esz_guard; intros G); eapply Esz_eq; [repeat esz_step|]; unfold FrameData_size; consts; unfold count, chars in *; bool_hyps; cbn -[total Nat.mul if_some when]; try lia.
Qed.
#[global] Hint Resolve Terrain_esz : esz.

Lemma TileSize_esz v x : Esz (TileSize_layout v x) (TileSize_size v x).
Proof.
  unfold TileSize_layout, TileSize_size, from.
  all: try (apply Esz_guard; intros G); eapply Esz_eq; [repeat esz_step|]; consts; unfold count, chars in *; bool_hyps; cbn -[total Nat.mul if_some when]; try lia.
Qed.
#[global] Hint Resolve TileSize_esz : esz.

Lemma TerrainBlock_esz v x : Esz (TerrainBlock_layout v x) (TerrainBlock_size v x).
Proof.
  unfold TerrainBlock_layout, TerrainBlock_size, from.
  all: try (apply Esz_guard; intros G); eapply Esz_eq; [repeat esz_step|]; unfold TileSize_size; consts; unfold count, chars in *; bool_hyps; cbn -[total Nat.mul if_some when]; try lia.
Qed.
#[global] Hint Resolve TerrainBlock_esz : esz.

Lemma MapUnit_esz v x : Esz (MapUnit_layout v x) (MapUnit_size v x).
Proof.
  unfold MapUnit_layout, MapUnit_size, from.
  all: try (apply Esz_guard; intros G); eapply Esz_eq; [repeat esz_step|]; consts; unfold count, chars in *; bool_hyps; cbn -[total Nat.mul if_some when]; try lia.
Qed.
#[global] Hint Resolve MapUnit_esz : esz.

Lemma MapTerrain_esz v x : Esz (MapTerrain_layout v x) (MapTerrain_size v x).
Proof.
  unfold MapTerrain_layout, MapTerrain_size, from.
  all: try (apply Esz_guard; intros G); eapply Esz_eq; [repeat esz_step|]; consts; unfold count, chars in *; bool_hyps; cbn -[total Nat.mul if_some when]; try lia.
Qed.
#[global] Hint Resolve MapTerrain_esz : esz.

Lemma MapLand_esz v x : Esz (MapLand_layout v x) (MapLand_size v x).
Proof.
  unfold MapLand_layout, MapLand_size, from.
  all: try (apply Esz_guard; intros G); eapply Esz_eq; [repeat esz_step|]; consts; unfold count, chars in *; bool_hyps; cbn -[total Nat.mul if_some when]; try lia.
Qed.
#[global] Hint Resolve MapLand_esz : esz.

Lemma MapElevation_esz v x : Esz (MapElevation_layout v x) (MapElevation_size v x).
Proof.
  unfold MapElevation_layout, MapElevation_size, from.
  all: try (apply Esz_guard; intros G); eapply Esz_eq; [repeat esz_step|]; consts; unfold count, chars in *; bool_hyps; cbn -[total Nat.mul if_some when]; try lia.
Qed.
#[global] Hint Resolve MapElevation_esz : esz.

Lemma MapInfo_esz v x : Esz (MapInfo_layout v x) (MapInfo_size v x).
Proof.
  unfold MapInfo_layout, MapInfo_size, from.
  all: try (apply Esz_guard; intros G); eapply Esz_eq; [repeat esz_step|]; unfold MapLand_size, MapTerrain_size, MapUnit_size, MapElevation_size; consts; unfold count, chars in *; bool_hyps; cbn -[total Nat.mul if_some when]; try lia.
Qed.
#[global] Hint Resolve MapInfo_esz : esz.

Lemma RandomMaps_esz v x : Esz (RandomMaps_layout v x) (RandomMaps_size v x).
Proof.
  unfold RandomMaps_layout, RandomMaps_size, from.
  all: try (apply Esz_guard; intros G); eapply Esz_eq; [repeat esz_step|]; consts; unfold count, chars in *; bool_hyps; cbn -[total Nat.mul if_some when]; try lia.
Qed.
#[global] Hint Resolve RandomMaps_esz : esz.

Lemma Task_esz v x : Esz (Task_layout v x) (Task_size v x).
Proof.
  unfold Task_layout, Task_size, from.
  destruct (since 88 v) eqn:V.
  all: try (apply Esz_guard; intros G); eapply Esz_eq; [repeat esz_step|]; consts; unfold count, chars in *; bool_hyps; cbn -[total Nat.mul if_some when]; try lia.
Qed.
#[global] Hint Resolve Task_esz : esz.

Lemma UnitHeaders_esz v x : Esz (UnitHeaders_layout v x) (UnitHeaders_size v x).
Proof.
  unfold UnitHeaders_layout, UnitHeaders_size. destruct (UnitHeaders_exists_ x =? 0)%Z; [|destruct (UnitHeaders_task_list x)]; cbn [if_some].
  all: eapply Esz_eq; [repeat esz_step|cbn -[total Nat.mul]; lia].
Qed.
#[global] Hint Resolve UnitHeaders_esz : esz.

Lemma ResourceStorage_esz v x : Esz (ResourceStorage_layout v x) (ResourceStorage_size v x).
Proof.
  unfold ResourceStorage_layout, ResourceStorage_size, from.
  all: try (apply Esz_guard; intros G); eapply Esz_eq; [repeat esz_step|]; consts; unfold count, chars in *; bool_hyps; cbn -[total Nat.mul if_some when]; try lia.
Qed.
#[global] Hint Resolve ResourceStorage_esz : esz.

Lemma DamageGraphic_esz v x : Esz (DamageGraphic_layout v x) (DamageGraphic_size v x).
Proof.
  unfold DamageGraphic_layout, DamageGraphic_size, from.
  all: try (apply Esz_guard; intros G); eapply Esz_eq; [repeat esz_step|]; consts; unfold count, chars in *; bool_hyps; cbn -[total Nat.mul if_some when]; try lia.
Qed.
#[global] Hint Resolve DamageGraphic_esz : esz.

Lemma DeadFish_esz v x : Esz (DeadFish_layout v x) (DeadFish_size v x).
Proof.
  unfold DeadFish_layout, DeadFish_size, from.
  all: try (apply Esz_guard; intros G); eapply Esz_eq; [repeat esz_step|]; consts; unfold count, chars in *; bool_hyps; cbn -[total Nat.mul if_some when]; try lia.
Qed.
#[global] Hint Resolve DeadFish_esz : esz.

Lemma Bird_esz v x : Esz (Bird_layout v x) (Bird_size v x).
Proof.
  unfold Bird_layout, Bird_size, from.
  destruct (since 78 v) eqn:V.
  all: try (apply Esz_guard; intros G); eapply Esz_eq; [repeat esz_step|]; consts; unfold count, chars in *; bool_hyps; cbn -[total Nat.mul if_some when]; try lia.
Qed.
#[global] Hint Resolve Bird_esz : esz.

Lemma AttackOrArmor_esz v x : Esz (AttackOrArmor_layout v x) (AttackOrArmor_size v x).
Proof.
  unfold AttackOrArmor_layout, AttackOrArmor_size, from.
  all: try (apply Esz_guard; intros G); eapply Esz_eq; [repeat esz_step|]; consts; unfold count, chars in *; bool_hyps; cbn -[total Nat.mul if_some when]; try lia.
Qed.
#[global] Hint Resolve AttackOrArmor_esz : esz.

Lemma Type50_esz v x : Esz (Type50_layout v x) (Type50_size v x).
Proof.
  unfold Type50_layout, Type50_size, from.
  destruct (since 84 v) eqn:V.
  all: try (apply Esz_guard; intros G); eapply Esz_eq; [repeat esz_step|]; unfold AttackOrArmor_size; consts; unfold count, chars in *; bool_hyps; cbn -[total Nat.mul if_some when]; try lia.
Qed.
#[global] Hint Resolve Type50_esz : esz.

Lemma Projectile_esz v x : Esz (Projectile_layout v x) (Projectile_size v x).
Proof.
  unfold Projectile_layout, Projectile_size, from.
  all: try (apply Esz_guard; intros G); eapply Esz_eq; [repeat esz_step|]; consts; unfold count, chars in *; bool_hyps; cbn -[total Nat.mul if_some when]; try lia.
Qed.
#[global] Hint Resolve Projectile_esz : esz.

Lemma ResourceCost_esz v x : Esz (ResourceCost_layout v x) (ResourceCost_size v x).
Proof.
  unfold ResourceCost_layout, ResourceCost_size, from.
  all: try (apply Esz_guard; intros G); eapply Esz_eq; [repeat esz_step|]; consts; unfold count, chars in *; bool_hyps; cbn -[total Nat.mul if_some when]; try lia.
Qed.
#[global] Hint Resolve ResourceCost_esz : esz.

Lemma TrainLocation_esz v x : Esz (TrainLocation_layout v x) (TrainLocation_size v x).
Proof.
  unfold TrainLocation_layout, TrainLocation_size, from.
  destruct (since 88 v) eqn:V.
  all: try (apply Esz_guard; intros G); eapply Esz_eq; [repeat esz_step|]; consts; unfold count, chars in *; bool_hyps; cbn -[total Nat.mul if_some when]; try lia.
Qed.
#[global] Hint Resolve TrainLocation_esz : esz.

Lemma Creatable_esz v x : Esz (Creatable_layout v x) (Creatable_size v x).
Proof.
  unfold Creatable_layout, Creatable_size, from. destruct (since 88 v) eqn:V, (since 84 v).
  3,4: destruct (Creatable_train_locations x) as [|t r].
  all: try (intros bs H; rewrite encode_app in H; cbn [encode app cell_bytes] in H; destruct (encode (flat_map _ _)); discriminate H).
  all: eapply Esz_eq; [repeat esz_step|].
  all: unfold ResourceCost_size, TrainLocation_size, from; rewrite ?V; consts; rewrite ?G; cbn -[total Nat.mul]; lia.
Qed.
#[global] Hint Resolve Creatable_esz : esz.

Lemma BuildingAnnex_esz v x : Esz (BuildingAnnex_layout v x) (BuildingAnnex_size v x).
Proof.
  unfold BuildingAnnex_layout, BuildingAnnex_size, from.
  all: try (apply Esz_guard; intros G); eapply Esz_eq; [repeat esz_step|]; consts; unfold count, chars in *; bool_hyps; cbn -[total Nat.mul if_some when]; try lia.
Qed.
#[global] Hint Resolve BuildingAnnex_esz : esz.

Lemma Building_esz v x : Esz (Building_layout v x) (Building_size v x).
Proof.
  unfold Building_layout, Building_size, from.
  all: try (apply Esz_guard; intros G); eapply Esz_eq; [repeat esz_step|]; unfold BuildingAnnex_size; consts; unfold count, chars in *; bool_hyps; cbn -[total Nat.mul if_some when]; try lia.
Qed.
#[global] Hint Resolve Building_esz : esz.

Lemma Unit_esz v x : Esz (Unit_flat_layout v x) (Unit_size v x).
Proof.
  unfold Unit_flat_layout, Unit_sections_layout, Unit_size, from, Unit_items.
  destruct (since 88 v) eqn:V.
  all: try (apply Esz_guard; intros G); eapply Esz_eq; [repeat esz_step|]; unfold ResourceStorage_size, DamageGraphic_size; consts; unfold count, chars in *; bool_hyps; cbn -[total Nat.mul if_some when]; try lia.
Qed.
#[global] Hint Resolve Unit_esz : esz.

Lemma Civ_esz v x : Esz (Civ_flat_layout v x) (Civ_size v x).
Proof.
  unfold Civ_flat_layout, Civ_size, from.
  all: try (apply Esz_guard; intros G); eapply Esz_eq; [repeat esz_step|]; consts; unfold count, chars in *; bool_hyps; cbn -[total Nat.mul if_some when]; try lia.
Qed.
#[global] Hint Resolve Civ_esz : esz.

Lemma ResearchResourceCost_esz v x : Esz (ResearchResourceCost_layout v x) (ResearchResourceCost_size v x).
Proof.
  unfold ResearchResourceCost_layout, ResearchResourceCost_size, from.
  all: try (apply Esz_guard; intros G); eapply Esz_eq; [repeat esz_step|]; consts; unfold count, chars in *; bool_hyps; cbn -[total Nat.mul if_some when]; try lia.
Qed.
#[global] Hint Resolve ResearchResourceCost_esz : esz.

Lemma ResearchLocation_esz v x : Esz (ResearchLocation_layout v x) (ResearchLocation_size v x).
Proof.
  unfold ResearchLocation_layout, ResearchLocation_size, from.
  all: try (apply Esz_guard; intros G); eapply Esz_eq; [repeat esz_step|]; consts; unfold count, chars in *; bool_hyps; cbn -[total Nat.mul if_some when]; try lia.
Qed.
#[global] Hint Resolve ResearchLocation_esz : esz.

Lemma Tech_esz v x : Esz (Tech_layout v x) (Tech_size v x).
Proof.
  unfold Tech_layout, Tech_size, from.
  destruct (since 88 v) eqn:V.
  all: try (apply Esz_guard; intros G); eapply Esz_eq; [repeat esz_step|]; unfold ResearchResourceCost_size, ResearchLocation_size; consts; unfold count, chars in *; bool_hyps; cbn -[total Nat.mul if_some when]; try lia.
Qed.
#[global] Hint Resolve Tech_esz : esz.

Lemma Common_esz v x : Esz (Common_layout v x) (Common_size v x).
Proof.
  unfold Common_layout, Common_size, from.
  all: try (apply Esz_guard; intros G); eapply Esz_eq; [repeat esz_step|]; consts; unfold count, chars in *; bool_hyps; cbn -[total Nat.mul if_some when]; try lia.
Qed.
#[global] Hint Resolve Common_esz : esz.

Lemma TechTreeAge_esz v x : Esz (TechTreeAge_layout v x) (TechTreeAge_size v x).
Proof.
  unfold TechTreeAge_layout, TechTreeAge_size, from.
  all: try (apply Esz_guard; intros G); eapply Esz_eq; [repeat esz_step|]; consts; unfold count, chars in *; bool_hyps; cbn -[total Nat.mul if_some when]; try lia.
Qed.
#[global] Hint Resolve TechTreeAge_esz : esz.

Lemma BuildingConnection_esz v x : Esz (BuildingConnection_layout v x) (BuildingConnection_size v x).
Proof.
  unfold BuildingConnection_layout, BuildingConnection_size, from.
  all: try (apply Esz_guard; intros G); eapply Esz_eq; [repeat esz_step|]; consts; unfold count, chars in *; bool_hyps; cbn -[total Nat.mul if_some when]; try lia.
Qed.
#[global] Hint Resolve BuildingConnection_esz : esz.

Lemma UnitConnection_esz v x : Esz (UnitConnection_layout v x) (UnitConnection_size v x).
Proof.
  unfold UnitConnection_layout, UnitConnection_size, from.
  all: try (apply Esz_guard; intros G); eapply Esz_eq; [repeat esz_step|]; consts; unfold count, chars in *; bool_hyps; cbn -[total Nat.mul if_some when]; try lia.
Qed.
#[global] Hint Resolve UnitConnection_esz : esz.

Lemma ResearchConnection_esz v x : Esz (ResearchConnection_layout v x) (ResearchConnection_size v x).
Proof.
  unfold ResearchConnection_layout, ResearchConnection_size, from.
  all: try (apply Esz_guard; intros G); eapply Esz_eq; [repeat esz_step|]; consts; unfold count, chars in *; bool_hyps; cbn -[total Nat.mul if_some when]; try lia.
Qed.
#[global] Hint Resolve ResearchConnection_esz : esz.

Lemma TechTree_esz v x : Esz (TechTree_layout v x) (TechTree_size v x).
Proof.
  unfold TechTree_layout, TechTree_size, from.
  all: try (apply Esz_guard; intros G); eapply Esz_eq; [repeat esz_step|]; consts; unfold count, chars in *; bool_hyps; cbn -[total Nat.mul if_some when]; try lia.
Qed.
#[global] Hint Resolve TechTree_esz : esz.

Lemma DatFile_esz v x : file_version (DatFile_version x) = Some v -> Esz (DatFile_flat_layout x) (DatFile_size v x).
Proof.
  unfold DatFile_flat_layout, DatFile_size. intros ->. unfold DatFile_flat_body.
  apply Esz_guard; intros G. eapply Esz_eq; [repeat esz_step|]. unfold PlayerColour_size; consts. unfold count in *. bool_hyps. cbn -[total Nat.mul if_some Nat.max]. unfold chars. lia.
Qed.

(** From the writers' [Lay] to sizes. *)
Lemma Lay_size w cs n bs : Lay w cs -> Esz cs n -> w = Ok bs -> length bs = n.
Proof. intros L E ->. apply E. symmetry. exact L. Qed.
