(** * Readers: which exceptions they can raise, and that they look at nothing but the bytes
    they consume. *)
From Verif Require Import Base PyInt PyFloat PyStr PyStruct DataTypes Versions Common Wire Layout Shape.
From Verif Require Import Codec P_Unit P_DatFile.
From Verif Require Import M_Sound M_PlayerColour M_Effect M_TerrainRestriction M_Graphic
  M_TerrainBlock M_RandomMaps M_Task M_UnitHeaders M_Unit M_Civ M_Tech M_TechTree M_DatFile.
From Coq Require Import String ZifyBool.
Open Scope Z_scope.
Local Open Scope list_scope.
Local Notation length := List.length.

(** [c2] can replace the content of [h] as far as [o] bytes are concerned. *)
Definition same_upto (o : nat) (c c2 : bytes) : Prop :=
  c2 = c \/ ((o <= length c)%nat /\ firstn o c2 = firstn o c).
(** A run of [m] that took [h] to [h'] and returned [x]: it would do the same on any content
    with the same bytes up to the offset reached, whatever losses were recorded before. *)
Definition run_local {A} (m : rd A) (h : handler) (x : A) (h' : handler) : Prop :=
  h_content h' = h_content h /\ (h_offset h <= h_offset h')%nat /\
  exists new, h_losses h' = new ++ h_losses h /\
  forall c2 ls, same_upto (h_offset h') (h_content h) c2 ->
    m (mkHandler c2 (h_offset h) (h_version h) ls) = Ok (x, mkHandler c2 (h_offset h') (h_version h') (new ++ ls)).
Definition Rd {A} (S : exn -> Prop) (m : rd A) : Prop := forall h,
  match m h with Err e => S e | Ok (x, h') => run_local m h x h' end.

Lemma same_upto_le o o' c c2 : (o' <= o)%nat -> same_upto o c c2 -> same_upto o' c c2.
Proof.
  intros L [->|[H1 H2]]; [left; reflexivity|]. right. split; [lia|].
  rewrite <- (firstn_firstn c2), <- (firstn_firstn c) || idtac.
  replace o' with (Nat.min o' o) by lia. rewrite <- !firstn_firstn, H2. reflexivity.
Qed.

Section R.
  Context {S : exn -> Prop}.
  Lemma Rd_ext {A} (m m' : rd A) : (forall h, m h = m' h) -> Rd S m -> Rd S m'.
  Proof.
    intros E H h. specialize (H h). rewrite <- E. destruct (m h) as [[x h']|]; [|exact H].
    destruct H as (C & O & new & L & R). split; [exact C|]. split; [exact O|]. exists new. split; [exact L|].
    intros c2 ls Hc. rewrite <- E. apply R, Hc.
  Qed.
  Lemma Rd_ret {A} (x : A) : Rd S (ret x).
  Proof. intros [c o v l]. split; [reflexivity|]. split; [apply le_n|]. exists []. split; [reflexivity|]. intros; reflexivity. Qed.
  Lemma Rd_raise {A} e : S e -> Rd S (@raise A e).
  Proof. intros H h. exact H. Qed.
  Lemma Rd_lift {A} (r : res A) : match r with Ok _ => True | Err e => S e end -> Rd S (lift r).
  Proof. intros H [c o v l]. unfold lift. destruct r; [|exact H]. apply (Rd_ret a (mkHandler c o v l)). Qed.
  (** bind, with a fact about the value returned *)
  Lemma Rd_bind_post {A B} (m : rd A) (k : A -> rd B) (Q : A -> Prop) :
    Rd S m -> (forall h a h', m h = Ok (a, h') -> Q a) -> (forall a, Q a -> Rd S (k a)) -> Rd S (bind m k).
  Proof.
    intros H1 HQ H2 h. unfold bind. specialize (H1 h). destruct (m h) as [[a h1]|] eqn:E; [|exact H1].
    specialize (H2 a (HQ _ _ _ E) h1). destruct (k a h1) as [[b h2]|] eqn:E2; [|exact H2].
    destruct H1 as (C1 & O1 & n1 & L1 & R1), H2 as (C2 & O2 & n2 & L2 & R2).
    split; [congruence|]. split; [lia|]. exists (n2 ++ n1). split; [rewrite L2, L1, app_assoc; reflexivity|].
    intros c2 ls Hc. rewrite C1 in R2. specialize (R1 c2 ls (same_upto_le _ _ _ _ O2 Hc)). rewrite R1.
    rewrite R2 by exact Hc. rewrite app_assoc. reflexivity.
  Qed.
  Lemma Rd_bind {A B} (m : rd A) (k : A -> rd B) : Rd S m -> (forall a, Rd S (k a)) -> Rd S (bind m k).
  Proof. intros H1 H2. apply (Rd_bind_post m k (fun _ => True)); auto. Qed.
  Lemma Rd_get : Rd S get_version.
  Proof. intros [c o v l]. split; [reflexivity|]. split; [apply le_n|]. exists []. split; [reflexivity|]. intros; reflexivity. Qed.
  Lemma Rd_set v : Rd S (set_version v).
  Proof. intros [c o w l]. split; [reflexivity|]. split; [apply le_n|]. exists []. split; [reflexivity|]. intros; reflexivity. Qed.
  Lemma Rd_note c l : Rd S (note c l).
  Proof.
    intros [ct o w ls]. unfold note. destruct c.
    - split; [reflexivity|]. split; [apply le_n|]. exists [l]. split; reflexivity.
    - split; [reflexivity|]. split; [apply le_n|]. exists []. split; reflexivity.
  Qed.
  Lemma Rd_slice n : Rd S (consume_slice n).
  Proof.
    intros [c o v l]. unfold consume_slice. split; [reflexivity|]. split; [apply Nat.le_add_r|]. exists []. split; [reflexivity|].
    cbn [h_content h_offset h_version]. intros c2 ls [->|[H1 H2]]; [reflexivity|]. do 2 f_equal.
    unfold slice. rewrite <- !firstn_skipn_comm in * || idtac.
    rewrite !firstn_skipn_comm, H2. reflexivity.
  Qed.
  Lemma Rd_consume n : Rd S (consume_range n).
  Proof. apply Rd_bind; [apply Rd_slice|]. intros b. apply Rd_bind; [apply Rd_note|]. intros _. apply Rd_ret. Qed.
  Lemma Rd_u8 : Rd S read_int_8. Proof. apply Rd_bind; [apply Rd_consume|]. intros. apply Rd_ret. Qed.
  Lemma Rd_i16 s : Rd S (read_int_16 s). Proof. apply Rd_bind; [apply Rd_consume|]. intros. apply Rd_ret. Qed.
  Lemma Rd_i32 s : Rd S (read_int_32 s). Proof. apply Rd_bind; [apply Rd_consume|]. intros. apply Rd_ret. Qed.
  Lemma Rd_float : S StructError -> Rd S read_float.
  Proof.
    intros H. apply Rd_bind; [apply Rd_consume|]. intros b. apply Rd_bind; [apply Rd_note|]. intros _.
    apply Rd_lift. unfold Float_from_bytes. destruct (Nat.eqb _ _); [exact I|exact H].
  Qed.
  Lemma Rd_decode b : S UnicodeDecodeError -> Rd S (lift (String_from_bytes b)).
  Proof. intros H. apply Rd_lift. unfold String_from_bytes, bytes_decode. destruct (utf8_decode _); [exact I|exact H]. Qed.
  Lemma Rd_text : S AssertionError -> S UnicodeDecodeError -> Rd S read_debug_string.
  Proof.
    intros HA HD. apply Rd_bind; [apply Rd_i16|]. intros m. apply Rd_bind.
    { apply Rd_lift. unfold py_assert. destruct (_ =? _); [exact I|exact HA]. }
    intros _. apply Rd_bind; [apply Rd_i16|]. intros n. apply Rd_bind; [apply Rd_consume|]. intros b.
    apply Rd_bind; [apply Rd_note|]. intros _. apply Rd_decode, HD.
  Qed.
  Lemma Rd_string n : S UnicodeDecodeError -> Rd S (read_string n).
  Proof. intros HD. apply Rd_bind; [apply Rd_consume|]. intros b. apply Rd_decode, HD. Qed.
  Lemma Rd_loop {A} n (m : rd A) : Rd S m -> Rd S (loop n m).
  Proof.
    intros H. induction n as [|n IH]; cbn [loop]; [apply Rd_ret|]. apply Rd_bind; [exact H|]. intros e.
    apply Rd_bind; [exact IH|]. intros r. apply Rd_ret.
  Qed.
  Lemma Rd_for {A} n (m : rd A) : Rd S m -> Rd S (for_range n m).
  Proof. intros H. apply Rd_bind; [apply Rd_note|]. intros _. apply Rd_loop, H. Qed.
  Lemma Rd_class {A} (m : rd A) : Rd S m -> Rd S (read_class m).
  Proof. intros H. apply Rd_bind; [exact H|]. intros. apply Rd_ret. Qed.
  Lemma Rd_if {A} (c : bool) (a b : rd A) : Rd S a -> Rd S b -> Rd S (if c then a else b).
  Proof. destruct c; auto. Qed.
  Lemma Rd_opt {A} c (m : rd A) : Rd S m -> Rd S (opt_read c m).
  Proof. intros H. unfold opt_read. apply Rd_if; [|apply Rd_ret]. apply Rd_bind; [exact H|]. intros. apply Rd_ret. Qed.
  (** Pointers: the table has as many entries as the loop has iterations. *)
  Lemma loop_length {A} (m : rd A) : forall n h l h', loop n m h = Ok (l, h') -> length l = n.
  Proof.
    induction n as [|n IH]; intros h l h' E; cbn [loop] in E; unfold bind, ret in E; [injection E as <- _; reflexivity|].
    destruct (m h) as [[x h1]|]; [|discriminate]. destruct (loop n m h1) as [[r h2]|] eqn:E2; [|discriminate].
    injection E as <- _. cbn. rewrite (IH _ _ _ E2). reflexivity.
  Qed.
  Lemma Rd_pointer_loop {A} (fb : rd A) ps : Rd S fb -> forall k i, (i + k <= length ps)%nat -> Rd S (pointer_loop fb ps i k).
  Proof.
    intros H. induction k as [|k IH]; intros i L; cbn [pointer_loop]; [apply Rd_ret|].
    apply Rd_bind.
    { apply Rd_lift. unfold py_index. destruct (nth_error ps i) eqn:E; [exact I|]. apply nth_error_None in E. lia. }
    intros p. apply Rd_bind; [apply Rd_note|]. intros _. apply Rd_bind.
    { apply Rd_if; [|apply Rd_ret]. apply Rd_bind; [exact H|]. intros. apply Rd_ret. }
    intros e. apply Rd_bind; [apply IH; lia|]. intros r. apply Rd_ret.
  Qed.
  Lemma Rd_pointers {A B} (fb : rd A) n (k : list (option A) -> rd B) : Rd S fb -> (forall l, Rd S (k l)) ->
    Rd S (bind (read_int_32_array n) (fun ps => bind (read_class_array_with_pointers fb n ps) k)).
  Proof.
    intros H Hk. apply (Rd_bind_post _ _ (fun ps => length ps = Z.to_nat n)).
    - apply Rd_for, Rd_i32.
    - intros h a h' E. unfold read_int_32_array, for_range, bind, note in E. apply loop_length in E. exact E.
    - intros ps L. apply Rd_bind; [|exact Hk]. apply Rd_bind; [apply Rd_note|]. intros _. apply Rd_pointer_loop; [exact H|lia].
  Qed.
  (** struct.unpack: exactly one value of the right type per item *)
  Fixpoint all_vals (ks : list fc) (Q : list pyval -> Prop) : Prop :=
    match ks with
    | [] => Q []
    | Ff :: r => forall x : f64, all_vals r (fun l => Q (VFloat x :: l))
    | _ :: r => forall z : Z, all_vals r (fun l => Q (VInt z :: l))
    end.
  Lemma all_vals_use ks : forall Q bs, all_vals ks Q -> Q (unpack_items ks bs).
  Proof.
    induction ks as [|c ks IH]; intros Q bs H; [exact H|]. cbn [unpack_items]. destruct c; cbn [all_vals unpack1] in *;
    eapply (IH (fun l => Q (_ :: l))), H.
  Qed.
  Lemma Rd_struct {B} fmt items n (k : list pyval -> rd B) : parse_fmt fmt = Some items -> S StructError ->
    all_vals items (fun vs => Rd S (k vs)) -> Rd S (bind (read_struct fmt n) k).
  Proof.
    intros P HS H. apply (Rd_bind_post _ _ (fun vs => exists bs, vs = unpack_items items bs)).
    - apply Rd_bind; [apply Rd_consume|]. intros b. apply Rd_bind; [apply Rd_note|]. intros _. apply Rd_lift.
      unfold struct_unpack. rewrite P. destruct (Nat.eqb _ _); [exact I|exact HS].
    - intros h a h' E. unfold read_struct, bind, lift, note in E. destruct (consume_range n h) as [[b h1]|]; [|discriminate].
      unfold struct_unpack in E. rewrite P in E. destruct (Nat.eqb _ _); [|discriminate]. injection E as <- _. eauto.
    - intros a (bs & ->). apply (all_vals_use items (fun vs => Rd S (k vs))), H.
  Qed.
End R.
Create HintDb rddb.
Ltac es1 := match goal with
  | |- Rd _ (ret _) => apply Rd_ret
  | |- Rd _ (raise _) => apply Rd_raise; assumption
  | |- Rd _ (bind (read_struct _ _) _) => eapply Rd_struct; [vm_compute; reflexivity|assumption|cbn [all_vals]; intros; cbv beta iota]
  | |- Rd _ (bind (read_int_32_array _) (fun ps => bind (read_class_array_with_pointers _ _ ps) _)) => apply Rd_pointers; [|intros ?]
  | |- Rd _ (bind (bind _ _) _) => apply Rd_bind; [|intros ?]
  | |- Rd _ (bind _ _) => apply Rd_bind; [|intros ?]
  | |- Rd _ get_version => apply Rd_get
  | |- Rd _ (note _ _) => apply Rd_note
  | |- Rd _ read_int_8 => apply Rd_u8
  | |- Rd _ (read_int_16 _) => apply Rd_i16
  | |- Rd _ (read_int_32 _) => apply Rd_i32
  | |- Rd _ read_float => apply Rd_float; assumption
  | |- Rd _ read_debug_string => apply Rd_text; assumption
  | |- Rd _ (read_class _) => apply Rd_class
  | |- Rd _ (read_class_array _ _) => apply Rd_for
  | |- Rd _ (read_class_array_kept _ _) => apply Rd_loop
  | |- Rd _ (read_class_array_with_param _ _ _) => apply Rd_for
  | |- Rd _ (read_int_8_array _) => apply Rd_for
  | |- Rd _ (read_int_16_array _) => apply Rd_for
  | |- Rd _ (read_int_32_array _) => apply Rd_for
  | |- Rd _ (read_float_array _) => apply Rd_for
  | |- Rd _ (read_class_array_3 _) => unfold read_class_array_3
  | |- Rd _ (read_class_array_4 _) => unfold read_class_array_4
  | |- Rd _ read_int_8_array_2 => unfold read_int_8_array_2
  | |- Rd _ read_int_8_array_3 => unfold read_int_8_array_3
  | |- Rd _ read_int_8_array_5 => unfold read_int_8_array_5
  | |- Rd _ read_int_8_array_6 => unfold read_int_8_array_6
  | |- Rd _ read_int_8_array_10 => unfold read_int_8_array_10
  | |- Rd _ read_int_16_array_2 => unfold read_int_16_array_2
  | |- Rd _ read_int_16_array_3 => unfold read_int_16_array_3
  | |- Rd _ read_int_16_array_4 => unfold read_int_16_array_4
  | |- Rd _ read_int_16_array_6 => unfold read_int_16_array_6
  | |- Rd _ read_int_32_array_10 => unfold read_int_32_array_10
  | |- Rd _ read_float_array_2 => unfold read_float_array_2
  | |- Rd _ read_float_array_3 => unfold read_float_array_3
  | |- Rd _ (if _ then _ else _) => apply Rd_if
  | |- Rd _ (let x := ?a in _) => cbv zeta
  | |- Rd _ (match ?p with pair _ _ => _ end) => destruct p
  | |- Rd _ (match ?p with [] => _ | _ => _ end) => destruct p
  | |- Rd _ ?m => solve [eauto 4 with rddb]
  end.
Ltac es := repeat es1.
Lemma Rd_SoundItem_from_bytes {S : exn -> Prop} : S AssertionError -> S UnicodeDecodeError -> Rd S (SoundItem_from_bytes).
Proof. intros HA HD. unfold SoundItem_from_bytes. es. Qed.
#[global] Hint Resolve Rd_SoundItem_from_bytes : rddb.
Lemma Rd_Sound_from_bytes {S : exn -> Prop} : S AssertionError -> S UnicodeDecodeError -> Rd S (Sound_from_bytes).
Proof. intros HA HD. unfold Sound_from_bytes. es. Qed.
#[global] Hint Resolve Rd_Sound_from_bytes : rddb.
Lemma Rd_PlayerColour_from_bytes {S : exn -> Prop} : Rd S (PlayerColour_from_bytes).
Proof. unfold PlayerColour_from_bytes. es. Qed.
#[global] Hint Resolve Rd_PlayerColour_from_bytes : rddb.
Lemma Rd_EffectCommand_from_bytes {S : exn -> Prop} : S StructError -> Rd S (EffectCommand_from_bytes).
Proof. intros HS. unfold EffectCommand_from_bytes. es. Qed.
#[global] Hint Resolve Rd_EffectCommand_from_bytes : rddb.
Lemma Rd_Effect_from_bytes {S : exn -> Prop} : S StructError -> S AssertionError -> S UnicodeDecodeError -> Rd S (Effect_from_bytes).
Proof. intros HS HA HD. unfold Effect_from_bytes. es. Qed.
#[global] Hint Resolve Rd_Effect_from_bytes : rddb.
Lemma Rd_TerrainPassGraphic_from_bytes {S : exn -> Prop} : Rd S (TerrainPassGraphic_from_bytes).
Proof. unfold TerrainPassGraphic_from_bytes. es. Qed.
#[global] Hint Resolve Rd_TerrainPassGraphic_from_bytes : rddb.
Lemma Rd_TerrainRestriction_from_bytes_with_count {S : exn -> Prop} n : S StructError -> Rd S (TerrainRestriction_from_bytes_with_count n).
Proof. intros HS. unfold TerrainRestriction_from_bytes_with_count. es. Qed.
#[global] Hint Resolve Rd_TerrainRestriction_from_bytes_with_count : rddb.
Lemma Rd_GraphicDelta_from_bytes {S : exn -> Prop} : Rd S (GraphicDelta_from_bytes).
Proof. unfold GraphicDelta_from_bytes. es. Qed.
#[global] Hint Resolve Rd_GraphicDelta_from_bytes : rddb.
Lemma Rd_GraphicAngleSound_from_bytes {S : exn -> Prop} : Rd S (GraphicAngleSound_from_bytes).
Proof. unfold GraphicAngleSound_from_bytes. es. Qed.
#[global] Hint Resolve Rd_GraphicAngleSound_from_bytes : rddb.
Lemma Rd_Graphic_from_bytes {S : exn -> Prop} : S StructError -> S AssertionError -> S UnicodeDecodeError -> Rd S (Graphic_from_bytes).
Proof. intros HS HA HD. unfold Graphic_from_bytes. es. Qed.
#[global] Hint Resolve Rd_Graphic_from_bytes : rddb.
Lemma Rd_FrameData_from_bytes {S : exn -> Prop} : Rd S (FrameData_from_bytes).
Proof. unfold FrameData_from_bytes. es. Qed.
#[global] Hint Resolve Rd_FrameData_from_bytes : rddb.
Lemma Rd_Terrain_from_bytes {S : exn -> Prop} : S StructError -> S AssertionError -> S UnicodeDecodeError -> Rd S (Terrain_from_bytes).
Proof. intros HS HA HD. unfold Terrain_from_bytes. es. Qed.
#[global] Hint Resolve Rd_Terrain_from_bytes : rddb.
Lemma Rd_TileSize_from_bytes {S : exn -> Prop} : Rd S (TileSize_from_bytes).
Proof. unfold TileSize_from_bytes. es. Qed.
#[global] Hint Resolve Rd_TileSize_from_bytes : rddb.
Lemma Rd_TerrainBlock_from_bytes {S : exn -> Prop} : S StructError -> S AssertionError -> S UnicodeDecodeError -> Rd S (TerrainBlock_from_bytes).
Proof. intros HS HA HD. unfold TerrainBlock_from_bytes. es. Qed.
#[global] Hint Resolve Rd_TerrainBlock_from_bytes : rddb.
Lemma Rd_MapUnit_from_bytes {S : exn -> Prop} : Rd S (MapUnit_from_bytes).
Proof. unfold MapUnit_from_bytes. es. Qed.
#[global] Hint Resolve Rd_MapUnit_from_bytes : rddb.
Lemma Rd_MapTerrain_from_bytes {S : exn -> Prop} : Rd S (MapTerrain_from_bytes).
Proof. unfold MapTerrain_from_bytes. es. Qed.
#[global] Hint Resolve Rd_MapTerrain_from_bytes : rddb.
Lemma Rd_MapLand_from_bytes {S : exn -> Prop} : Rd S (MapLand_from_bytes).
Proof. unfold MapLand_from_bytes. es. Qed.
#[global] Hint Resolve Rd_MapLand_from_bytes : rddb.
Lemma Rd_MapElevation_from_bytes {S : exn -> Prop} : Rd S (MapElevation_from_bytes).
Proof. unfold MapElevation_from_bytes. es. Qed.
#[global] Hint Resolve Rd_MapElevation_from_bytes : rddb.
Lemma Rd_MapInfo_from_bytes {S : exn -> Prop} : Rd S (MapInfo_from_bytes).
Proof. unfold MapInfo_from_bytes. es. Qed.
#[global] Hint Resolve Rd_MapInfo_from_bytes : rddb.
Lemma Rd_RandomMaps_from_bytes {S : exn -> Prop} : Rd S (RandomMaps_from_bytes).
Proof. unfold RandomMaps_from_bytes. es. Qed.
#[global] Hint Resolve Rd_RandomMaps_from_bytes : rddb.
Lemma Rd_Task_from_bytes_84 {S : exn -> Prop} : S StructError -> Rd S (Task_from_bytes_84).
Proof. intros HS. unfold Task_from_bytes_84. es. Qed.
#[global] Hint Resolve Rd_Task_from_bytes_84 : rddb.
Lemma Rd_Task_from_bytes_88 {S : exn -> Prop} : S StructError -> Rd S (Task_from_bytes_88).
Proof. intros HS. unfold Task_from_bytes_88. es. Qed.
#[global] Hint Resolve Rd_Task_from_bytes_88 : rddb.
Lemma Rd_Task_from_bytes {S : exn -> Prop} : S StructError -> Rd S (Task_from_bytes).
Proof. intros HS. unfold Task_from_bytes. es. Qed.
#[global] Hint Resolve Rd_Task_from_bytes : rddb.
Lemma Rd_UnitHeaders_from_bytes {S : exn -> Prop} : S StructError -> Rd S (UnitHeaders_from_bytes).
Proof. intros HS. unfold UnitHeaders_from_bytes. es. Qed.
#[global] Hint Resolve Rd_UnitHeaders_from_bytes : rddb.
Lemma Rd_ResourceStorage_from_bytes {S : exn -> Prop} : S StructError -> Rd S (ResourceStorage_from_bytes).
Proof. intros HS. unfold ResourceStorage_from_bytes. es. Qed.
#[global] Hint Resolve Rd_ResourceStorage_from_bytes : rddb.
Lemma Rd_DamageGraphic_from_bytes {S : exn -> Prop} : S StructError -> Rd S (DamageGraphic_from_bytes).
Proof. intros HS. unfold DamageGraphic_from_bytes. es. Qed.
#[global] Hint Resolve Rd_DamageGraphic_from_bytes : rddb.
Lemma Rd_DeadFish_from_bytes {S : exn -> Prop} : S StructError -> Rd S (DeadFish_from_bytes).
Proof. intros HS. unfold DeadFish_from_bytes. es. Qed.
#[global] Hint Resolve Rd_DeadFish_from_bytes : rddb.
Lemma Rd_Bird_from_bytes {S : exn -> Prop} : S StructError -> Rd S (Bird_from_bytes).
Proof. intros HS. unfold Bird_from_bytes. es. Qed.
#[global] Hint Resolve Rd_Bird_from_bytes : rddb.
Lemma Rd_AttackOrArmor_from_bytes {S : exn -> Prop} : S StructError -> Rd S (AttackOrArmor_from_bytes).
Proof. intros HS. unfold AttackOrArmor_from_bytes. es. Qed.
#[global] Hint Resolve Rd_AttackOrArmor_from_bytes : rddb.
Lemma Rd_Type50_from_bytes {S : exn -> Prop} : S StructError -> Rd S (Type50_from_bytes).
Proof. intros HS. unfold Type50_from_bytes. es. Qed.
#[global] Hint Resolve Rd_Type50_from_bytes : rddb.
Lemma Rd_Projectile_from_bytes {S : exn -> Prop} : S StructError -> Rd S (Projectile_from_bytes).
Proof. intros HS. unfold Projectile_from_bytes. es. Qed.
#[global] Hint Resolve Rd_Projectile_from_bytes : rddb.
Lemma Rd_ResourceCost_from_bytes {S : exn -> Prop} : S StructError -> Rd S (ResourceCost_from_bytes).
Proof. intros HS. unfold ResourceCost_from_bytes. es. Qed.
#[global] Hint Resolve Rd_ResourceCost_from_bytes : rddb.
Lemma Rd_TrainLocation_from_bytes_84 {S : exn -> Prop} : S StructError -> Rd S (TrainLocation_from_bytes_84).
Proof. intros HS. unfold TrainLocation_from_bytes_84. es. Qed.
#[global] Hint Resolve Rd_TrainLocation_from_bytes_84 : rddb.
Lemma Rd_TrainLocation_from_bytes_88 {S : exn -> Prop} : S StructError -> Rd S (TrainLocation_from_bytes_88).
Proof. intros HS. unfold TrainLocation_from_bytes_88. es. Qed.
#[global] Hint Resolve Rd_TrainLocation_from_bytes_88 : rddb.
Lemma Rd_TrainLocation_from_bytes {S : exn -> Prop} : S StructError -> Rd S (TrainLocation_from_bytes).
Proof. intros HS. unfold TrainLocation_from_bytes. es. Qed.
#[global] Hint Resolve Rd_TrainLocation_from_bytes : rddb.
Lemma Rd_Creatable_from_bytes_78 {S : exn -> Prop} : S StructError -> Rd S (Creatable_from_bytes_78).
Proof. intros HS. unfold Creatable_from_bytes_78. es. Qed.
#[global] Hint Resolve Rd_Creatable_from_bytes_78 : rddb.
Lemma Rd_Creatable_from_bytes_84 {S : exn -> Prop} : S StructError -> Rd S (Creatable_from_bytes_84).
Proof. intros HS. unfold Creatable_from_bytes_84. es. Qed.
#[global] Hint Resolve Rd_Creatable_from_bytes_84 : rddb.
Lemma Rd_Creatable_from_bytes_88 {S : exn -> Prop} : S StructError -> Rd S (Creatable_from_bytes_88).
Proof. intros HS. unfold Creatable_from_bytes_88. es. Qed.
#[global] Hint Resolve Rd_Creatable_from_bytes_88 : rddb.
Lemma Rd_Creatable_from_bytes {S : exn -> Prop} : S StructError -> Rd S (Creatable_from_bytes).
Proof. intros HS. unfold Creatable_from_bytes. es. Qed.
#[global] Hint Resolve Rd_Creatable_from_bytes : rddb.
Lemma Rd_BuildingAnnex_from_bytes {S : exn -> Prop} : S StructError -> Rd S (BuildingAnnex_from_bytes).
Proof. intros HS. unfold BuildingAnnex_from_bytes. es. Qed.
#[global] Hint Resolve Rd_BuildingAnnex_from_bytes : rddb.
Lemma Rd_Building_from_bytes {S : exn -> Prop} : S StructError -> Rd S (Building_from_bytes).
Proof. intros HS. unfold Building_from_bytes. es. Qed.
#[global] Hint Resolve Rd_Building_from_bytes : rddb.
Lemma Rd_Unit_from_bytes_84 {S : exn -> Prop} : S StructError -> S AssertionError -> S UnicodeDecodeError -> Rd S (Unit_from_bytes_84).
Proof. intros HS HA HD. unfold Unit_from_bytes_84. es; (apply Rd_lift; match goal with |- context [match ?o with Some _ => _ | None => _ end] => destruct o as [c|]; [|exact I] end; cbv zeta; destruct c as [? []]; cbn; exact I). Qed.
#[global] Hint Resolve Rd_Unit_from_bytes_84 : rddb.
Lemma Rd_Unit_from_bytes_88 {S : exn -> Prop} : S StructError -> S AssertionError -> S UnicodeDecodeError -> Rd S (Unit_from_bytes_88).
Proof. intros HS HA HD. unfold Unit_from_bytes_88. es; (apply Rd_lift; match goal with |- context [match ?o with Some _ => _ | None => _ end] => destruct o as [c|]; [|exact I] end; destruct (Creatable_train_locations c); exact I). Qed.
#[global] Hint Resolve Rd_Unit_from_bytes_88 : rddb.
Lemma Rd_Unit_from_bytes {S : exn -> Prop} : S StructError -> S AssertionError -> S UnicodeDecodeError -> Rd S (Unit_from_bytes).
Proof. intros HS HA HD. unfold Unit_from_bytes. es. Qed.
#[global] Hint Resolve Rd_Unit_from_bytes : rddb.
Lemma Rd_Civ_from_bytes {S : exn -> Prop} : S StructError -> S AssertionError -> S UnicodeDecodeError -> Rd S (Civ_from_bytes).
Proof. intros HS HA HD. unfold Civ_from_bytes. es. Qed.
#[global] Hint Resolve Rd_Civ_from_bytes : rddb.
Lemma Rd_ResearchResourceCost_from_bytes {S : exn -> Prop} : Rd S (ResearchResourceCost_from_bytes).
Proof. unfold ResearchResourceCost_from_bytes. es. Qed.
#[global] Hint Resolve Rd_ResearchResourceCost_from_bytes : rddb.
Lemma Rd_ResearchLocation_from_bytes {S : exn -> Prop} : Rd S (ResearchLocation_from_bytes).
Proof. unfold ResearchLocation_from_bytes. es. Qed.
#[global] Hint Resolve Rd_ResearchLocation_from_bytes : rddb.
Lemma Rd_Tech_from_bytes_84 {S : exn -> Prop} : S AssertionError -> S UnicodeDecodeError -> Rd S (Tech_from_bytes_84).
Proof. intros HA HD. unfold Tech_from_bytes_84. es. Qed.
#[global] Hint Resolve Rd_Tech_from_bytes_84 : rddb.
Lemma Rd_Tech_from_bytes_88 {S : exn -> Prop} : S AssertionError -> S UnicodeDecodeError -> Rd S (Tech_from_bytes_88).
Proof. intros HA HD. unfold Tech_from_bytes_88. es. Qed.
#[global] Hint Resolve Rd_Tech_from_bytes_88 : rddb.
Lemma Rd_Tech_from_bytes {S : exn -> Prop} : S AssertionError -> S UnicodeDecodeError -> Rd S (Tech_from_bytes).
Proof. intros HA HD. unfold Tech_from_bytes. es. Qed.
#[global] Hint Resolve Rd_Tech_from_bytes : rddb.
Lemma Rd_Common_from_bytes {S : exn -> Prop} : Rd S (Common_from_bytes).
Proof. unfold Common_from_bytes. es. Qed.
#[global] Hint Resolve Rd_Common_from_bytes : rddb.
Lemma Rd_TechTreeAge_from_bytes {S : exn -> Prop} : Rd S (TechTreeAge_from_bytes).
Proof. unfold TechTreeAge_from_bytes. es. Qed.
#[global] Hint Resolve Rd_TechTreeAge_from_bytes : rddb.
Lemma Rd_BuildingConnection_from_bytes {S : exn -> Prop} : Rd S (BuildingConnection_from_bytes).
Proof. unfold BuildingConnection_from_bytes. es. Qed.
#[global] Hint Resolve Rd_BuildingConnection_from_bytes : rddb.
Lemma Rd_UnitConnection_from_bytes {S : exn -> Prop} : Rd S (UnitConnection_from_bytes).
Proof. unfold UnitConnection_from_bytes. es. Qed.
#[global] Hint Resolve Rd_UnitConnection_from_bytes : rddb.
Lemma Rd_ResearchConnection_from_bytes {S : exn -> Prop} : Rd S (ResearchConnection_from_bytes).
Proof. unfold ResearchConnection_from_bytes. es. Qed.
#[global] Hint Resolve Rd_ResearchConnection_from_bytes : rddb.
Lemma Rd_TechTree_from_bytes {S : exn -> Prop} : Rd S (TechTree_from_bytes).
Proof. unfold TechTree_from_bytes. es. Qed.
#[global] Hint Resolve Rd_TechTree_from_bytes : rddb.
Lemma Rd_body {S : exn -> Prop} s : S StructError -> S AssertionError -> S UnicodeDecodeError -> Rd S (read_body s).
Proof. intros HS HA HD. unfold read_body. es. Qed.
Lemma Rd_DatFile {S : exn -> Prop} : S StructError -> S AssertionError -> S UnicodeDecodeError -> S ValueError -> Rd S DatFile_from_bytes.
Proof.
  intros HS HA HD HV. eapply Rd_ext; [intros h; symmetry; apply from_bytes_split|].
  apply Rd_bind; [apply Rd_string, HD|]. intros s. apply Rd_bind.
  { apply Rd_lift. unfold version_lookup. destruct (find _ _); [exact I|exact HV]. }
  intros v. apply Rd_bind; [apply Rd_set|]. intros _. apply Rd_body; assumption.
Qed.
