(** * Codecs of tasks, units and their sections, civs, techs. *)
From Verif Require Import Base PyInt PyFloat PyStr PyStruct DataTypes Versions Common Wire Layout Shape.
From Verif Require Import Codec CodecP CodecF CodecC P_Simple.
From Verif Require Import M_Task M_UnitHeaders M_Unit M_Civ M_Tech.
From Coq Require Import ZifyBool.
Open Scope Z_scope.
Local Open Scope list_scope.
Local Notation length := List.length.

#[global] Instance Task_codec : Codec Task_to_bytes Task_from_bytes Task_layout Task_shape any.
Proof.
  split; intros.
  - exact I.
  - unfold Task_to_bytes, Task_layout. rewrite ge_88. destruct (since 88 v); cbn [app].
    + unfold Task_to_bytes_88. lay_struct.
    + unfold Task_to_bytes_84. lay_struct.
  - destruct x; unfold Task_shape in H; unfold Task_from_bytes, Task_layout; cbn in *.
    parses_step. rewrite ge_88. destruct (since 88 v).
    + unfold Task_from_bytes_88. parses_struct. apply Parses_ret.
    + rewrite (H eq_refl). unfold Task_from_bytes_84. parses_struct. apply Parses_ret.
  - unfold Reads, Task_from_bytes. fwd_step. rewrite ge_88. destruct (since 88 v) eqn:V.
    + unfold Task_from_bytes_88. fwd_step. apply Fwd_ret; unfold Task_layout, Task_shape; rewrite V; cbn. fwd_end0. discriminate.
    + unfold Task_from_bytes_84. fwd_step. apply Fwd_ret; unfold Task_layout, Task_shape; rewrite V; cbn. fwd_end0. reflexivity.
Qed.

#[global] Instance UnitHeaders_codec : Codec UnitHeaders_to_bytes UnitHeaders_from_bytes UnitHeaders_layout UnitHeaders_shape any.
Proof.
  split; intros.
  - exact I.
  - unfold UnitHeaders_to_bytes, UnitHeaders_layout. rewrite truthy_eqb.
    destruct (UnitHeaders_exists_ x =? 0); cbn [negb]; [|destruct (UnitHeaders_task_list x)];
      apply Lay_nil_r; norm_cells; repeat lay_step.
    all: apply (Lay_join_app _ _ []); [reflexivity|]; apply (Lay_join_app _ _ []); reflexivity.
  - destruct x as [e o]; unfold UnitHeaders_shape in H; unfold UnitHeaders_from_bytes, UnitHeaders_layout; cbn in *.
    parses_solve. rewrite truthy_eqb. destruct o as [l|].
    + destruct H as [H1 H2]. apply Z.eqb_neq in H1. rewrite H1. cbn [negb]. norm_cells. repeat parses_step.
    + rewrite H. rewrite Z.eqb_refl. cbn. repeat parses_step.
  - unfold Reads, UnitHeaders_from_bytes. repeat fwd_step. rewrite truthy_eqb.
    destruct (x =? 0) eqn:E; cbn [negb]; repeat fwd_step; apply Fwd_ret; unfold UnitHeaders_layout; cbn; rewrite E;
      fwd_end0; unfold UnitHeaders_shape; cbn.
    + apply Z.eqb_eq, E.
    + split; [apply Z.eqb_neq, E|assumption].
Qed.

#[global] Instance Bird_codec : Codec Bird_to_bytes Bird_from_bytes Bird_layout Bird_shape any.
Proof.
  split; intros.
  - exact I.
  - unfold Bird_to_bytes, Bird_layout. rewrite ge_78. destruct (since 78 v); lay_solve.
  - destruct x; unfold Bird_shape in H; unfold Bird_from_bytes, Bird_layout; cbn in *. destruct H as [H H'].
    repeat parses_step. rewrite gt_77. destruct (since 78 v); norm_cells.
    + apply Parses_nil_r; norm_cells. repeat parses_step.
    + specialize (H eq_refl). apply Parses_nil_r; norm_cells. repeat parses_step.
  - unfold Reads, Bird_from_bytes. repeat fwd_step. rewrite gt_77.
    destruct (since 78 v) eqn:V; repeat fwd_step; apply Fwd_ret; unfold Bird_layout, Bird_shape; rewrite V; cbn;
      fwd_end0; (split; [|assumption]).
    + discriminate.
    + intros _. side_count.
Qed.

#[global] Instance Type50_codec : Codec Type50_to_bytes Type50_from_bytes Type50_layout Type50_shape any.
Proof.
  split; intros.
  - exact I.
  - unfold Type50_to_bytes, Type50_layout. rewrite ge_84.
    match goal with |- Lay (rbind ?w ?k) _ =>
      replace (rbind w k) with (w +++ (if since 84 v then join [
        write_float (Type50_damage_reflection x);
        write_float (Type50_friendly_fire_damage x);
        write_int_16 (Type50_interrupt_frame x) true true;
        write_float (Type50_garrison_firepower x);
        write_int_16 (Type50_attack_graphic_2 x) true true ] else Ok [])) end.
    2:{ match goal with |- context [join ?l +++ _] => destruct (join l) as [b|]; [|reflexivity] end.
        destruct (since 84 v); cbn [wapp rbind]; [|rewrite app_nil_r; reflexivity].
        match goal with |- context [join ?l] => destruct (join l); reflexivity end. }
    rewrite !app_assoc. apply Lay_wapp; [rewrite <- !app_assoc; lay_solve|].
    destruct (since 84 v); [lay_solve|apply Lay_empty].
  - destruct x; unfold Type50_shape in H; unfold Type50_from_bytes, Type50_layout; cbn in *. destruct H as [H H'].
    apply Parses_nil_r; norm_cells; repeat parses_step. rewrite ge_84. destruct (since 84 v); norm_cells.
    + repeat parses_step.
    + destruct (H' eq_refl) as (? & ? & ? & ? & ?). subst. repeat parses_step.
  - unfold Reads, Type50_from_bytes. repeat fwd_step. rewrite ge_84.
    destruct (since 84 v) eqn:V; repeat fwd_step; apply Fwd_ret; unfold Type50_layout, Type50_shape; rewrite V; cbn;
      fwd_end0; (split; [assumption|]).
    + discriminate.
    + intros _. repeat split.
Qed.

#[global] Instance TrainLocation_codec : Codec TrainLocation_to_bytes TrainLocation_from_bytes TrainLocation_layout TrainLocation_shape any.
Proof.
  split; intros.
  - exact I.
  - unfold TrainLocation_to_bytes, TrainLocation_layout. rewrite ge_88. destruct (since 88 v); cbn [app]; lay_struct.
  - destruct x; unfold TrainLocation_shape in H; unfold TrainLocation_from_bytes, TrainLocation_layout; cbn in *.
    parses_step. rewrite ge_88. destruct (since 88 v).
    + unfold TrainLocation_from_bytes_88. parses_struct. apply Parses_ret.
    + rewrite (H eq_refl). unfold TrainLocation_from_bytes_84. parses_struct. apply Parses_ret.
  - unfold Reads, TrainLocation_from_bytes. fwd_step. rewrite ge_88. destruct (since 88 v) eqn:V.
    + unfold TrainLocation_from_bytes_88. fwd_step. apply Fwd_ret; unfold TrainLocation_layout, TrainLocation_shape; rewrite V; cbn. fwd_end0. discriminate.
    + unfold TrainLocation_from_bytes_84. fwd_step. apply Fwd_ret; unfold TrainLocation_layout, TrainLocation_shape; rewrite V; cbn. fwd_end0. reflexivity.
Qed.

(** struct.pack with a tuple of fixed length spliced in. *)
Lemma encode_refuse a b : encode (a ++ Refuse :: b) = None.
Proof. rewrite encode_app, encode_cons. cbn [cell_bytes oapp]. destruct (encode a); reflexivity. Qed.
Lemma map_fc_const {A} (c : A -> cell) k l : (forall a, fc_of (c a) = Some k) -> map fc_of (map c l) = map Some (repeat k (length l)).
Proof. intros H. induction l; cbn; [reflexivity|]. rewrite H, IHl. reflexivity. Qed.
Lemma Lay_struct_exact {A} fmt items pre (f : A -> pyval) (c : A -> cell) k n l post vals :
  parse_fmt fmt = Some items ->
  vals = map val_of pre ++ map f l ++ map val_of post ->
  (forall a, val_of (c a) = f a) -> (forall a, fc_of (c a) = Some k) ->
  map fc_of pre ++ map Some (repeat k n) ++ map fc_of post = map Some items ->
  Lay (struct_pack fmt vals) (pre ++ exactly n l (map c l) ++ post).
Proof.
  intros Hf -> Hv Hc Hi. unfold exactly. destruct (Nat.eqb_spec (length l) n) as [E|E]; cbn [guard].
  - eapply Lay_struct; [exact Hf| |].
    + rewrite !map_app, map_map. do 2 f_equal. apply map_ext. auto.
    + unfold struct_cells. rewrite !map_app, (map_fc_const c k l Hc), E. exact Hi.
  - rewrite (struct_pack_arity _ _ _ Hf).
    + apply Lay_Err. apply encode_refuse.
    + apply (f_equal (@length _)) in Hi. rewrite !app_length, !map_length, repeat_length in Hi.
      rewrite !app_length, !map_length. lia.
Qed.
Lemma exactly_ok {A} n (l : list A) cs : cells_ok (exactly n l cs) <-> length l = n /\ cells_ok cs.
Proof. unfold exactly. rewrite cells_ok_guard, Nat.eqb_eq. tauto. Qed.

Lemma Lay_struct_exact' {A} fmt items pre (f : A -> pyval) (c : A -> cell) k n l post vals cells :
  cells = pre ++ exactly n l (map c l) ++ post ->
  parse_fmt fmt = Some items ->
  vals = map val_of pre ++ map f l ++ map val_of post ->
  (forall a, val_of (c a) = f a) -> (forall a, fc_of (c a) = Some k) ->
  map fc_of pre ++ map Some (repeat k n) ++ map fc_of post = map Some items ->
  Lay (struct_pack fmt vals) cells.
Proof. intros ->. apply Lay_struct_exact. Qed.

Definition Creatable_tail (b84 : bool) (x : Creatable) : list cell :=
  [F32s (Creatable_rear_attack_modifier x);
      F32s (Creatable_flank_attack_modifier x); I8 (Creatable_creatable_type x);
      I8 (Creatable_hero_mode x); I32 (Creatable_garrison_graphic x);
      I16 (Creatable_spawning_graphic x); I16 (Creatable_upgrade_graphic x);
      I16 (Creatable_hero_glow_graphic x)]
  ++ (if b84 then [I16 (Creatable_idle_attack_graphic x)] else [])
  ++ [F32s (Creatable_max_charge x); F32s (Creatable_recharge_rate x);
      I16 (Creatable_charge_event x); I16 (Creatable_charge_type x)]
  ++ (if b84
      then [I16 (Creatable_charge_target x); I32 (Creatable_charge_projectile_unit x);
            I8 (Creatable_attack_priority x); F32s (Creatable_invulnerability_level x);
            I16 (Creatable_button_icon_id x); I32 (Creatable_button_short_tooltip_id x);
            I32 (Creatable_button_extended_tooltip_id x); I16 (Creatable_button_hotkey_action x)]
      else [])
  ++ [F32s (Creatable_min_conversion_time_mod x);
      F32s (Creatable_max_conversion_time_mod x); F32s (Creatable_conversion_chance_mod x);
      F32s (Creatable_total_projectiles x); I8 (Creatable_max_total_projectiles x)].
Definition Creatable_end (x : Creatable) : list cell :=
  [I32 (Creatable_secondary_projectile_unit x); I32 (Creatable_special_graphic x);
      I8 (Creatable_special_ability x); I16 (Creatable_displayed_pierce_armour x)].
Definition area_cells (x : Creatable) : list cell :=
  exactly 3 (Creatable_projectile_spawning_area x) (map F32s (Creatable_projectile_spawning_area x)).
Lemma Creatable_layout_eq v x : Creatable_layout v x =
  flat_map (ResourceCost_layout v) (Creatable_resource_costs x)
  ++ (if since 88 v
      then [I16 (count (Creatable_train_locations x))]
           ++ flat_map (TrainLocation_layout v) (Creatable_train_locations x)
      else match Creatable_train_locations x with
           | first :: _ => TrainLocation_layout v first
           | [] => [Refuse]
           end)
  ++ Creatable_tail (since 84 v) x ++ area_cells x ++ Creatable_end x.
Proof. unfold Creatable_layout, Creatable_tail, area_cells, Creatable_end. rewrite <- !app_assoc. reflexivity. Qed.

Ltac lay_exact pre cf k :=
  eapply (Lay_struct_exact' _ _ pre _ cf k);
  [ cbn [app]; reflexivity | vm_compute; reflexivity | reflexivity | reflexivity | reflexivity | vm_compute; reflexivity ].

Lemma Creatable_lay v x : Lay (Creatable_to_bytes x v) (Creatable_layout v x).
Proof.
  rewrite Creatable_layout_eq. unfold Creatable_to_bytes. rewrite ge_88, ge_84.
  destruct (since 88 v) eqn:V.
  - rewrite (since_88_84 v V). unfold Creatable_to_bytes_88.
    match goal with |- Lay _ (?a ++ (?b ++ ?c) ++ ?d) => replace (a ++ (b ++ c) ++ d) with (((a ++ b) ++ c) ++ d)
      by (rewrite <- !app_assoc; reflexivity) end.
    apply Lay_wapp; [|].
    + apply Lay_wapp; [apply Lay_wapp|].
      * eapply Lay_arr; side_arity.
      * apply Lay_i16.
      * eapply Lay_arr; side_arity.
    + unfold area_cells. lay_exact (Creatable_tail true x) F32s Ff.
  - destruct (Creatable_train_locations x) as [|first rest] eqn:Et.
    + assert (Creatable_to_bytes_84 x v = Creatable_to_bytes_78 x v /\ ok_of (Creatable_to_bytes_78 x v) = None) as [E1 E2].
      { unfold Creatable_to_bytes_84, Creatable_to_bytes_78. rewrite Et. cbn [py_index nth_error rbind].
        destruct (write_class_array _ _ _); split; reflexivity. }
      rewrite E1. assert (Hd : (if since 84 v then Creatable_to_bytes_78 x v else Creatable_to_bytes_78 x v) = Creatable_to_bytes_78 x v)
        by (destruct (since 84 v); reflexivity). rewrite Hd.
      unfold Lay. rewrite E2. symmetry. apply encode_refuse.
    + destruct (since 84 v).
      * unfold Creatable_to_bytes_84. rewrite Et. cbn [py_index nth_error rbind].
        apply Lay_wapp; [eapply Lay_arr; side_arity|]. unfold TrainLocation_layout. rewrite V, app_nil_r.
        unfold area_cells.
        lay_exact ([I16 (TrainLocation_train_time first); I16 (TrainLocation_unit_id first); I8 (TrainLocation_button_id first)] ++ Creatable_tail true x) F32s Ff.
      * unfold Creatable_to_bytes_78. rewrite Et. cbn [py_index nth_error rbind].
        apply Lay_wapp; [eapply Lay_arr; side_arity|]. unfold TrainLocation_layout. rewrite V, app_nil_r.
        unfold area_cells.
        lay_exact ([I16 (TrainLocation_train_time first); I16 (TrainLocation_unit_id first); I8 (TrainLocation_button_id first)] ++ Creatable_tail false x) F32s Ff.
Qed.

#[global] Instance Creatable_codec : Codec Creatable_to_bytes Creatable_from_bytes Creatable_layout Creatable_shape any.
Proof.
  split; intros.
  - exact I.
  - apply Creatable_lay.
  - destruct x; unfold Creatable_shape, Creatable_core_shape in H; unfold Creatable_from_bytes, Creatable_layout; cbn in *.
    split_ands.
    assert (exists a b c, Creatable_projectile_spawning_area = [a; b; c]) as (a & b & c & ->).
    { destruct Creatable_projectile_spawning_area as [|a [|b [|c [|d ?]]]]; try discriminate; [eauto|]. exfalso. unfold count in *. cbn [length] in *. lia. }
    cbn [exactly guard length Nat.eqb map app].
    repeat parses_step. rewrite ge_88. destruct (since 88 v) eqn:V.
    + rewrite (since_88_84 v V). unfold Creatable_from_bytes_88. apply Parses_nil_r; norm_cells; repeat parses_step.
      parses_struct. apply Parses_ret.
    + match goal with H : false = false -> count _ = 1 |- _ => specialize (H eq_refl) end.
      assert (exists t, Creatable_train_locations = [t]) as [t ->].
      { destruct Creatable_train_locations as [|t [|? ?]]; try discriminate; [eauto|]. exfalso. unfold count in *. cbn [length] in *. lia. }
      match goal with H : Forall _ [t] |- _ => inversion H as [|? ? Ht _]; subst; clear H end.
      unfold TrainLocation_shape in Ht. specialize (Ht V). destruct t as [t1 t2 t3 t4]; cbn in Ht; subst t4.
      unfold TrainLocation_layout. rewrite V. cbn.
      repeat parses_step. rewrite ge_84. destruct (since 84 v) eqn:W.
      * unfold Creatable_from_bytes_84. apply Parses_nil_r; norm_cells; repeat parses_step. parses_struct. apply Parses_ret.
      * match goal with H : false = false -> _ |- _ => specialize (H eq_refl); split_ands; subst end.
        unfold Creatable_from_bytes_78. apply Parses_nil_r; norm_cells; repeat parses_step. parses_struct. apply Parses_ret.
  - unfold Reads, Creatable_from_bytes. repeat fwd_step. rewrite ge_88. destruct (since 88 v) eqn:V.
    + unfold Creatable_from_bytes_88. repeat fwd_step. apply Fwd_ret.
      unfold Creatable_layout, Creatable_shape, Creatable_core_shape. rewrite V, (since_88_84 v V). cbn. fwd_end0.
      split; [|assumption]. split; [assumption|]. split; [reflexivity|]. split; intros; discriminate.
    + repeat fwd_step. rewrite ge_84. destruct (since 84 v) eqn:W.
      * unfold Creatable_from_bytes_84. repeat fwd_step. apply Fwd_ret.
        unfold Creatable_layout, Creatable_shape, Creatable_core_shape, TrainLocation_layout, TrainLocation_shape.
        rewrite V, W. cbn. fwd_end0.
        split; [split; [assumption|split; [reflexivity|split; [reflexivity|discriminate]]]|].
        repeat constructor.
      * unfold Creatable_from_bytes_78. repeat fwd_step. apply Fwd_ret.
        unfold Creatable_layout, Creatable_shape, Creatable_core_shape, TrainLocation_layout, TrainLocation_shape.
        rewrite V, W. cbn. fwd_end0.
        split; [split; [assumption|split; [reflexivity|split; [reflexivity|]]]|].
        { intros _. repeat split. }
        repeat constructor.
Qed.

#[global] Instance Building_codec : Codec Building_to_bytes Building_from_bytes Building_layout Building_shape any.
Proof.
  split; intros.
  - exact I.
  - unfold Building_to_bytes, Building_layout.
    match goal with |- Lay _ (?a ++ ?b ++ ?c) => rewrite (app_assoc a b c) end.
    apply Lay_wapp; [apply Lay_wapp|].
    + lay_struct.
    + eapply Lay_arr; side_arity.
    + eapply (Lay_struct_exact' _ _ [I16 (Building_head_unit x); I16 (Building_transform_unit x); I16 (Building_transform_sound x);
      I16 (Building_construction_sound x); I32 (Building_wwise_transform_sound_id x);
      I32 (Building_wwise_construction_sound_id x); I8 (Building_garrison_type x);
      F32s (Building_garrison_heal_rate x); F32s (Building_garrison_repair_rate x);
      I16 (Building_pile_unit x)] VInt I8 Fb 6 (Building_looting_table x) []);
      [rewrite app_nil_r; reflexivity | vm_compute; reflexivity | rewrite app_nil_r; reflexivity | reflexivity | reflexivity | vm_compute; reflexivity ].
  - destruct x; unfold Building_shape in H; unfold Building_from_bytes, Building_layout; cbn in *. destruct H as [H H'].
    assert (exists a b c d e f, Building_looting_table = [a; b; c; d; e; f]) as (a & b & c & d & e & f & ->).
    { destruct Building_looting_table as [|a [|b [|c [|d [|e [|f [|? ?]]]]]]]; try discriminate; [eauto 10|].
      exfalso. unfold count in *. cbn [length] in *. lia. }
    cbn [exactly guard length Nat.eqb map app].
    parses_struct. parses_step. parses_struct. apply Parses_ret.
  - unfold Reads, Building_from_bytes. repeat fwd_step. fwd_end Building_layout. split; [assumption|reflexivity].
Qed.

(** ** The sections of a unit *)
Definition opt_read {A} (b : bool) (m : rd A) : rd (option A) :=
  if b then x <- m ;; ret (Some x) else ret None.

Lemma Parses_opt_read {A} v b (m : rd A) (f : A -> list cell) o :
  present o = b -> on_some (fun x => Parses v (f x) m x) o ->
  Parses v (stored b f o) (opt_read b m) o.
Proof.
  intros <- H. unfold stored, opt_read. destruct o as [x|]; cbn [present opt_cells].
  - apply Parses_nil_r. eapply Parses_bind; [exact H|apply Parses_ret].
  - apply Parses_ret.
Qed.
Lemma Fwd_opt_read {A} v b (m : rd A) (f : A -> list cell) (S : A -> Prop) :
  Reads v m f S ->
  Fwd v (opt_read b m) (fun P o cs =>
    (P -> cs = stored b f o) /\ cells_ok (stored b f o) /\ present o = b /\ on_some S o).
Proof.
  intros H. unfold opt_read. destruct b.
  - eapply Fwd_bind; [exact H|]. cbv beta. intros P x c (H1 & H2 & H3). apply Fwd_ret.
    cbn. split; [|auto]. intros [HP _]. rewrite app_nil_r. auto.
  - apply Fwd_ret. cbn. split; [auto|]. split; [exact cells_ok_nil|auto].
Qed.

Definition opt_write {A} (b : bool) (w : A -> res bytes) (o : option A) : res bytes :=
  if b then match o with Some x => w x | None => Ok [] end else Ok [].
Lemma Lay_opt_write {A} b (w : A -> res bytes) (f : A -> list cell) o :
  (forall x, Lay (w x) (f x)) -> Lay (opt_write b w o) (stored b f o).
Proof. intros H. unfold opt_write, stored. destruct b; [|apply Lay_empty]. destruct o; [apply H|apply Lay_empty]. Qed.

Lemma sections_90 : has_speed 90 = false /\ has_dead_fish 90 = false /\ has_bird 90 = false /\ has_type_50 90 = false
  /\ has_projectile 90 = false /\ has_creatable 90 = false /\ has_building 90 = false.
Proof. repeat split. Qed.
Lemma sections_low t : (20 <=? t) = false -> has_speed t = false /\ has_dead_fish t = false /\ has_bird t = false /\ has_type_50 t = false
  /\ has_projectile t = false /\ has_creatable t = false /\ has_building t = false.
Proof. intros H. unfold has_speed, has_dead_fish, has_bird, has_type_50, has_projectile, has_creatable, has_building. lia. Qed.
Lemma sections_high t : (t =? 90) = false -> (20 <=? t) = true ->
  has_speed t = true /\ has_dead_fish t = (30 <=? t) /\ has_bird t = (40 <=? t) /\ has_type_50 t = (50 <=? t)
  /\ has_projectile t = (t =? 60) /\ has_creatable t = (70 <=? t) /\ has_building t = (t =? 80).
Proof.
  intros H1 H2. unfold has_speed, has_dead_fish, has_bird, has_type_50, has_projectile, has_creatable, has_building.
  rewrite H1, H2. repeat split.
Qed.

(** The nested conditionals of unit.py are seven independent ones. *)
Lemma sections_write {B} t (w1 w2 w3 w4 w5 w6 w7 : res bytes) (k : _ -> res B) :
  rbind
    (if negb (t =? UnitType_AoeTrees) then
      '(speed, dead_fish, bird, type_50, projectile, creatable, building) <--
        (if UnitType_Flag <=? t then
          speed <-- w1 ;;;
          dead_fish <-- (if UnitType_DeadFish <=? t then dead_fish <-- w2 ;;; Ok dead_fish else Ok []) ;;;
          bird <-- (if UnitType_Bird <=? t then bird <-- w3 ;;; Ok bird else Ok []) ;;;
          type_50 <-- (if UnitType_Combatant <=? t then type_50 <-- w4 ;;; Ok type_50 else Ok []) ;;;
          projectile <-- (if t =? UnitType_Projectile then projectile <-- w5 ;;; Ok projectile else Ok []) ;;;
          creatable <-- (if UnitType_Creatable <=? t then creatable <-- w6 ;;; Ok creatable else Ok []) ;;;
          building <-- (if t =? UnitType_Building then building <-- w7 ;;; Ok building else Ok []) ;;;
          Ok (speed, dead_fish, bird, type_50, projectile, creatable, building)
         else Ok ([], [], [], [], [], [], [])) ;;;
      Ok (speed, dead_fish, bird, type_50, projectile, creatable, building)
     else Ok ([], [], [], [], [], [], [])) k
  = (s1 <-- (if has_speed t then w1 else Ok []) ;;;
     s2 <-- (if has_dead_fish t then w2 else Ok []) ;;;
     s3 <-- (if has_bird t then w3 else Ok []) ;;;
     s4 <-- (if has_type_50 t then w4 else Ok []) ;;;
     s5 <-- (if has_projectile t then w5 else Ok []) ;;;
     s6 <-- (if has_creatable t then w6 else Ok []) ;;;
     s7 <-- (if has_building t then w7 else Ok []) ;;;
     k (s1, s2, s3, s4, s5, s6, s7)).
Proof.
  change UnitType_AoeTrees with 90. change UnitType_Flag with 20. change UnitType_DeadFish with 30.
  change UnitType_Bird with 40. change UnitType_Combatant with 50. change UnitType_Projectile with 60.
  change UnitType_Creatable with 70. change UnitType_Building with 80.
  destruct (t =? 90) eqn:E1.
  { apply Z.eqb_eq in E1. subst. reflexivity. }
  destruct (20 <=? t) eqn:E2.
  - destruct (sections_high t E1 E2) as (-> & -> & -> & -> & -> & -> & ->). cbn [negb].
    destruct w1; [|reflexivity]. cbn [rbind].
    destruct (30 <=? t); [destruct w2; [|reflexivity]|]; cbn [rbind];
    (destruct (40 <=? t); [destruct w3; [|reflexivity]|]; cbn [rbind]);
    (destruct (50 <=? t); [destruct w4; [|reflexivity]|]; cbn [rbind]);
    (destruct (t =? 60); [destruct w5; [|reflexivity]|]; cbn [rbind]);
    (destruct (70 <=? t); [destruct w6; [|reflexivity]|]; cbn [rbind]);
    (destruct (t =? 80); [destruct w7; [|reflexivity]|]; reflexivity).
  - destruct (sections_low t E2) as (-> & -> & -> & -> & -> & -> & ->). reflexivity.
Qed.

Lemma bind_ext {A B} (m : rd A) (k1 k2 : A -> rd B) h : (forall a h', k1 a h' = k2 a h') -> bind m k1 h = bind m k2 h.
Proof. intros H. unfold bind. destruct (m h) as [[a h']|]; [apply H|reflexivity]. Qed.
Lemma bind_assoc {A B C} (m : rd A) (k1 : A -> rd B) (k2 : B -> rd C) h :
  bind (bind m k1) k2 h = bind m (fun a => bind (k1 a) k2) h.
Proof. unfold bind. destruct (m h) as [[a h']|]; reflexivity. Qed.
Lemma bind_ret {A B} (a : A) (k : A -> rd B) h : bind (ret a) k h = k a h.
Proof. reflexivity. Qed.
Lemma sections_read {B} t (m1 : rd f64) (m2 : rd DeadFish) (m3 : rd Bird) (m4 : rd Type50) (m5 : rd Projectile)
    (m6 : rd Creatable) (m7 : rd Building)
    (k : option f64 * option DeadFish * option Bird * option Type50 * option Projectile * option Creatable * option Building -> rd B) h :
  bind
      (if negb (t =? UnitType_AoeTrees) then
        '(speed, dead_fish, bird, type_50, projectile, creatable, building) <-
          (if UnitType_Flag <=? t then
            speed <- m1 ;;
            dead_fish <- (if UnitType_DeadFish <=? t then x <- m2 ;; ret (Some x) else ret None) ;;
            bird <- (if UnitType_Bird <=? t then x <- m3 ;; ret (Some x) else ret None) ;;
            type_50 <- (if UnitType_Combatant <=? t then x <- m4 ;; ret (Some x) else ret None) ;;
            projectile <- (if t =? UnitType_Projectile then x <- m5 ;; ret (Some x) else ret None) ;;
            creatable <- (if UnitType_Creatable <=? t then x <- m6 ;; ret (Some x) else ret None) ;;
            building <- (if t =? UnitType_Building then x <- m7 ;; ret (Some x) else ret None) ;;
            ret (Some speed, dead_fish, bird, type_50, projectile, creatable, building)
           else ret (None, None, None, None, None, None, None)) ;;
        ret (speed, dead_fish, bird, type_50, projectile, creatable, building)
       else ret (None, None, None, None, None, None, None)) k h
  = (s1 <- opt_read (has_speed t) m1 ;;
     s2 <- opt_read (has_dead_fish t) m2 ;;
     s3 <- opt_read (has_bird t) m3 ;;
     s4 <- opt_read (has_type_50 t) m4 ;;
     s5 <- opt_read (has_projectile t) m5 ;;
     s6 <- opt_read (has_creatable t) m6 ;;
     s7 <- opt_read (has_building t) m7 ;;
     k (s1, s2, s3, s4, s5, s6, s7)) h.
Proof.
  change UnitType_AoeTrees with 90. change UnitType_Flag with 20. change UnitType_DeadFish with 30.
  change UnitType_Bird with 40. change UnitType_Combatant with 50. change UnitType_Projectile with 60.
  change UnitType_Creatable with 70. change UnitType_Building with 80.
  destruct (t =? 90) eqn:E1.
  { apply Z.eqb_eq in E1. subst. reflexivity. }
  destruct (20 <=? t) eqn:E2.
  - destruct (sections_high t E1 E2) as (-> & -> & -> & -> & -> & -> & ->). cbn [negb].
    unfold opt_read. rewrite !bind_assoc. apply bind_ext. intros a1 h1.
    do 5 (rewrite ?bind_ret, !bind_assoc; apply bind_ext; intros ? ?).
    rewrite !bind_assoc. apply bind_ext. intros ? ?. reflexivity.
  - destruct (sections_low t E2) as (-> & -> & -> & -> & -> & -> & ->). reflexivity.
Qed.

Lemma encode_None_l a b : encode a = None -> encode (a ++ b) = None.
Proof. intros H. rewrite encode_app, H. reflexivity. Qed.
Lemma encode_None_r a b : encode b = None -> encode (a ++ b) = None.
Proof. intros H. rewrite encode_app, H. destruct (encode a); reflexivity. Qed.
Lemma Lay_sections w1 w2 w3 w4 w5 w6 w7 c1 c2 c3 c4 c5 c6 c7 head mid hc mc :
  Lay head hc -> Lay (join mid) mc ->
  Lay w1 c1 -> Lay w2 c2 -> Lay w3 c3 -> Lay w4 c4 -> Lay w5 c5 -> Lay w6 c6 -> Lay w7 c7 ->
  Lay (s1 <-- w1 ;;; s2 <-- w2 ;;; s3 <-- w3 ;;; s4 <-- w4 ;;; s5 <-- w5 ;;; s6 <-- w6 ;;; s7 <-- w7 ;;;
       head +++ join (mid ++ [Ok s1; Ok s2; Ok s3; Ok s4; Ok s5; Ok s6; Ok s7]))
      (hc ++ mc ++ c1 ++ c2 ++ c3 ++ c4 ++ c5 ++ c6 ++ c7).
Proof.
  intros Hh Hm H1 H2 H3 H4 H5 H6 H7.
  destruct w1 as [b1|]; [|apply Lay_Err; do 2 apply encode_None_r; apply encode_None_l; symmetry; exact H1].
  destruct w2 as [b2|]; [|apply Lay_Err; do 3 apply encode_None_r; apply encode_None_l; symmetry; exact H2].
  destruct w3 as [b3|]; [|apply Lay_Err; do 4 apply encode_None_r; apply encode_None_l; symmetry; exact H3].
  destruct w4 as [b4|]; [|apply Lay_Err; do 5 apply encode_None_r; apply encode_None_l; symmetry; exact H4].
  destruct w5 as [b5|]; [|apply Lay_Err; do 6 apply encode_None_r; apply encode_None_l; symmetry; exact H5].
  destruct w6 as [b6|]; [|apply Lay_Err; do 7 apply encode_None_r; apply encode_None_l; symmetry; exact H6].
  destruct w7 as [b7|]; [|apply Lay_Err; do 8 apply encode_None_r; symmetry; exact H7].
  cbn [rbind]. apply Lay_wapp; [exact Hh|].
  assert (Hj : forall a b, ok_of (join (a ++ b)) = oapp (ok_of (join a)) (ok_of (join b))).
  { induction a as [|w a IH]; intros b; [exact (eq_sym (oapp_nil_l (ok_of (join b))))|].
    cbn [app]. rewrite !join_cons, !ok_of_wapp, IH, oapp_assoc. reflexivity. }
  unfold Lay. rewrite Hj, encode_app, Hm. f_equal.
  change (Lay (join [Ok b1; Ok b2; Ok b3; Ok b4; Ok b5; Ok b6; Ok b7]) (c1 ++ c2 ++ c3 ++ c4 ++ c5 ++ c6 ++ c7)).
  do 6 (apply Lay_join_app; [assumption|]). rewrite <- (app_nil_r c7). apply Lay_join_app; [assumption|apply Lay_join_nil].
Qed.

Lemma two_elements {A} (l : list A) : count l = 2 -> exists a b, l = [a; b].
Proof. destruct l as [|a [|b [|c l]]]; try discriminate; [eauto|]. intros H. exfalso. unfold count in *. cbn [length] in *. lia. Qed.

Definition Unit_head (v : Version) (x : Unit) : list cell :=
  [I8 (Unit_type x); I16 (Unit_id x); I32 (Unit_language_dll_name x);
      I32 (Unit_language_dll_creation x); I16 (Unit_class_ x)].
Definition Unit_rest (v : Version) (x : Unit) : list cell :=
  [I16 (Unit_dying_graphic x); I16 (Unit_undead_graphic x); I8 (Unit_undead_mode x);
      I16 (Unit_hit_points x); F32s (Unit_line_of_sight x); I8 (Unit_garrison_capacity x);
      F32s (Unit_collision_size_x x); F32s (Unit_collision_size_y x); F32s (Unit_collision_size_z x);
      I16 (Unit_train_sound x); I16 (Unit_damage_sound x); I16 (Unit_dead_unit_id x);
      I16 (Unit_blood_unit_id x); I8 (Unit_sort_number x); I8 (Unit_can_be_built_on x);
      I16 (Unit_icon_id x); I8 (Unit_hide_in_editor x); I16 (Unit_old_portrait_pict x);
      I8 (Unit_enabled x); I8 (Unit_disabled x)]
  ++ exactly 2 (Unit_placement_side_terrain x) (map I16 (Unit_placement_side_terrain x))
  ++ exactly 2 (Unit_placement_terrain x) (map I16 (Unit_placement_terrain x))
  ++ exactly 2 (Unit_clearance_size x) (map F32s (Unit_clearance_size x))
  ++ [I8 (Unit_hill_mode x); I8 (Unit_fog_visibility x); I16 (Unit_terrain_restriction x);
      I8 (Unit_fly_mode x); I16 (Unit_resource_capacity x); F32s (Unit_resource_decay x);
      I8 (Unit_blast_defense_level x); I8 (Unit_combat_level x); I8 (Unit_interaction_mode x);
      I8 (Unit_minimap_mode x); I8 (Unit_interface_kind x); F32s (Unit_multiple_attribute_mode x);
      I8 (Unit_minimap_color x); I32 (Unit_language_dll_help x);
      I32 (Unit_language_dll_hotkey_text x)]
  ++ (if since 88 v then [] else [I32 (Unit_hot_key x)])
  ++ [I8 (Unit_recyclable x);
      I8 (Unit_enable_auto_gather x); I8 (Unit_create_doppelganger_on_death x);
      I8 (Unit_resource_gather_group x); I8 (Unit_occlusion_mode x); I8 (Unit_obstruction_type x);
      I8 (Unit_obstruction_class x); I8 (Unit_trait x); I8 (Unit_civilization x);
      I16 (Unit_nothing x); I8 (Unit_selection_effect x); I8 (Unit_editor_selection_colour x);
      F32s (Unit_outline_size_x x); F32s (Unit_outline_size_y x); F32s (Unit_outline_size_z x);
      I32 (Unit_scenario_triggers_1 x); I32 (Unit_scenario_triggers_2 x)].
Definition Unit_mid (v : Version) (x : Unit) : list cell :=
  flat_map (ResourceStorage_layout v) (Unit_resource_storages x)
  ++ [U8 (count (Unit_damage_graphics x))]
  ++ flat_map (DamageGraphic_layout v) (Unit_damage_graphics x)
  ++ [I16 (Unit_selection_sound x); I16 (Unit_dying_sound x); I32 (Unit_wwise_train_sound_id x);
      I32 (Unit_wwise_damage_sound_id x); I32 (Unit_wwise_selection_sound_id x);
      I32 (Unit_wwise_dying_sound_id x); U8 (Unit_old_attack_reaction x);
      U8 (Unit_convert_terrain x); Text (Unit_name x); I16 (Unit_copy_id x); I16 (Unit_base_id x)].
Lemma Unit_layout_eq v x : Unit_layout v x =
  (Unit_head v x ++ exactly 2 (Unit_standing_graphic x) (map I16 (Unit_standing_graphic x)) ++ Unit_rest v x)
  ++ Unit_mid v x ++ Unit_sections_layout v x.
Proof. unfold Unit_layout, Unit_head, Unit_rest, Unit_mid. rewrite <- !app_assoc. reflexivity. Qed.

Lemma Unit_lay v x : Unit_arity x -> Lay (Unit_to_bytes x v) (Unit_layout v x).
Proof.
  intros (H1 & H2 & H3). rewrite Unit_layout_eq. unfold Unit_to_bytes, Unit_sections_layout. rewrite ge_88.
  destruct (two_elements _ H1) as (a1 & a2 & E1). destruct (two_elements _ H2) as (b1 & b2 & E2).
  destruct (two_elements _ H3) as (d1 & d2 & E3).
  destruct (since 88 v) eqn:V.
  - unfold Unit_to_bytes_88. cbn [rbind]. rewrite sections_write.
    apply (Lay_sections _ _ _ _ _ _ _ _ _ _ _ _ _ _ _
     [ write_class_array ResourceStorage_to_bytes (map Some (Unit_resource_storages x)) v;
    write_int_8 (len (Unit_damage_graphics x));
    write_class_array DamageGraphic_to_bytes (map Some (Unit_damage_graphics x)) v;
    write_int_16 (Unit_selection_sound x) true true;
    write_int_16 (Unit_dying_sound x) true true;
    write_int_32 (Unit_wwise_train_sound_id x) true;
    write_int_32 (Unit_wwise_damage_sound_id x) true;
    write_int_32 (Unit_wwise_selection_sound_id x) true;
    write_int_32 (Unit_wwise_dying_sound_id x) true;
    write_int_8 (Unit_old_attack_reaction x);
    write_int_8 (Unit_convert_terrain x);
    write_debug_string (Unit_name x);
    write_int_16 (Unit_copy_id x) true true;
    write_int_16 (Unit_base_id x) true true ]).
    + unfold Unit_rest. rewrite V, E1, E2, E3.
      eapply (Lay_struct_exact' _ _ (Unit_head v x) VInt I16 Fh 2 (Unit_standing_graphic x));
      [ reflexivity | vm_compute; reflexivity | reflexivity | reflexivity | reflexivity | vm_compute; reflexivity ].
    + unfold Unit_mid. lay_solve.
    + apply Lay_opt_write. intros; apply Lay_f32.
    + apply Lay_opt_write. intros; eapply Lay_one; side_arity.
    + apply Lay_opt_write. intros; eapply Lay_one; side_arity.
    + apply Lay_opt_write. intros; eapply Lay_one; side_arity.
    + apply Lay_opt_write. intros; eapply Lay_one; side_arity.
    + apply Lay_opt_write. intros; eapply Lay_one; side_arity.
    + apply Lay_opt_write. intros; eapply Lay_one; side_arity.
  - unfold Unit_to_bytes_84. cbn [rbind]. rewrite sections_write.
    apply (Lay_sections _ _ _ _ _ _ _ _ _ _ _ _ _ _ _
     [ write_class_array ResourceStorage_to_bytes (map Some (Unit_resource_storages x)) v;
    write_int_8 (len (Unit_damage_graphics x));
    write_class_array DamageGraphic_to_bytes (map Some (Unit_damage_graphics x)) v;
    write_int_16 (Unit_selection_sound x) true true;
    write_int_16 (Unit_dying_sound x) true true;
    write_int_32 (Unit_wwise_train_sound_id x) true;
    write_int_32 (Unit_wwise_damage_sound_id x) true;
    write_int_32 (Unit_wwise_selection_sound_id x) true;
    write_int_32 (Unit_wwise_dying_sound_id x) true;
    write_int_8 (Unit_old_attack_reaction x);
    write_int_8 (Unit_convert_terrain x);
    write_debug_string (Unit_name x);
    write_int_16 (Unit_copy_id x) true true;
    write_int_16 (Unit_base_id x) true true ]).
    + unfold Unit_rest. rewrite V, E1, E2, E3.
      eapply (Lay_struct_exact' _ _ (Unit_head v x) VInt I16 Fh 2 (Unit_standing_graphic x));
      [ reflexivity | vm_compute; reflexivity | reflexivity | reflexivity | reflexivity | vm_compute; reflexivity ].
    + unfold Unit_mid. lay_solve.
    + apply Lay_opt_write. intros; apply Lay_f32.
    + apply Lay_opt_write. intros; eapply Lay_one; side_arity.
    + apply Lay_opt_write. intros; eapply Lay_one; side_arity.
    + apply Lay_opt_write. intros; eapply Lay_one; side_arity.
    + apply Lay_opt_write. intros; eapply Lay_one; side_arity.
    + apply Lay_opt_write. intros; eapply Lay_one; side_arity.
    + apply Lay_opt_write. intros; eapply Lay_one; side_arity.
Qed.

(** Before 8.8 a creatable is read with hot key 16000, which is then replaced. *)
Definition with_hot_keys (h : Z) (c : Creatable) : Creatable :=
  set_Creatable_train_locations (map (set_TrainLocation_hot_key_id h) (Creatable_train_locations c)) c.
Lemma with_hot_keys_layout v h c : since 88 v = false -> Creatable_layout v (with_hot_keys h c) = Creatable_layout v c.
Proof.
  intros V. rewrite !Creatable_layout_eq, V. destruct c; cbn.
  destruct Creatable_train_locations as [|t r]; cbn; [reflexivity|].
  unfold TrainLocation_layout. rewrite V. reflexivity.
Qed.
Lemma with_hot_keys_shape v c : since 88 v = false -> Creatable_core_shape v c -> Creatable_shape v (with_hot_keys 16000 c).
Proof.
  intros V H. split.
  - unfold Creatable_core_shape in *. destruct c; cbn in *. unfold count in *. rewrite map_length. exact H.
  - destruct c; cbn. apply Forall_forall. intros t Ht. apply in_map_iff in Ht. destruct Ht as (t' & <- & _).
    intros _. reflexivity.
Qed.
Lemma one_element {A} (l : list A) : count l = 1 -> exists a, l = [a].
Proof. destruct l as [|a [|b l]]; try discriminate; [eauto|]. intros H. exfalso. unfold count in *. cbn [length] in *. lia. Qed.

Lemma Unit_parses v x : Unit_shape v x -> Parses v (Unit_layout v x) Unit_from_bytes x.
Proof.
  intros (Hs & (H1 & H2 & H3) & Hr & Hsec & Hk & Hb & H5 & Hc & Hbu).
  destruct (two_elements _ H1) as (a1 & a2 & E1). destruct (two_elements _ H2) as (b1 & b2 & E2).
  destruct (two_elements _ H3) as (d1 & d2 & E3). destruct (two_elements _ Hs) as (e1 & e2 & E4).
  unfold Unit_hot_key_shape in Hk.
  destruct x; unfold Unit_sections_shape, train_hot_key in *; cbn in *. subst. split_ands.
  unfold Unit_from_bytes, Unit_layout, Unit_sections_layout; cbn.
  parses_step. rewrite ge_88. destruct (since 88 v) eqn:V; cbn [app].
  - unfold Unit_from_bytes_88. apply Parses_nil_r; norm_cells. parses_struct. repeat parses_step.
    eapply Parses_ext; [intros h; symmetry; apply sections_read|]. cbv beta iota.
    eapply Parses_bind; [apply Parses_opt_read; [assumption|destruct Unit_speed; [apply Parses_f32|exact I]]|].
    eapply Parses_bind; [apply Parses_opt_read; [assumption|destruct Unit_dead_fish; [eapply Parses_one; side_shape|exact I]]|].
    eapply Parses_bind; [apply Parses_opt_read; [assumption|destruct Unit_bird; [eapply Parses_one; side_shape|exact I]]|].
    eapply Parses_bind; [apply Parses_opt_read; [assumption|destruct Unit_type_50; [eapply Parses_one; side_shape|exact I]]|].
    eapply Parses_bind; [apply Parses_opt_read; [assumption|destruct Unit_projectile; [eapply Parses_one; side_shape|exact I]]|].
    eapply Parses_bind; [apply Parses_opt_read; [assumption|destruct Unit_creatable; [eapply Parses_one|exact I]]|].
    { split; [assumption|]. apply Forall_forall. intros t _ Hv. congruence. }
    eapply Parses_bind; [apply Parses_opt_read; [assumption|destruct Unit_building; [eapply Parses_one; side_shape|exact I]]|].
    eapply Parses_lift_bind; [|apply Parses_ret].
    rewrite Hk. destruct Unit_creatable as [c|]; [|reflexivity]. destruct (Creatable_train_locations c); reflexivity.
  - unfold Unit_from_bytes_84. apply Parses_nil_r; norm_cells. parses_struct. repeat parses_step.
    eapply Parses_ext; [intros h; symmetry; apply sections_read|]. cbv beta iota.
    eapply Parses_bind; [apply Parses_opt_read; [assumption|destruct Unit_speed; [apply Parses_f32|exact I]]|].
    eapply Parses_bind; [apply Parses_opt_read; [assumption|destruct Unit_dead_fish; [eapply Parses_one; side_shape|exact I]]|].
    eapply Parses_bind; [apply Parses_opt_read; [assumption|destruct Unit_bird; [eapply Parses_one; side_shape|exact I]]|].
    eapply Parses_bind; [apply Parses_opt_read; [assumption|destruct Unit_type_50; [eapply Parses_one; side_shape|exact I]]|].
    eapply Parses_bind; [apply Parses_opt_read; [assumption|destruct Unit_projectile; [eapply Parses_one; side_shape|exact I]]|].
    replace (stored (has_creatable Unit_type) (Creatable_layout v) Unit_creatable)
      with (stored (has_creatable Unit_type) (Creatable_layout v) (option_map (with_hot_keys 16000) Unit_creatable)).
    2:{ unfold stored. destruct (has_creatable Unit_type); [|reflexivity]. destruct Unit_creatable as [c|]; [|reflexivity].
        apply with_hot_keys_layout, V. }
    eapply Parses_bind; [apply Parses_opt_read; [destruct Unit_creatable; assumption|destruct Unit_creatable; [eapply Parses_one|exact I]]|].
    { apply with_hot_keys_shape; assumption. }
    eapply Parses_bind; [apply Parses_opt_read; [assumption|destruct Unit_building; [eapply Parses_one; side_shape|exact I]]|].
    eapply Parses_lift_bind; [|apply Parses_ret].
    destruct Unit_creatable as [c|]; [|reflexivity]. specialize (Hk ltac:(discriminate)).
    destruct Hc as (_ & _ & Hl & _). destruct (one_element _ (Hl V)) as [t Et]. rewrite Et in *. subst.
    destruct c; cbn in *. subst. destruct t; reflexivity.
Qed.
