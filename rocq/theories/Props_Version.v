(** * C17, C20, C21, C22: what depends on the file version and the unit type. *)
From Verif Require Import Base PyInt PyFloat PyStr PyStruct DataTypes Versions Common Wire Layout Shape Spec Update Convert Stored.
From Verif Require Import M_Graphic M_Task M_UnitHeaders M_Unit M_Civ M_Tech M_DatFile.
From Verif Require Import Codec P_Simple P_More P_Unit P_UnitR P_Civ P_DatFile Theory ConvertP StoredP Sample.
From Coq Require Import ZifyBool.
Open Scope Z_scope.
Local Open Scope list_scope.
Local Notation length := List.length.

(** ** C17: fields that a version does not store *)

(** Loading. *)
Theorem C17_load_task : forall h x h', Task_from_bytes h = Ok (x, h') ->
  since 88 (h_version h) = false -> Task_enabled x = -1.
Proof. intros h x h' E V. exact (proj2 (codec_wf h x h' E) V). Qed.
Theorem C17_load_type_50 : forall h x h', Type50_from_bytes h = Ok (x, h') ->
  since 84 (h_version h) = false ->
  Type50_damage_reflection x = f64_zero /\ Type50_friendly_fire_damage x = f64_one /\
  Type50_interrupt_frame x = -1 /\ Type50_garrison_firepower x = f64_zero /\ Type50_attack_graphic_2 x = -1.
Proof. intros h x h' E V. exact (proj2 (proj2 (codec_wf h x h' E)) V). Qed.
Theorem C17_load_train_location : forall h x h', TrainLocation_from_bytes h = Ok (x, h') ->
  since 88 (h_version h) = false -> TrainLocation_hot_key_id x = 16000.
Proof. intros h x h' E V. exact (proj2 (codec_wf h x h' E) V). Qed.
Definition creatable_defaults (x : Creatable) : Prop :=
  Creatable_idle_attack_graphic x = -1 /\ Creatable_charge_target x = 0 /\
  Creatable_charge_projectile_unit x = -1 /\ Creatable_attack_priority x = 0 /\
  Creatable_invulnerability_level x = f64_zero /\ Creatable_button_icon_id x = -1 /\
  Creatable_button_short_tooltip_id x = -1 /\ Creatable_button_extended_tooltip_id x = -1 /\
  Creatable_button_hotkey_action x = -1.
Theorem C17_load_creatable : forall h x h', Creatable_from_bytes h = Ok (x, h') ->
  (since 84 (h_version h) = false -> creatable_defaults x) /\
  (since 88 (h_version h) = false -> exists t, Creatable_train_locations x = [t] /\ TrainLocation_hot_key_id t = 16000).
Proof.
  intros h x h' E. destruct (codec_wf h x h' E) as (_ & (_ & _ & H3 & H4) & H5). split; [exact H4|].
  intros V. specialize (H3 V). destruct (Creatable_train_locations x) as [|t [|t' l]]; [discriminate| |exfalso; unfold count in H3; cbn [length] in H3; lia].
  exists t. split; [reflexivity|]. inversion H5 as [|? ? H _]. exact (H V).
Qed.
(** In a whole file. *)
Lemma file_shape bs x : from_bytes bs = Ok x -> exists v, file_version (DatFile_version x) = Some v /\ DatFile_body_shape v x.
Proof.
  intros F. destruct (from_bytes_wf bs x F) as [_ S]. unfold DatFile_shape in S. destruct (file_version (DatFile_version x)) as [v|]; [|destruct S]. eauto.
Qed.
Lemma in_units x u : In u (units_of x) <-> exists c, In c (DatFile_civs x) /\ In (Some u) (Civ_units c).
Proof.
  unfold units_of. rewrite in_flat_map. split.
  - intros (c & Hc & Hu). apply in_flat_map in Hu. destruct Hu as ([w|] & Hw & Hin); [|destruct Hin]. destruct Hin as [<-|[]]. eauto.
  - intros (c & Hc & Hu). exists c. split; [exact Hc|]. apply in_flat_map. exists (Some u). split; [exact Hu|left; reflexivity].
Qed.
Lemma unit_shape bs x v u : from_bytes bs = Ok x -> file_version (DatFile_version x) = Some v -> In u (units_of x) -> Unit_shape v u.
Proof.
  intros F V Hu. apply in_units in Hu. destruct Hu as (c & Hc & Hu). destruct (file_shape bs x F) as (w & V' & S). rewrite V in V'. injection V' as <-.
  destruct S as (_ & _ & _ & _ & _ & S & _). rewrite Forall_forall in S. specialize (S c Hc). unfold Civ_shape in S. rewrite Forall_forall in S. exact (S _ Hu).
Qed.
Theorem C17_load_file : forall bs x v, from_bytes bs = Ok x -> file_version (DatFile_version x) = Some v ->
  (since 88 v = false -> Forall (fun t => Task_enabled t = -1) (tasks_of x)) /\
  (since 84 v = false -> Forall (fun t => Type50_damage_reflection t = f64_zero /\ Type50_friendly_fire_damage t = f64_one /\
     Type50_interrupt_frame t = -1 /\ Type50_garrison_firepower t = f64_zero /\ Type50_attack_graphic_2 t = -1) (type_50s_of x)) /\
  (since 84 v = false -> Forall creatable_defaults (creatables_of x)).
Proof.
  intros bs x v F V. pose proof (fun u => unit_shape bs x v u F V) as U. split; [|split]; intros N; apply Forall_forall.
  - intros t Ht. unfold tasks_of in Ht. apply in_app_or in Ht. destruct Ht as [Ht|Ht].
    + apply in_flat_map in Ht. destruct Ht as (h & Hh & Ht). destruct (file_shape bs x F) as (w & V' & S). rewrite V in V'. injection V' as <-.
      destruct S as (_ & _ & _ & _ & S & _). rewrite Forall_forall in S. specialize (S h Hh). unfold UnitHeaders_shape in S.
      destruct (UnitHeaders_task_list h); [|destruct Ht]. destruct S as [_ S]. rewrite Forall_forall in S. exact (S t Ht N).
    + apply in_flat_map in Ht. destruct Ht as (b & Hb & Ht). apply in_flat_map in Hb. destruct Hb as (u & Hu & Hb).
      destruct (U u Hu) as (_ & _ & _ & _ & _ & S & _). destruct (Unit_bird u); [|destruct Hb]. destruct Hb as [->|[]]. destruct S as [_ S].
      rewrite Forall_forall in S. exact (S t Ht N).
  - intros t Ht. apply in_flat_map in Ht. destruct Ht as (u & Hu & Ht). destruct (U u Hu) as (_ & _ & _ & _ & _ & _ & S & _).
    destruct (Unit_type_50 u); [|destruct Ht]. destruct Ht as [->|[]]. exact (proj2 S N).
  - intros t Ht. apply in_flat_map in Ht. destruct Ht as (u & Hu & Ht). destruct (U u Hu) as (_ & _ & _ & _ & _ & _ & _ & S & _).
    destruct (Unit_creatable u); [|destruct Ht]. destruct Ht as [->|[]]. exact (proj2 (proj2 (proj2 S)) N).
Qed.

(** Saving: only the stored part of an object matters, also for which exception is raised. *)
Theorem C17_save_stored_part : forall x v, file_version (DatFile_version x) = Some v ->
  to_bytes (DatFile_stored v x) = to_bytes x.
Proof. intros x v V. exact (DatFile_stored_same v x UNDEFINED V). Qed.
Theorem C17_save_same_stored_part : forall x y v, file_version (DatFile_version x) = Some v ->
  file_version (DatFile_version y) = Some v -> DatFile_stored v x = DatFile_stored v y -> to_bytes x = to_bytes y.
Proof. intros x y v Vx Vy E. rewrite <- (C17_save_stored_part x v Vx), <- (C17_save_stored_part y v Vy), E. reflexivity. Qed.
Theorem C17_save_task : forall v x z, since 88 v = false -> Task_to_bytes (with_Task_enabled z x) v = Task_to_bytes x v.
Proof. intros v x z V. unfold Task_to_bytes. rewrite ge_88, V. destruct x; reflexivity. Qed.
Theorem C17_save_type_50 : forall v x a b c d e, since 84 v = false ->
  Type50_to_bytes (with_Type50_damage_reflection a (with_Type50_friendly_fire_damage b (with_Type50_interrupt_frame c
    (with_Type50_garrison_firepower d (with_Type50_attack_graphic_2 e x))))) v = Type50_to_bytes x v.
Proof. intros v x a b c d e V. unfold Type50_to_bytes. rewrite ge_84, V. destruct x; reflexivity. Qed.
Theorem C17_save_creatable : forall v x a b c d e f g h i, since 84 v = false ->
  Creatable_to_bytes (with_Creatable_idle_attack_graphic a (with_Creatable_charge_target b (with_Creatable_charge_projectile_unit c
    (with_Creatable_attack_priority d (with_Creatable_invulnerability_level e (with_Creatable_button_icon_id f
    (with_Creatable_button_short_tooltip_id g (with_Creatable_button_extended_tooltip_id h (with_Creatable_button_hotkey_action i x))))))))) v
  = Creatable_to_bytes x v.
Proof.
  intros v x a b c d e f g h i V. unfold Creatable_to_bytes. rewrite ge_88, ge_84, V.
  replace (since 88 v) with false by (destruct (since 88 v) eqn:W; [apply since_88_84 in W; congruence|reflexivity]). destruct x; reflexivity.
Qed.
Theorem C17_save_train_location : forall v x z, since 88 v = false ->
  TrainLocation_to_bytes (with_TrainLocation_hot_key_id z x) v = TrainLocation_to_bytes x v.
Proof. intros v x z V. unfold TrainLocation_to_bytes. rewrite ge_88, V. destruct x; reflexivity. Qed.
Theorem C17_save_unit_hot_key : forall v x z, since 88 v = true -> Unit_to_bytes (with_Unit_hot_key z x) v = Unit_to_bytes x v.
Proof. intros v x z V. rewrite <- (Unit_stored_same v x), <- (Unit_stored_same v (with_Unit_hot_key z x)). unfold Unit_stored. rewrite V. destruct x; reflexivity. Qed.
Example C17_case : exists x bs, DatFile_version x = version_value VER_78 /\ to_bytes x = Ok bs /\ from_bytes bs = Ok x /\
  length (tasks_of x) = 14%nat /\ length (type_50s_of x) = 6%nat /\ length (creatables_of x) = 4%nat.
Proof.
  exists (sample VER_78). destruct (dat_round_trip_bytes (sample VER_78)) as (bs & E & F & _); [apply sample_wf; discriminate|].
  exists bs. split; [reflexivity|]. split; [exact E|]. split; [exact F|]. vm_compute. auto.
Qed.

(** ** C20: hot keys *)
Definition hot_key_coherent (v : Version) (u : Unit) : Prop :=
  if since 88 v then
    Unit_hot_key u = match Unit_creatable u with
                     | Some c => match Creatable_train_locations c with t :: _ => TrainLocation_hot_key_id t | [] => 16000 end
                     | None => 16000
                     end
  else forall c, Unit_creatable u = Some c -> exists t, Creatable_train_locations c = [t] /\ TrainLocation_hot_key_id t = Unit_hot_key u.
Lemma shape_hot_key v u : Unit_shape v u -> hot_key_coherent v u.
Proof.
  intros (_ & _ & _ & _ & H & _ & _ & S & _). unfold hot_key_coherent, Unit_hot_key_shape, train_hot_key in *. destruct (since 88 v) eqn:V; [exact H|].
  intros c Ec. rewrite Ec in *. specialize (H ltac:(discriminate)). destruct S as (_ & _ & S & _). specialize (S V).
  destruct (Creatable_train_locations c) as [|t [|t' l]]; [discriminate| |exfalso; unfold count in S; cbn [length] in S; lia]. eauto.
Qed.
Theorem C20_unit : forall h u h', Unit_from_bytes h = Ok (u, h') -> hot_key_coherent (h_version h) u.
Proof. intros h u h' E. exact (shape_hot_key _ _ (proj2 (codec_wf h u h' E))). Qed.
Theorem C20_file : forall bs x v, from_bytes bs = Ok x -> file_version (DatFile_version x) = Some v ->
  Forall (hot_key_coherent v) (units_of x).
Proof. intros bs x v F V. apply Forall_forall. intros u Hu. exact (shape_hot_key _ _ (unit_shape bs x v u F V Hu)). Qed.
Example C20_case : (length (units_of (sample VER_84)) = 10)%nat /\ (length (units_of (sample VER_88)) = 10)%nat.
Proof. vm_compute. auto. Qed.

(** ** C21: sections of a unit *)
Definition has {A} (o : option A) : Prop := o <> None.
Definition sections_match_type (u : Unit) : Prop :=
  let t := Unit_type u in
  (has (Unit_speed u) <-> 20 <= t /\ t <> 90) /\
  (has (Unit_dead_fish u) <-> 30 <= t /\ t <> 90) /\
  (has (Unit_bird u) <-> 40 <= t /\ t <> 90) /\
  (has (Unit_type_50 u) <-> 50 <= t /\ t <> 90) /\
  (has (Unit_projectile u) <-> t = 60) /\
  (has (Unit_creatable u) <-> 70 <= t /\ t <> 90) /\
  (has (Unit_building u) <-> t = 80).
Lemma has_present {A} (o : option A) b P : present o = b -> (b = true <-> P) -> (has o <-> P).
Proof. intros <- H. rewrite <- H. unfold has. destruct o; cbn; split; congruence. Qed.
Lemma called_from t n : negb (t =? 90) && (n <=? t) = true <-> n <= t /\ t <> 90.
Proof. lia. Qed.
Lemma called_at t n : (t =? n) = true <-> t = n.
Proof. lia. Qed.
Lemma shape_sections v u : Unit_shape v u -> sections_match_type u.
Proof.
  intros (_ & _ & _ & (H1 & H2 & H3 & H4 & H5 & H6 & H7) & _). unfold sections_match_type. cbv zeta.
  split; [apply (has_present _ _ _ H1); apply called_from|].
  split; [apply (has_present _ _ _ H2); apply called_from|].
  split; [apply (has_present _ _ _ H3); apply called_from|].
  split; [apply (has_present _ _ _ H4); apply called_from|].
  split; [apply (has_present _ _ _ H5); apply called_at|].
  split; [apply (has_present _ _ _ H6); apply called_from|].
  apply (has_present _ _ _ H7); apply called_at.
Qed.
Theorem C21_unit : forall h u h', Unit_from_bytes h = Ok (u, h') -> sections_match_type u.
Proof. intros h u h' E. exact (shape_sections _ _ (proj2 (codec_wf h u h' E))). Qed.
Theorem C21_file : forall bs x, from_bytes bs = Ok x -> Forall sections_match_type (units_of x).
Proof.
  intros bs x F. destruct (file_shape bs x F) as (v & V & _). apply Forall_forall. intros u Hu. exact (shape_sections _ _ (unit_shape bs x v u F V Hu)).
Qed.
(** Writing ignores the sections the type does not call for. *)
Definition uncalled (t : Z) (low : Z) : Prop := t < low \/ t = 90.
Theorem C21_ignored : forall v u s df b t50 p c bd,
  let t := Unit_type u in
  (uncalled t 20 -> Unit_to_bytes (with_Unit_speed s u) v = Unit_to_bytes u v) /\
  (uncalled t 30 -> Unit_to_bytes (with_Unit_dead_fish df u) v = Unit_to_bytes u v) /\
  (uncalled t 40 -> Unit_to_bytes (with_Unit_bird b u) v = Unit_to_bytes u v) /\
  (uncalled t 50 -> Unit_to_bytes (with_Unit_type_50 t50 u) v = Unit_to_bytes u v) /\
  (t <> 60 -> Unit_to_bytes (with_Unit_projectile p u) v = Unit_to_bytes u v) /\
  (uncalled t 70 -> Unit_to_bytes (with_Unit_creatable c u) v = Unit_to_bytes u v) /\
  (t <> 80 -> Unit_to_bytes (with_Unit_building bd u) v = Unit_to_bytes u v).
Proof.
  intros v u s df b t50 p c bd t. unfold uncalled.
  assert (G : forall w, Unit_stored v w = Unit_stored v u -> Unit_to_bytes w v = Unit_to_bytes u v).
  { intros w E. rewrite <- (Unit_stored_same v w), E. apply Unit_stored_same. }
  repeat match goal with |- _ /\ _ => split end; intros H; apply G.
  - assert (E : has_speed t = false) by (unfold has_speed; lia). unfold Unit_stored. subst t. destruct u; cbn -[has_speed has_dead_fish has_bird has_type_50 has_projectile has_creatable has_building option_map] in *. rewrite E. reflexivity.
  - assert (E : has_dead_fish t = false) by (unfold has_dead_fish; lia). unfold Unit_stored. subst t. destruct u; cbn -[has_speed has_dead_fish has_bird has_type_50 has_projectile has_creatable has_building option_map] in *. rewrite E. reflexivity.
  - assert (E : has_bird t = false) by (unfold has_bird; lia). unfold Unit_stored. subst t. destruct u; cbn -[has_speed has_dead_fish has_bird has_type_50 has_projectile has_creatable has_building option_map] in *. rewrite E. reflexivity.
  - assert (E : has_type_50 t = false) by (unfold has_type_50; lia). unfold Unit_stored. subst t. destruct u; cbn -[has_speed has_dead_fish has_bird has_type_50 has_projectile has_creatable has_building option_map] in *. rewrite E. reflexivity.
  - assert (E : has_projectile t = false) by (unfold has_projectile; lia). unfold Unit_stored. subst t. destruct u; cbn -[has_speed has_dead_fish has_bird has_type_50 has_projectile has_creatable has_building option_map] in *. rewrite E. reflexivity.
  - assert (E : has_creatable t = false) by (unfold has_creatable; lia). unfold Unit_stored. subst t. destruct u; cbn -[has_speed has_dead_fish has_bird has_type_50 has_projectile has_creatable has_building option_map] in *. rewrite E. reflexivity.
  - assert (E : has_building t = false) by (unfold has_building; lia). unfold Unit_stored. subst t. destruct u; cbn -[has_speed has_dead_fish has_bird has_type_50 has_projectile has_creatable has_building option_map] in *. rewrite E. reflexivity.
Qed.
Example C21_case : map Unit_type (units_of (sample VER_84)) = [70; 10; 80; 60; 90; 70; 10; 80; 60; 90].
Proof. reflexivity. Qed.
