(** * Saving as another version: layouts, shapes and cells. *)
From Verif Require Import Base PyInt PyFloat PyStr PyStruct DataTypes Versions Common Wire Layout Shape Update Convert.
From Verif Require Import Codec CodecP CodecF CodecC P_Simple P_More P_Unit P_UnitR P_Civ P_DatFile Spec Theory.
From Verif Require Import M_Sound M_PlayerColour M_Effect M_TerrainRestriction M_Graphic
  M_TerrainBlock M_RandomMaps M_Task M_UnitHeaders M_Unit M_Civ M_Tech M_TechTree M_DatFile.
From Coq Require Import ZifyBool.
Open Scope Z_scope.
Local Open Scope list_scope.
Local Notation length := List.length.

Lemma since_mono a b v : a <= b -> since b v = true -> since a v = true.
Proof. unfold since. lia. Qed.
Lemma flat_map_map {A B C} (f : B -> list C) (g : A -> B) l : flat_map f (map g l) = flat_map (fun x => f (g x)) l.
Proof. induction l as [|a l IH]; cbn [map flat_map]; [reflexivity|]. rewrite IH. reflexivity. Qed.
Lemma flat_map_ext' {A B} (f g : A -> list B) l : (forall x, f x = g x) -> flat_map f l = flat_map g l.
Proof. intros H. induction l as [|a l IH]; cbn [flat_map]; [reflexivity|]. rewrite H, IH. reflexivity. Qed.
Lemma count_map {A B} (f : A -> B) l : count (map f l) = count l.
Proof. unfold count. rewrite map_length. reflexivity. Qed.
Lemma slots_map {A B} (f : B -> list cell) (g : A -> B) l : slots f (map (option_map g) l) = slots (fun x => f (g x)) l.
Proof. unfold slots. rewrite flat_map_map. apply flat_map_ext'. intros [x|]; reflexivity. Qed.
Lemma slots_ext {A} (f g : A -> list cell) l : (forall x, f x = g x) -> slots f l = slots g l.
Proof. intros H. unfold slots. apply flat_map_ext'. intros [x|]; auto. Qed.
Lemma flags_map_opt {A B} (g : A -> B) l : flags (map (option_map g) l) = flags l.
Proof. unfold flags. rewrite map_map. apply map_ext. intros [x|]; reflexivity. Qed.
Lemma stored_map {A B} c (f : B -> list cell) (g : A -> B) o : stored c f (option_map g o) = stored c (fun x => f (g x)) o.
Proof. destruct c, o; reflexivity. Qed.
Lemma stored_ext {A} c (f g : A -> list cell) o : (forall x, f x = g x) -> stored c f o = stored c g o.
Proof. intros H. destruct c, o; cbn; auto. Qed.

(** ** Task *)
Lemma Task_conv_layout v x : Task_layout v (Task_converted v x) = Task_layout v x.
Proof. unfold Task_converted. destruct (since 88 v) eqn:V; [reflexivity|]. destruct x. unfold Task_layout. rewrite V. reflexivity. Qed.
Lemma Task_conv_shape v x : Task_shape v (Task_converted v x).
Proof. unfold Task_shape, Task_converted. intros ->. destruct x; reflexivity. Qed.
Lemma Task_conv_ok u v x : Task_shape u x -> cells_ok (Task_layout u x) -> cells_ok (Task_layout v x).
Proof.
  unfold Task_shape, Task_layout. intros S H. apply cells_ok_app in H. destruct H as [H1 H2]. apply cells_ok_app. split; [exact H1|].
  destruct (since 88 v); [|apply cells_ok_nil]. destruct (since 88 u); [exact H2|]. rewrite S by reflexivity. reflexivity.
Qed.
Lemma Tasks_conv_layout v l : flat_map (Task_layout v) (map (Task_converted v) l) = flat_map (Task_layout v) l.
Proof. rewrite flat_map_map. apply flat_map_ext', Task_conv_layout. Qed.
Lemma Tasks_conv_ok u v l : Forall (Task_shape u) l -> cells_ok (flat_map (Task_layout u) l) -> cells_ok (flat_map (Task_layout v) l).
Proof.
  rewrite !cells_ok_flat_map. intros S H. rewrite Forall_forall in *. intros x Hx. apply (Task_conv_ok u); auto.
Qed.

(** ** UnitHeaders *)
Lemma UnitHeaders_conv_layout v x : UnitHeaders_layout v (UnitHeaders_converted v x) = UnitHeaders_layout v x.
Proof.
  destruct x as [e [l|]]; unfold UnitHeaders_layout; cbn -[Task_layout count]; [|reflexivity].
  rewrite Tasks_conv_layout, count_map. reflexivity.
Qed.
Lemma UnitHeaders_conv_shape u v x : UnitHeaders_shape u x -> UnitHeaders_shape v (UnitHeaders_converted v x).
Proof.
  destruct x as [e [l|]]; unfold UnitHeaders_shape; cbn; [|auto]. intros [H _]. split; [exact H|].
  apply Forall_map, Forall_True. intros t. apply Task_conv_shape.
Qed.
Lemma UnitHeaders_conv_ok u v x : UnitHeaders_shape u x -> cells_ok (UnitHeaders_layout u x) -> cells_ok (UnitHeaders_layout v x).
Proof.
  destruct x as [e [l|]]; unfold UnitHeaders_shape, UnitHeaders_layout; cbn -[Task_layout count cells_ok app]; intros S H.
  - destruct S as [S1 S2]. destruct (Z.eqb_spec e 0); [contradiction|].
    rewrite !cells_ok_app in *. destruct H as (H1 & H2 & H3). split; [exact H1|]. split; [exact H2|]. exact (Tasks_conv_ok u v l S2 H3).
  - destruct (e =? 0); exact H.
Qed.

(** ** Bird *)
Lemma Bird_conv_layout v x : Bird_layout v (Bird_converted v x) = Bird_layout v x.
Proof.
  unfold Bird_converted. destruct x. unfold Bird_layout. cbn -[Task_layout count map].
  rewrite Tasks_conv_layout, count_map. reflexivity.
Qed.
Lemma Bird_conv_shape u v x : (since 78 v = false -> count (Bird_drop_sites x) = 3) -> Bird_shape u x -> Bird_shape v (Bird_converted v x).
Proof.
  intros D [_ H]. unfold Bird_shape, Bird_converted. destruct x; cbn -[count] in *. split; [exact D|].
  apply Forall_map, Forall_True. intros t. apply Task_conv_shape.
Qed.
Lemma Bird_conv_ok u v x : Bird_shape u x -> cells_ok (Bird_layout u x) -> cells_ok (Bird_layout v x).
Proof.
  intros [S1 S2]. unfold Bird_layout. rewrite !cells_ok_app. intros (H1 & H2 & H3 & H4 & H5).
  split; [exact H1|]. split; [|split; [exact H3|split; [exact H4|exact (Tasks_conv_ok u v _ S2 H5)]]].
  destruct (since 78 v); [|apply cells_ok_nil]. destruct (since 78 u); [exact H2|]. rewrite S1 by reflexivity. reflexivity.
Qed.

(** ** Type50 *)
Lemma Type50_conv_layout v x : Type50_layout v (Type50_converted v x) = Type50_layout v x.
Proof. unfold Type50_converted. destruct (since 84 v) eqn:V; [reflexivity|]. destruct x. unfold Type50_layout. rewrite V. reflexivity. Qed.
Lemma Type50_conv_shape u v x : Type50_shape u x -> Type50_shape v (Type50_converted v x).
Proof.
  intros [H1 H2]. unfold Type50_shape, Type50_converted. destruct (since 84 v) eqn:V; [split; [exact H1|discriminate]|].
  destruct x; cbn -[count] in *. split; [exact H1|]. intros _. repeat split.
Qed.
Lemma Type50_conv_ok u v x : Type50_shape u x -> cells_ok (Type50_layout u x) -> cells_ok (Type50_layout v x).
Proof.
  intros [_ S]. unfold Type50_layout. rewrite !cells_ok_app.
  intros (H1 & H2 & H3 & H4 & H5 & H6 & H7 & H8). split; [exact H1|]. split; [exact H2|]. split; [exact H3|]. split; [exact H4|].
  split; [exact H5|]. split; [exact H6|]. split; [exact H7|].
  destruct (since 84 v); [|apply cells_ok_nil]. destruct (since 84 u); [exact H8|].
  destruct (S eq_refl) as (-> & -> & -> & -> & ->). vm_compute. reflexivity.
Qed.

(** ** Creatable *)
Lemma TrainLocation_conv_ok u v x : (since 88 u = false -> cells_ok [I32 (TrainLocation_hot_key_id x)]) ->
  cells_ok (TrainLocation_layout u x) -> cells_ok (TrainLocation_layout v x).
Proof.
  unfold TrainLocation_layout. rewrite !cells_ok_app. intros S [H1 H2]. split; [exact H1|].
  destruct (since 88 v); [|apply cells_ok_nil]. destruct (since 88 u); [exact H2|]. apply S. reflexivity.
Qed.
Lemma Creatable_conv_layout v x : Creatable_layout v (Creatable_converted v x) = Creatable_layout v x.
Proof.
  unfold Creatable_converted. destruct x. unfold Creatable_layout. destruct (since 84 v) eqn:V, (since 88 v) eqn:W; try reflexivity.
  - cbn -[firstn]. destruct Creatable_train_locations; reflexivity.
  - cbn -[firstn]. destruct Creatable_train_locations; reflexivity.
Qed.
Lemma Creatable_conv_locations v x : Creatable_train_locations (Creatable_converted v x) =
  if since 88 v then Creatable_train_locations x else firstn 1 (Creatable_train_locations x).
Proof. unfold Creatable_converted. destruct x, (since 84 v), (since 88 v); reflexivity. Qed.
Lemma Creatable_conv_shape u v x : (since 88 v = false -> Creatable_train_locations x <> []) ->
  Creatable_core_shape u x -> Creatable_core_shape v (Creatable_converted v x).
Proof.
  intros F (H1 & H2 & H3 & H4). unfold Creatable_core_shape. rewrite Creatable_conv_locations.
  assert (E : Creatable_resource_costs (Creatable_converted v x) = Creatable_resource_costs x /\
    Creatable_projectile_spawning_area (Creatable_converted v x) = Creatable_projectile_spawning_area x).
  { unfold Creatable_converted. destruct x, (since 84 v), (since 88 v); split; reflexivity. }
  destruct E as [-> ->]. split; [exact H1|]. split; [exact H2|]. split.
  - intros W. rewrite W. specialize (F W). destruct (Creatable_train_locations x); [congruence|reflexivity].
  - intros V. unfold Creatable_converted. rewrite V. destruct x, (since 88 v); repeat split.
Qed.
Lemma Creatable_conv_ok u v x : (since 88 v = false -> Creatable_train_locations x <> []) ->
  (since 88 u = false -> Forall (fun t => cells_ok [I32 (TrainLocation_hot_key_id t)]) (Creatable_train_locations x)) ->
  Creatable_core_shape u x -> cells_ok (Creatable_layout u x) -> cells_ok (Creatable_layout v x).
Proof.
  intros F K (_ & _ & S & D). unfold Creatable_layout. rewrite !cells_ok_app.
  intros (H1 & H2 & H3 & H4 & H5 & H6 & H7 & H8 & H9). split; [exact H1|].
  split; [|split; [exact H3|split; [|split; [exact H5|split; [|auto]]]]].
  - assert (L : since 88 u = false -> exists t, Creatable_train_locations x = [t]).
    { intros E. specialize (S E). destruct (Creatable_train_locations x) as [|t [|t' l]]; [discriminate|eauto|].
      exfalso. unfold count in S. cbn [length] in S. lia. }
    destruct (since 88 v) eqn:V, (since 88 u) eqn:U.
    + rewrite cells_ok_app in *. destruct H2 as [H2 H2']. split; [exact H2|]. rewrite cells_ok_flat_map in *.
      eapply Forall_impl; [|exact H2']. intros t Ht. apply (TrainLocation_conv_ok u); [congruence|exact Ht].
    + destruct (L eq_refl) as (t & E). rewrite E in *. rewrite cells_ok_app. split; [reflexivity|]. cbn [flat_map]. rewrite app_nil_r.
      apply (TrainLocation_conv_ok u); [|exact H2]. intros _. specialize (K eq_refl). inversion K; assumption.
    + destruct (Creatable_train_locations x) as [|t l]; [destruct (F eq_refl eq_refl)|].
      rewrite cells_ok_app in H2. destruct H2 as [_ H2]. cbn [flat_map] in H2. apply cells_ok_app in H2. destruct H2 as [H2 _].
      apply (TrainLocation_conv_ok u); [congruence|exact H2].
    + destruct (L eq_refl) as (t & E). rewrite E in *. apply (TrainLocation_conv_ok u); [|exact H2].
      intros _. specialize (K eq_refl). inversion K; assumption.
  - destruct (since 84 v); [|apply cells_ok_nil]. destruct (since 84 u); [exact H4|].
    destruct (D eq_refl) as (-> & _). reflexivity.
  - destruct (since 84 v); [|apply cells_ok_nil]. destruct (since 84 u); [exact H6|].
    destruct (D eq_refl) as (_ & -> & -> & -> & -> & -> & -> & -> & ->). vm_compute. reflexivity.
Qed.

(** ** Unit *)
Lemma option_map_None {A B} (f : A -> B) o : option_map f o = None -> o = None.
Proof. destruct o; [discriminate|reflexivity]. Qed.
(** Everything but four attributes is kept. *)
Lemma Unit_conv_eq v x : Unit_converted v x =
  with_Unit_bird (option_map (Bird_converted v) (Unit_bird x))
  (with_Unit_type_50 (option_map (Type50_converted v) (Unit_type_50 x))
  (with_Unit_creatable (option_map (Creatable_converted v) (Unit_creatable x))
  (with_Unit_hot_key (if since 88 v then match Unit_creatable x with None => 16000 | Some _ => Unit_hot_key x end else Unit_hot_key x) x))).
Proof. unfold Unit_converted. destruct x; cbn. destruct (since 88 v), Unit_creatable; reflexivity. Qed.
Lemma Unit_conv_layout v x : Unit_layout v (Unit_converted v x) = Unit_layout v x.
Proof.
  rewrite Unit_conv_eq.
  assert (S : forall b t c h, Unit_sections_layout v (with_Unit_bird (option_map (Bird_converted v) b)
    (with_Unit_type_50 (option_map (Type50_converted v) t) (with_Unit_creatable (option_map (Creatable_converted v) c) (with_Unit_hot_key h x))))
    = Unit_sections_layout v (with_Unit_bird b (with_Unit_type_50 t (with_Unit_creatable c x)))).
  { intros b t c h. unfold Unit_sections_layout. destruct x; cbn [with_Unit_bird with_Unit_type_50 with_Unit_creatable with_Unit_hot_key M_Unit.Unit_type
      M_Unit.Unit_speed M_Unit.Unit_dead_fish M_Unit.Unit_bird M_Unit.Unit_type_50 M_Unit.Unit_projectile M_Unit.Unit_creatable M_Unit.Unit_building].
    rewrite !stored_map. f_equal. f_equal. f_equal; [apply stored_ext, Bird_conv_layout|]. f_equal; [apply stored_ext, Type50_conv_layout|].
    f_equal. f_equal. apply stored_ext, Creatable_conv_layout. }
  unfold Unit_layout. rewrite S.
  replace (with_Unit_bird (Unit_bird x) (with_Unit_type_50 (Unit_type_50 x) (with_Unit_creatable (Unit_creatable x) x))) with x by (destruct x; reflexivity).
  generalize (Unit_sections_layout v x). intros tl. destruct x. destruct (since 88 v); reflexivity.
Qed.
Lemma Unit_conv_shape u v x : drop_sites_fit v x -> train_location_fits v x ->
  Unit_shape u x -> Unit_shape v (Unit_converted v x).
Proof.
  intros D F (H1 & H2 & H3 & H4 & H5 & H6 & H7 & H8 & H9). rewrite Unit_conv_eq.
  unfold drop_sites_fit, train_location_fits in *.
  assert (K : (if since 88 v then match Unit_creatable x with None => 16000 | Some _ => Unit_hot_key x end else Unit_hot_key x)
    = match Unit_creatable x with Some c => match Creatable_train_locations c with l :: _ => TrainLocation_hot_key_id l | [] => 16000 end
      | None => if since 88 v then 16000 else Unit_hot_key x end).
  { unfold Unit_hot_key_shape, train_hot_key in H5. destruct (Unit_creatable x) as [c|]; [|reflexivity].
    destruct (since 88 u); [|rewrite <- H5 by discriminate]; destruct (since 88 v); congruence. }
  rewrite K. clear K H5. destruct x; cbn -[count since] in *.
  split; [exact H1|]. split; [exact H2|]. split; [exact H3|]. split; [|split; [|split; [|split; [|split]]]].
  - unfold Unit_sections_shape in *. cbn in *.
    assert (P : forall A B (f : A -> B) o, present (option_map f o) = present o) by (intros; destruct o; reflexivity).
    rewrite !P. exact H4.
  - unfold Unit_hot_key_shape, train_hot_key. cbn. destruct Unit_creatable as [c|]; cbn; [|destruct (since 88 v); [reflexivity|congruence]].
    rewrite Creatable_conv_locations. destruct (since 88 v) eqn:V; [reflexivity|]. intros _. destruct (Creatable_train_locations c); reflexivity.
  - destruct Unit_bird; cbn in *; [|exact I]. exact (Bird_conv_shape u v _ D H6).
  - destruct Unit_type_50; cbn in *; [|exact I]. exact (Type50_conv_shape u v _ H7).
  - destruct Unit_creatable; cbn in *; [|exact I]. exact (Creatable_conv_shape u v _ F H8).
  - exact H9.
Qed.
Lemma stored_conv_ok {A} c (f g : A -> list cell) o (P : A -> Prop) : on_some P o ->
  (forall x, P x -> cells_ok (f x) -> cells_ok (g x)) -> cells_ok (stored c f o) -> cells_ok (stored c g o).
Proof. intros S H. destruct c, o; cbn in *; auto. Qed.
Lemma Unit_conv_ok u v x : train_location_fits v x -> Unit_shape u x ->
  cells_ok (Unit_layout u x) -> cells_ok (Unit_layout v x).
Proof.
  intros F (_ & _ & _ & S4 & S5 & S6 & S7 & S8 & _). unfold Unit_layout, Unit_sections_layout. rewrite !cells_ok_app.
  intros (A1 & A2 & A3 & A4 & A5 & A6 & A7 & A8 & A9 & A10 & A11 & A12 & A13 & B1 & B2 & B3 & B4 & B5 & B6 & B7).
  assert (K : cells_ok [I32 (Unit_hot_key x)]).
  { unfold Unit_hot_key_shape in S5. destruct (since 88 u) eqn:U; [|exact A8].
    rewrite S5. unfold train_hot_key. destruct S4 as (_ & _ & _ & _ & _ & S4 & _). destruct (Unit_creatable x) as [c|]; [|reflexivity].
    cbn [present] in S4. rewrite <- S4 in B6. cbn [stored opt_cells] in B6. unfold Creatable_layout in B6. rewrite U in B6.
    destruct (Creatable_train_locations c) as [|t l]; [reflexivity|]. rewrite !cells_ok_app in B6. destruct B6 as (_ & (_ & B6) & _).
    cbn [flat_map] in B6. apply cells_ok_app in B6. destruct B6 as [B6 _]. unfold TrainLocation_layout in B6. rewrite U in B6.
    apply cells_ok_app in B6. apply B6. }
  repeat (split; [assumption|]). split; [destruct (since 88 v); [apply cells_ok_nil|exact K]|].
  repeat (split; [assumption|]). split; [|split; [|split; [assumption|split; [|assumption]]]].
  - revert B3. apply (stored_conv_ok _ _ _ _ (Bird_shape u) S6). intros b. apply Bird_conv_ok.
  - revert B4. apply (stored_conv_ok _ _ _ _ (Type50_shape u) S7). intros b. apply Type50_conv_ok.
  - unfold train_location_fits in F. destruct (Unit_creatable x) as [c|] eqn:Ec; [|exact B6].
    destruct (has_creatable (Unit_type x)); [|exact B6]. cbn [stored opt_cells on_some] in *.
    apply (Creatable_conv_ok u); [exact F| |exact S8|exact B6].
    intros U. unfold Unit_hot_key_shape, train_hot_key in S5. rewrite U, Ec in S5. specialize (S5 ltac:(discriminate)).
    destruct S8 as (_ & _ & S8 & _). specialize (S8 U). destruct (Creatable_train_locations c) as [|t [|t' l]]; [constructor| |exfalso; unfold count in S8; cbn [length] in S8; lia].
    rewrite S5 in K. constructor; [exact K|constructor].
Qed.

(** ** Civ *)
Lemma Civ_conv_layout v x : Civ_layout v (Civ_converted v x) = Civ_layout v x.
Proof.
  unfold Civ_converted. destruct x. unfold Civ_layout. cbn -[Unit_layout count map slots flags].
  rewrite count_map, flags_map_opt, slots_map. erewrite slots_ext; [reflexivity|]. apply Unit_conv_layout.
Qed.
Definition Civ_fits (v : Version) (x : Civ) : Prop :=
  Forall (on_some (fun u => drop_sites_fit v u /\ train_location_fits v u)) (Civ_units x).
Lemma Civ_conv_shape u v x : Civ_fits v x -> Civ_shape u x -> Civ_shape v (Civ_converted v x).
Proof.
  unfold Civ_fits, Civ_shape, Civ_converted. destruct x; cbn [with_Civ_units M_Civ.Civ_units]. intros F S.
  apply Forall_map. rewrite Forall_forall in *. intros [y|] Hy; [|exact I]. cbn.
  destruct (F _ Hy). exact (Unit_conv_shape u v y H H0 (S _ Hy)).
Qed.
Lemma slots_ok {A} (f : A -> list cell) l : cells_ok (slots f l) <-> Forall (on_some (fun x => cells_ok (f x))) l.
Proof.
  unfold slots. rewrite cells_ok_flat_map. split; intros H; (eapply Forall_impl; [|exact H]); intros [y|]; cbn; auto. intros _. apply cells_ok_nil.
Qed.
Definition Civ_trains (v : Version) (x : Civ) : Prop := Forall (on_some (train_location_fits v)) (Civ_units x).
Lemma Civ_fits_trains v x : Civ_fits v x -> Civ_trains v x.
Proof. apply Forall_impl. intros [y|]; cbn; tauto. Qed.
Lemma Civ_conv_ok u v x : Civ_trains v x -> Civ_shape u x -> cells_ok (Civ_layout u x) -> cells_ok (Civ_layout v x).
Proof.
  unfold Civ_trains, Civ_shape, Civ_layout. intros F S. rewrite !cells_ok_app, !slots_ok. intros (H1 & H2 & H3 & H4 & H5).
  repeat (split; [assumption|]). rewrite Forall_forall in *. intros [y|] Hy; [|exact I].
  apply (Unit_conv_ok u); [apply (F _ Hy)|apply (S _ Hy)|apply (H5 _ Hy)].
Qed.

(** ** Tech *)
Lemma Tech_conv_layout v x : Tech_layout v (Tech_converted v x) = Tech_layout v x.
Proof. unfold Tech_converted. destruct (since 88 v) eqn:V; [reflexivity|]. destruct x. unfold Tech_layout. rewrite V. reflexivity. Qed.
Lemma Tech_conv_shape u v x : Tech_shape u x -> Tech_shape v (Tech_converted v x).
Proof.
  intros (H1 & H2 & H3). unfold Tech_shape, Tech_converted. destruct (since 88 v) eqn:V.
  - split; [exact H1|]. split; [exact H2|discriminate].
  - destruct x; cbn -[count hd] in *. split; [exact H1|]. split; [exact H2|]. reflexivity.
Qed.
Ltac ok_conses H := repeat match type of H with cells_ok (_ :: _) => apply cells_ok_cons in H; let H' := fresh H in destruct H as [H' H] end.
Lemma Tech_conv_ok u v x : Tech_shape u x -> cells_ok (Tech_layout u x) -> cells_ok (Tech_layout v x).
Proof.
  intros (_ & _ & S). unfold Tech_layout. destruct (since 88 v) eqn:V, (since 88 u) eqn:U; try (intros H; exact H); rewrite !cells_ok_app.
  - intros (H1 & H2 & H3). split; [exact H1|]. split; [exact H2|]. specialize (S eq_refl).
    destruct (Tech_research_locations x) as [|t [|t' l]]; [discriminate| |exfalso; unfold count in S; cbn [length] in S; lia].
    cbn [hd flat_map] in *. ok_conses H3. rewrite app_nil_r. unfold ResearchLocation_layout. rewrite !cells_ok_cons. tauto.
  - intros (H1 & H2 & H3 & H4). split; [exact H1|]. split; [exact H2|].
    assert (L : cells_ok (ResearchLocation_layout v (hd no_research_location (Tech_research_locations x)))).
    { destruct (Tech_research_locations x) as [|t l]; [reflexivity|]. cbn [hd flat_map] in *. apply cells_ok_app in H4. apply H4. }
    unfold ResearchLocation_layout in L. ok_conses L. ok_conses H3. rewrite !cells_ok_cons. tauto.
Qed.

(** ** DatFile *)
Definition DatFile_fits (v : Version) (x : DatFile) : Prop := Forall (Civ_fits v) (DatFile_civs x).
Lemma fits_each v x : each_unit (drop_sites_fit v) x -> each_unit (train_location_fits v) x -> DatFile_fits v x.
Proof.
  intros A B. apply Forall_forall. intros c Hc. apply Forall_forall. intros [y|] Hy; [|exact I]. split; [apply (A c y Hc Hy)|apply (B c y Hc Hy)].
Qed.
Lemma file_version_value v : v <> UNDEFINED -> file_version (version_value v) = Some v.
Proof. intros N. destruct v; [congruence|..]; vm_compute; reflexivity. Qed.
Lemma DatFile_conv_layout v x : v <> UNDEFINED -> DatFile_layout (DatFile_converted v x) = DatFile_layout (DatFile_retagged v x).
Proof.
  intros N. unfold DatFile_layout, DatFile_body, terrains_used, DatFile_converted, DatFile_retagged. destruct x.
  cbn [with_DatFile_version with_DatFile_unit_headers with_DatFile_civs with_DatFile_techs M_DatFile.DatFile_version M_DatFile.DatFile_unit_headers
    M_DatFile.DatFile_civs M_DatFile.DatFile_techs M_DatFile.DatFile_float_ptr_terrain_tables M_DatFile.DatFile_terrain_pass_graphic_pointers
    M_DatFile.DatFile_terrain_restrictions M_DatFile.DatFile_player_colours M_DatFile.DatFile_sounds M_DatFile.DatFile_graphics
    M_DatFile.DatFile_terrain_block M_DatFile.DatFile_random_maps M_DatFile.DatFile_effects M_DatFile.DatFile_time_slice
    M_DatFile.DatFile_unit_kill_rate M_DatFile.DatFile_unit_kill_total M_DatFile.DatFile_unit_hit_point_rate M_DatFile.DatFile_unit_hit_point_total
    M_DatFile.DatFile_razing_kill_rate M_DatFile.DatFile_razing_kill_total M_DatFile.DatFile_tech_tree].
  rewrite (file_version_value v N). rewrite !count_map, !flat_map_map.
  rewrite (flat_map_ext' _ _ DatFile_unit_headers (UnitHeaders_conv_layout v)), (flat_map_ext' _ _ DatFile_civs (Civ_conv_layout v)),
    (flat_map_ext' _ _ DatFile_techs (Tech_conv_layout v)). reflexivity.
Qed.
Lemma Forall_both {A} (P Q : A -> Prop) l : Forall P l -> Forall Q l -> Forall (fun x => P x /\ Q x) l.
Proof. rewrite !Forall_forall. auto. Qed.
Lemma DatFile_conv_shape v x : v <> UNDEFINED -> DatFile_fits v x -> DatFile_shape x -> DatFile_shape (DatFile_converted v x).
Proof.
  intros N F. unfold DatFile_shape. destruct (file_version (DatFile_version x)) as [u|]; [|intros []].
  assert (E : DatFile_version (DatFile_converted v x) = version_value v) by (destruct x; reflexivity).
  rewrite E, (file_version_value v N). unfold DatFile_body_shape, DatFile_fits in *. intros (H1 & H2 & H3 & H4 & H5 & H6 & H7 & H8).
  unfold DatFile_converted, terrains_used in *. destruct x; cbn -[count TerrainBlock_shape RandomMaps_shape TechTree_shape] in *.
  split; [exact H1|]. split; [exact H2|]. split; [exact H3|]. split; [exact H4|]. split; [|split; [|split; [|exact H8]]].
  - apply Forall_map. eapply Forall_impl; [|exact H5]. intros. eapply UnitHeaders_conv_shape; eassumption.
  - apply Forall_map. eapply Forall_impl; [|exact (Forall_both _ _ _ F H6)]. intros c [Fc Hc]. exact (Civ_conv_shape u v c Fc Hc).
  - apply Forall_map. eapply Forall_impl; [|exact H7]. intros. eapply Tech_conv_shape; eassumption.
Qed.
Lemma conv_flat_ok {A} (P : A -> Prop) (f g : A -> list cell) l : Forall P l ->
  (forall x, P x -> cells_ok (f x) -> cells_ok (g x)) -> cells_ok (flat_map f l) -> cells_ok (flat_map g l).
Proof. rewrite !cells_ok_flat_map, !Forall_forall. auto. Qed.
Lemma DatFile_conv_ok v x : v <> UNDEFINED -> Forall (Civ_trains v) (DatFile_civs x) -> DatFile_wf x -> cells_ok (DatFile_layout (DatFile_retagged v x)).
Proof.
  intros N F [H S]. unfold DatFile_layout, DatFile_shape in *. destruct (file_version (DatFile_version x)) as [u|]; [|destruct S].
  assert (E : DatFile_version (DatFile_retagged v x) = version_value v) by (destruct x; reflexivity). rewrite E, (file_version_value v N).
  destruct S as (_ & _ & _ & _ & S5 & S6 & S7 & _).
  apply cells_ok_guard in H. destruct H as [G H]. apply cells_ok_app in H. destruct H as [_ H].
  apply cells_ok_guard. split; [unfold DatFile_retagged; destruct x; exact G|]. apply cells_ok_app. split; [destruct v; [congruence|..]; vm_compute; reflexivity|].
  replace (DatFile_body v (DatFile_retagged v x)) with (DatFile_body v x) by (unfold DatFile_retagged; destruct x; reflexivity).
  unfold DatFile_body in *. rewrite !cells_ok_app in *.
  destruct H as (A1 & A2 & A3 & A4 & A5 & A6 & A7 & A8 & A9 & A10 & A11 & A12 & A13 & B1 & B2 & B3 & B4 & B5 & B6 & B7 & B8 & B9 & B10).
  do 3 (split; [assumption|]). split; [exact A4|]. split; [exact A5|]. split; [exact A6|]. split; [exact A7|]. split; [exact A8|].
  split; [exact A9|]. split; [exact A10|]. split; [exact A11|]. split; [exact A12|]. split; [exact A13|]. split; [exact B1|]. split; [exact B2|].
  split; [exact B3|]. split; [revert B4; apply (conv_flat_ok _ _ _ _ S5); intros; eapply UnitHeaders_conv_ok; eassumption|].
  split; [exact B5|]. split; [revert B6; apply (conv_flat_ok _ _ _ _ (Forall_both _ _ _ F S6)); intros c [Fc Hc]; exact (Civ_conv_ok u v c Fc Hc)|].
  split; [exact B7|]. split; [revert B8; apply (conv_flat_ok _ _ _ _ S7); intros; eapply Tech_conv_ok; eassumption|].
  split; [exact B9|]. exact B10.
Qed.
(** The converted object is well formed and has the bytes of the retagged one. *)
Lemma DatFile_conv v x : v <> UNDEFINED -> DatFile_fits v x -> DatFile_wf x ->
  DatFile_wf (DatFile_converted v x) /\ DatFile_layout (DatFile_converted v x) = DatFile_layout (DatFile_retagged v x).
Proof.
  intros N F W. pose proof (DatFile_conv_layout v x N) as L. split; [|exact L]. split.
  - rewrite L. apply DatFile_conv_ok; [exact N| |exact W]. eapply Forall_impl; [|exact F]. intros c. apply Civ_fits_trains.
  - apply DatFile_conv_shape; [assumption..|]. apply W.
Qed.
Lemma retagged_arity v x : DatFile_arity x -> DatFile_arity (DatFile_retagged v x).
Proof. unfold DatFile_arity, DatFile_retagged. destruct x. auto. Qed.
Lemma convert_bytes v x : v <> UNDEFINED -> DatFile_fits v x -> DatFile_wf x ->
  exists bs, to_bytes (DatFile_retagged v x) = Ok bs /\ from_bytes bs = Ok (DatFile_converted v x).
Proof.
  intros N F W. destruct (DatFile_conv v x N F W) as [W' L].
  destruct (dat_round_trip_bytes _ W') as (bs & E & R & _). exists bs. split; [|exact R].
  pose proof (to_bytes_table _ UNDEFINED (retagged_arity v x (wf_arity x W))) as T.
  pose proof (to_bytes_table _ UNDEFINED (wf_arity _ W')) as T'. unfold to_bytes in *. rewrite E, L in T'. rewrite <- T' in T.
  destruct (DatFile_to_bytes (DatFile_retagged v x) UNDEFINED) as [b|]; cbn [returned] in T; congruence.
Qed.
(** Saving succeeds: only the train locations matter. *)
Lemma convert_ok v x : v <> UNDEFINED -> DatFile_wf x -> each_unit (train_location_fits v) x ->
  exists bs, to_bytes (DatFile_retagged v x) = Ok bs.
Proof.
  intros N W T. assert (F : Forall (Civ_trains v) (DatFile_civs x)).
  { apply Forall_forall. intros c Hc. apply Forall_forall. intros [y|] Hy; [|exact I]. exact (T c y Hc Hy). }
  pose proof (to_bytes_table _ UNDEFINED (retagged_arity v x (wf_arity x W))) as B.
  destruct (cells_ok_encode _ (DatFile_conv_ok v x N F W)) as (bs & E). rewrite E in B. unfold to_bytes in *.
  destruct (DatFile_to_bytes (DatFile_retagged v x) UNDEFINED) as [b|]; cbn [returned] in B; [eauto|discriminate].
Qed.
Definition no_location (x : DatFile) : Prop :=
  exists c u k, In c (DatFile_civs x) /\ In (Some u) (Civ_units c) /\ Unit_creatable u = Some k /\ Creatable_train_locations k = [].
Lemma each_unit_dec v x : each_unit (train_location_fits v) x \/ no_location x.
Proof.
  unfold no_location, each_unit.
  enough (H : Forall (fun c => Forall (on_some (train_location_fits v)) (Civ_units c)) (DatFile_civs x) \/
    Exists (fun c => Exists (fun o => exists u k, o = Some u /\ Unit_creatable u = Some k /\ Creatable_train_locations k = []) (Civ_units c)) (DatFile_civs x)).
  { destruct H as [H|H].
    - left. intros c u Hc Hu. rewrite Forall_forall in H. specialize (H c Hc). rewrite Forall_forall in H. exact (H _ Hu).
    - right. apply Exists_exists in H. destruct H as (c & Hc & H). apply Exists_exists in H. destruct H as (o & Ho & u & k & -> & E1 & E2).
      exists c, u, k. auto. }
  induction (DatFile_civs x) as [|c l IH]; [left; constructor|]. destruct IH as [IH|IH]; [|right; right; exact IH].
  enough (H : Forall (on_some (train_location_fits v)) (Civ_units c) \/ Exists (fun o => exists u k, o = Some u /\ Unit_creatable u = Some k /\ Creatable_train_locations k = []) (Civ_units c)).
  { destruct H; [left; constructor; assumption|right; left; assumption]. }
  clear IH. induction (Civ_units c) as [|[u|] us IH]; [left; constructor| |].
  - destruct IH as [IH|IH]; [|right; right; exact IH].
    destruct (Unit_creatable u) as [k|] eqn:E.
    + destruct (Creatable_train_locations k) eqn:El; [right; left; exists u, k; auto|]. left. constructor; [|exact IH]. cbn. unfold train_location_fits. rewrite E, El. discriminate.
    + left. constructor; [|exact IH]. cbn. unfold train_location_fits. rewrite E. exact I.
  - destruct IH as [IH|IH]; [left; constructor; [exact I|exact IH]|right; right; exact IH].
Qed.
