
Theorem C31_UnitHeaders_parts : forall v x tasks i T (g : T -> Task) mk, UnitHeaders_exists_ x <> 0 -> (i < length tasks)%nat ->
  stays_local Task_to_bytes v g mk ->
  stays_local UnitHeaders_to_bytes v (fun t => with_UnitHeaders_task_list (Some (set_nth i (g t) tasks)) x) mk.
Proof.
  intros v x tasks i T g mk N Hi G. apply (to_table C07_Task) in G. apply (by_table C07_UnitHeaders). destruct x as [a0 a1].
  unfold UnitHeaders_layout. cbn [with_UnitHeaders_task_list UnitHeaders_exists_ UnitHeaders_task_list] in *.
  replace (a0 =? 0) with false by (symmetry; apply Z.eqb_neq, N). loc.
Qed.
Theorem C31_Unit_speed : forall v x, has_speed (Unit_type x) = true ->
  stays_local Unit_to_bytes v (fun t => with_Unit_speed (Some t) x) F32.
Proof.
  intros v x V. apply (by_table C07_Unit_flat). unfold Unit_flat_layout, Unit_sections_layout, Unit_values. destruct x.
  cbn [with_Unit_speed M_Unit.Unit_type] in *. cbn -[item_cells since app has_speed has_dead_fish has_bird has_type_50 has_projectile has_creatable has_building stored count flat_map] .
  rewrite V. loc.
Qed.

(** What it means for a field of fixed width [n]: two encodings of objects that differ in that
    field only have the same length and differ in those [n] bytes only. *)
Theorem C31_fixed_width : forall A T (tb : A -> Version -> res bytes) v (g : T -> A) mk n, stays_local tb v g mk ->
  (forall t b, cell_bytes (mk t) = Some b -> length b = n) ->
  forall t u bt bu, tb (g t) v = Ok bt -> tb (g u) v = Ok bu ->
  length bt = length bu /\
  exists pre b c post, bt = pre ++ b ++ post /\ bu = pre ++ c ++ post /\ length b = n /\ length c = n
    /\ cell_bytes (mk t) = Some b /\ cell_bytes (mk u) = Some c.
Proof.
  intros A T tb v g mk n (pre & post & L) W t u bt bu Et Eu. destruct (L t bt Et) as (b & Hb & ->). destruct (L u bu Eu) as (c & Hc & ->).
  pose proof (W t b Hb) as Lb. pose proof (W u c Hc) as Lc. split; [rewrite !app_length; lia|]. exists pre, b, c, post. auto 7.
Qed.
Lemma int_width mk n s : int_cell mk n s -> forall z b, cell_bytes (mk z) = Some b -> length b = n.
Proof. intros H z b E. rewrite (int_cell_bytes mk n s z H) in E. destruct (int_fits n s z); [|discriminate]. injection E as <-. apply le_bytes_length. Qed.
Lemma some_eq {A} (a b : A) : Some a = Some b -> a = b.
Proof. congruence. Qed.
Theorem C31_widths :
  (forall z b, cell_bytes (U8 z) = Some b -> length b = 1%nat) /\ (forall z b, cell_bytes (I8 z) = Some b -> length b = 1%nat) /\
  (forall z b, cell_bytes (I16 z) = Some b -> length b = 2%nat) /\
  (forall z b, cell_bytes (I32 z) = Some b -> length b = 4%nat) /\ (forall z b, cell_bytes (U32 z) = Some b -> length b = 4%nat) /\
  (forall z b, cell_bytes (F32 z) = Some b -> length b = 4%nat) /\ (forall z b, cell_bytes (F32s z) = Some b -> length b = 4%nat).
Proof.
  split; [exact (int_width _ _ _ ic_u8)|]. split; [exact (int_width _ _ _ ic_i8)|]. split; [exact (int_width _ _ _ ic_i16)|].
  split; [exact (int_width _ _ _ ic_i32)|]. split; [exact (int_width _ _ _ ic_u32)|].
  split; intros z b E; unfold cell_bytes in E.
  - apply some_eq in E. rewrite <- E. apply little_endian_length.
  - destruct (f64_too_large z); [discriminate|]. apply some_eq in E. rewrite <- E. apply little_endian_length.
Qed.

Lemma file_techs w x ver : file_version (DatFile_version x) = Some ver ->
  forall i T (g : T -> Tech) mk, (i < length (DatFile_techs x))%nat -> stays_local Tech_to_bytes ver g mk ->
  stays_local DatFile_to_bytes w (fun t => with_DatFile_techs (set_nth i (g t) (DatFile_techs x)) x) mk.
Proof. intros V. destruct (C31_DatFile_parts w x ver V) as (_ & _ & _ & _ & _ & _ & _ & _ & _ & H & _). exact H. Qed.
Lemma file_civs w x ver : file_version (DatFile_version x) = Some ver ->
  forall i T (g : T -> Civ) mk, (i < length (DatFile_civs x))%nat -> stays_local Civ_to_bytes ver g mk ->
  stays_local DatFile_to_bytes w (fun t => with_DatFile_civs (set_nth i (g t) (DatFile_civs x)) x) mk.
Proof. intros V. destruct (C31_DatFile_parts w x ver V) as (_ & _ & _ & _ & _ & _ & _ & _ & H & _). exact H. Qed.
Lemma unit_creatable_part v x : forall T (g : T -> Creatable) mk, has_creatable (Unit_type x) = true -> stays_local Creatable_to_bytes v g mk ->
  stays_local Unit_to_bytes v (fun t => with_Unit_creatable (Some (g t)) x) mk.
Proof. destruct (C31_Unit_parts v x) as (_ & _ & _ & _ & _ & _ & H & _). exact H. Qed.

(** A path through the file: one amount of a research cost, as in the README. *)
Definition amount_at (i j : nat) (t : Tech) (c : ResearchResourceCost) (x : DatFile) (a : Z) : DatFile :=
  with_DatFile_techs (set_nth i (with_Tech_resource_costs (set_nth j (with_ResearchResourceCost_amount a c) (Tech_resource_costs t)) t)
    (DatFile_techs x)) x.
Theorem C31_cost : forall w x i j t c, nth_error (DatFile_techs x) i = Some t -> nth_error (Tech_resource_costs t) j = Some c ->
  stays_local DatFile_to_bytes w (amount_at i j t c x) I16.
Proof.
  intros w x i j t c Ht Hc. destruct (file_version (DatFile_version x)) as [ver|] eqn:V.
  - assert (Li : (i < length (DatFile_techs x))%nat) by (apply nth_error_Some; congruence).
    assert (Lj : (j < length (Tech_resource_costs t))%nat) by (apply nth_error_Some; congruence).
    assert (S1 : stays_local Tech_to_bytes ver (fun a => with_Tech_resource_costs (set_nth j (with_ResearchResourceCost_amount a c) (Tech_resource_costs t)) t) I16).
    { apply (proj1 (C31_Tech_parts ver t)); [exact Lj|]. apply (C31_ResearchResourceCost ver c). }
    exact (file_techs w x ver V i Z _ I16 Li S1).
  - exists [], []. intros a bs E. exfalso. pose proof (C07_DatFile_flat (amount_at i j t c x a) w) as H. rewrite E in H. cbn [returned] in H.
    unfold DatFile_flat_layout in H. replace (DatFile_version (amount_at i j t c x a)) with (DatFile_version x) in H by (unfold amount_at; destruct x; reflexivity).
    rewrite V in H. discriminate.
Qed.
(** A deeper one: the amount of a resource a unit costs. *)
Theorem C31_unit_cost : forall w x ver i k j c u cr r, file_version (DatFile_version x) = Some ver ->
  nth_error (DatFile_civs x) i = Some c -> nth_error (Civ_units c) k = Some (Some u) -> Unit_creatable u = Some cr ->
  has_creatable (Unit_type u) = true -> nth_error (Creatable_resource_costs cr) j = Some r ->
  stays_local DatFile_to_bytes w
    (fun a => with_DatFile_civs (set_nth i (with_Civ_units (set_nth k (Some (with_Unit_creatable (Some
      (with_Creatable_resource_costs (set_nth j (with_ResourceCost_amount a r) (Creatable_resource_costs cr)) cr)) u)) (Civ_units c)) c)
      (DatFile_civs x)) x) I16.
Proof.
  intros w x ver i k j c u cr r V Hc Hu Hcr Ht Hr.
  assert (Li : (i < length (DatFile_civs x))%nat) by (apply nth_error_Some; congruence).
  assert (Lk : (k < length (Civ_units c))%nat) by (apply nth_error_Some; congruence).
  assert (Lj : (j < length (Creatable_resource_costs cr))%nat) by (apply nth_error_Some; congruence).
  assert (S1 : stays_local ResourceCost_to_bytes ver (fun a => with_ResourceCost_amount a r) I16) by apply (C31_ResourceCost ver r).
  assert (S2 : stays_local Creatable_to_bytes ver (fun a => with_Creatable_resource_costs (set_nth j (with_ResourceCost_amount a r) (Creatable_resource_costs cr)) cr) I16).
  { apply (proj1 (C31_Creatable_parts ver cr)); [exact Lj|exact S1]. }
  assert (S3 := unit_creatable_part ver u _ _ I16 Ht S2). cbv beta in S3.
  assert (S4 := C31_Civ_parts ver c k _ _ I16 Lk S3). cbv beta in S4.
  exact (file_civs w x ver V i Z _ I16 Li S4).
Qed.
Lemma sample_techs_0 v : exists t c, nth_error (DatFile_techs (sample v)) 0 = Some t /\ nth_error (Tech_resource_costs t) 0 = Some c.
Proof. eexists. eexists. split; reflexivity. Qed.
(** The first cost of the sample file; with other amounts see [C32_cost_case] in Props_Readme. *)
Lemma amount_case x t c : DatFile_wf x -> nth_error (DatFile_techs x) 0 = Some t -> nth_error (Tech_resource_costs t) 0 = Some c ->
  exists bs, to_bytes (amount_at 0 0 t c x (ResearchResourceCost_amount c)) = Ok bs.
Proof.
  intros W Ht Hc. replace (amount_at 0 0 t c x (ResearchResourceCost_amount c)) with x.
  - destruct (dat_round_trip_bytes x W) as (bs & E & _). exists bs. exact E.
  - unfold amount_at. destruct x, t, c. cbn in Ht, Hc. destruct DatFile_techs as [|t0 ts]; [discriminate|]. injection Ht as ->.
    destruct Tech_resource_costs as [|c0 cs]; [discriminate|]. injection Hc as ->. reflexivity.
Qed.
Example C31_case : forall v, v <> UNDEFINED -> exists t c bs,
  nth_error (DatFile_techs (sample v)) 0 = Some t /\ nth_error (Tech_resource_costs t) 0 = Some c /\
  to_bytes (amount_at 0 0 t c (sample v) (ResearchResourceCost_amount c)) = Ok bs.
Proof.
  intros v H. destruct (sample_techs_0 v) as (t & c & Ht & Hc). destruct (amount_case (sample v) t c (sample_wf v H) Ht Hc) as (bs & E).
  exists t, c, bs. split; [exact Ht|]. split; [exact Hc|exact E].
Qed.
Definition all_of_this_file := (NAMES, C31_UnitHeaders_parts, C31_Unit_speed, C31_fixed_width, C31_widths, C31_cost, C31_unit_cost).
Print Assumptions all_of_this_file.
