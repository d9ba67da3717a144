(** * C32: the edits of the README do what they say. *)
From Verif Require Import Base PyInt PyFloat PyStr PyStruct DataTypes Versions Common Wire Layout Shape Flat Size Spec Update Edit FS.
From Verif Require Import M_Sound M_PlayerColour M_Effect M_TerrainRestriction M_Graphic
  M_TerrainBlock M_RandomMaps M_Task M_UnitHeaders M_Unit M_Civ M_Tech M_TechTree M_DatFile.
From Verif Require Import Codec Theory FlatP SizeP Sample ConvertE EditP Props_Classes Props_Size Props_Range Props_FS Props_Local.
From Coq Require Import ZifyBool.
Open Scope Z_scope.
Local Open Scope list_scope.
Local Notation length := List.length.

(** ** Setting the amount of a research cost *)
Lemma set_cost_inv i j a x y : set_cost i j a x = Ok y -> exists t c,
  nth_error (DatFile_techs x) i = Some t /\ nth_error (Tech_resource_costs t) j = Some c /\ y = amount_at i j t c x a.
Proof.
  unfold set_cost, get_nth. destruct (nth_error (DatFile_techs x) i) as [t|] eqn:T; [|discriminate]. cbn [rbind].
  destruct (nth_error (Tech_resource_costs t) j) as [c|] eqn:C; [|discriminate]. cbn [rbind]. intros E. exists t, c.
  split; [reflexivity|]. split; [exact C|]. unfold amount_at. congruence.
Qed.
Lemma tech_cost_wf v t j c a : cells_ok (Tech_layout v t) /\ Tech_shape v t -> nth_error (Tech_resource_costs t) j = Some c ->
  -32768 <= a <= 32767 ->
  cells_ok (Tech_layout v (with_Tech_resource_costs (set_nth j (with_ResearchResourceCost_amount a c) (Tech_resource_costs t)) t))
  /\ Tech_shape v (with_Tech_resource_costs (set_nth j (with_ResearchResourceCost_amount a c) (Tech_resource_costs t)) t).
Proof.
  intros [H S] N R. assert (L : (j < length (Tech_resource_costs t))%nat) by (apply nth_error_Some; congruence).
  assert (K : cells_ok (flat_map (ResearchResourceCost_layout v) (Tech_resource_costs t)) ->
    cells_ok (flat_map (ResearchResourceCost_layout v) (set_nth j (with_ResearchResourceCost_amount a c) (Tech_resource_costs t)))).
  { rewrite !cells_ok_flat_map. intros F. apply Forall_set_nth; [exact F|]. rewrite Forall_forall in F. pose proof (F c (nth_in _ _ _ N)) as Fc.
    destruct c as [c1 c2 c3]. unfold ResearchResourceCost_layout in *. cbn [with_ResearchResourceCost_amount ResearchResourceCost_type ResearchResourceCost_amount ResearchResourceCost_flag] in *.
    unfold cells_ok in *. cbn [forallb cell_ok] in *. unfold cell_ok in *. unfold within in *. clear -Fc R. lia. }
  split.
  - revert H K. generalize (set_nth j (with_ResearchResourceCost_amount a c) (Tech_resource_costs t)). intros l H K.
    unfold Tech_layout in *. destruct (since 88 v); destruct t; cbn [with_Tech_resource_costs M_Tech.Tech_required_techs M_Tech.Tech_resource_costs
      M_Tech.Tech_required_tech_count M_Tech.Tech_civ M_Tech.Tech_full_tech_mode M_Tech.Tech_research_locations M_Tech.Tech_language_dll_name
      M_Tech.Tech_language_dll_description M_Tech.Tech_effect_id M_Tech.Tech_type M_Tech.Tech_icon_id M_Tech.Tech_language_dll_help
      M_Tech.Tech_language_dll_tech_tree M_Tech.Tech_name M_Tech.Tech_repeatable] in *; cbv zeta in *; rewrite !cells_ok_app in *; tauto.
  - unfold Tech_shape in *. destruct S as (S1 & S2 & S3). split; [destruct t; exact S1|]. split; [|destruct t; exact S3].
    replace (Tech_resource_costs (with_Tech_resource_costs _ t)) with (set_nth j (with_ResearchResourceCost_amount a c) (Tech_resource_costs t)) by (destruct t; reflexivity).
    rewrite count_set_nth by exact L. exact S2.
Qed.
Theorem C32_cost : forall x i j a y, DatFile_wf x -> -32768 <= a <= 32767 -> set_cost i j a x = Ok y ->
  exists bs, to_bytes y = Ok bs /\ from_bytes bs = Ok y.
Proof.
  intros x i j a y W R E. apply set_cost_inv in E as (t & c & Ht & Hc & ->). apply wf_iff_survives.
  destruct (file_version (DatFile_version x)) as [u|] eqn:V.
  2:{ destruct W as [_ S]. unfold DatFile_shape in S. rewrite V in S. contradiction. }
  destruct (wf_parts u x W V) as (_ & F & C). unfold amount_at.
  assert (L : (i < length (DatFile_techs x))%nat) by (apply nth_error_Some; congruence).
  apply (with_techs_wf u); [exact W|exact V| |rewrite count_set_nth; assumption].
  apply Forall_set_nth; [exact F|]. apply tech_cost_wf; [|exact Hc|exact R]. rewrite Forall_forall in F. exact (F t (nth_in _ _ _ Ht)).
Qed.
(** Exactly that amount changed: it is there, and putting the old one back gives the original. *)
Theorem C32_cost_only : forall x i j a y, set_cost i j a x = Ok y ->
  (exists t c, nth_error (DatFile_techs y) i = Some t /\ nth_error (Tech_resource_costs t) j = Some c /\ ResearchResourceCost_amount c = a) /\
  (exists t c, nth_error (DatFile_techs x) i = Some t /\ nth_error (Tech_resource_costs t) j = Some c /\
     set_cost i j (ResearchResourceCost_amount c) y = Ok x).
Proof.
  intros x i j a y E. apply set_cost_inv in E as (t & c & Ht & Hc & ->).
  assert (Li : (i < length (DatFile_techs x))%nat) by (apply nth_error_Some; congruence).
  assert (Lj : (j < length (Tech_resource_costs t))%nat) by (apply nth_error_Some; congruence).
  set (c' := with_ResearchResourceCost_amount a c). set (t' := with_Tech_resource_costs (set_nth j c' (Tech_resource_costs t)) t).
  assert (Ht' : nth_error (DatFile_techs (amount_at i j t c x a)) i = Some t').
  { unfold amount_at. replace (DatFile_techs (with_DatFile_techs _ x)) with (set_nth i t' (DatFile_techs x)) by (destruct x; reflexivity).
    apply nth_set_nth, Li. }
  assert (Hc' : nth_error (Tech_resource_costs t') j = Some c').
  { unfold t'. replace (Tech_resource_costs (with_Tech_resource_costs _ t)) with (set_nth j c' (Tech_resource_costs t)) by (destruct t; reflexivity).
    apply nth_set_nth, Lj. }
  split.
  - exists t', c'. split; [exact Ht'|]. split; [exact Hc'|]. unfold c'. destruct c; reflexivity.
  - exists t, c. split; [exact Ht|]. split; [exact Hc|]. unfold set_cost, get_nth. rewrite Ht'. cbn [rbind]. rewrite Hc'. cbn [rbind]. f_equal.
    assert (Ec : with_ResearchResourceCost_amount (ResearchResourceCost_amount c) c' = c) by (unfold c'; destruct c; reflexivity). rewrite Ec.
    assert (Et : with_Tech_resource_costs (set_nth j c (Tech_resource_costs t')) t' = t).
    { replace (Tech_resource_costs t') with (set_nth j c' (Tech_resource_costs t)) by (unfold t'; destruct t; reflexivity).
      rewrite set_set_nth by exact Lj. rewrite set_same_nth by exact Hc. unfold t'. destruct t; reflexivity. }
    rewrite Et. unfold amount_at. fold c'. fold t'.
    replace (DatFile_techs (with_DatFile_techs _ x)) with (set_nth i t' (DatFile_techs x)) by (destruct x; reflexivity).
    rewrite set_set_nth by exact Li. rewrite set_same_nth by exact Ht. destruct x; reflexivity.
Qed.
(** In the file, two bytes change and nothing moves. *)
Theorem C32_cost_bytes : forall x i j a y bx by_, set_cost i j a x = Ok y -> to_bytes x = Ok bx -> to_bytes y = Ok by_ ->
  exists pre b c post, bx = pre ++ b ++ post /\ by_ = pre ++ c ++ post /\ length b = 2%nat /\ length c = 2%nat
    /\ int_from_bytes c true = a.
Proof.
  intros x i j a y bx by_ E Ex Ey. destruct (C32_cost_only x i j a y E) as (_ & t & c & Ht & Hc & _).
  apply set_cost_inv in E as (t' & c' & Ht' & Hc' & ->). rewrite Ht in Ht'. injection Ht' as <-. rewrite Hc in Hc'. injection Hc' as <-.
  pose proof (C31_cost UNDEFINED x i j t c Ht Hc) as S.
  assert (X : amount_at i j t c x (ResearchResourceCost_amount c) = x).
  { unfold amount_at. replace (with_ResearchResourceCost_amount (ResearchResourceCost_amount c) c) with c by (destruct c; reflexivity).
    rewrite (set_same_nth j c) by exact Hc. replace (with_Tech_resource_costs (Tech_resource_costs t) t) with t by (destruct t; reflexivity).
    rewrite (set_same_nth i t) by exact Ht. destruct x; reflexivity. }
  rewrite <- X in Ex. destruct (C31_fixed_width _ _ _ _ _ _ 2%nat S (proj1 (proj2 (proj2 C31_widths))) _ _ _ _ Ex Ey)
    as (_ & pre & b & d & post & -> & -> & Lb & Ld & _ & Hd).
  exists pre, b, d, post. split; [reflexivity|]. split; [reflexivity|]. split; [exact Lb|]. split; [exact Ld|].
  apply (int_cell_stored I16 2 true a d ic_i16 Hd).
Qed.
(** The whole README program: load, set, save, load again. *)
Theorem C32_cost_file : forall deflate inflate, inverts inflate deflate ->
  forall f p q i j a x y f', parse inflate f p = Ok x -> -32768 <= a <= 32767 -> set_cost i j a x = Ok y -> saved deflate y q f f' ->
  parse inflate f' q = Ok y /\ same_but q f f'.
Proof.
  intros deflate inflate Z f p q i j a x y f' P R E S.
  assert (W : DatFile_wf x).
  { unfold parse in P. destruct (f p) as [c|]; [|discriminate]. destruct (inflate c) as [d|]; [|discriminate]. exact (from_bytes_wf d x P). }
  apply (C27_save_parse deflate inflate Z y q f f'); [|exact S]. apply wf_iff_survives. exact (C32_cost x i j a y W R E).
Qed.
(** An amount that does not fit is refused when saving. *)
Theorem C32_cost_refused : forall x i j a y, ~ (-32768 <= a <= 32767) -> set_cost i j a x = Ok y -> exists e, to_bytes y = Err e.
Proof.
  intros x i j a y N E. destruct (C32_cost_only x i j a y E) as ((t & c & Ht & Hc & A) & _).
  apply (C23_cost_too_large y t c UNDEFINED (nth_in _ _ _ Ht) (nth_in _ _ _ Hc)). rewrite A. exact N.
Qed.

(** ** Removing the last task of a unit of every civilisation *)
(** [d] is [c] without the last task of its unit [k]. *)
Definition without_last_task (k : nat) (c d : Civ) : Prop := exists u b tasks last,
  nth_error (Civ_units c) k = Some (Some u) /\ Unit_bird u = Some b /\ Bird_tasks b = tasks ++ [last] /\
  d = with_Civ_units (set_nth k (Some (with_Unit_bird (Some (with_Bird_tasks tasks b)) u)) (Civ_units c)) c.
Lemma pop_task_inv k c d : pop_task k c = Ok d <-> without_last_task k c d.
Proof.
  unfold pop_task, get_nth, without_last_task. split.
  - destruct (nth_error (Civ_units c) k) as [[u|]|]; [|discriminate|discriminate]. cbn [rbind the].
    destruct (Unit_bird u) as [b|] eqn:B; [|discriminate]. cbn [rbind the]. unfold pop.
    destruct (Bird_tasks b) as [|t ts] eqn:Tk; [discriminate|]. cbn [rbind]. intros E. exists u, b, (removelast (t :: ts)), (last (t :: ts) t).
    split; [reflexivity|]. split; [exact B|]. split; [|congruence]. rewrite Tk. apply app_removelast_last. discriminate.
  - intros (u & b & tasks & l & -> & B & Tk & ->). cbn [rbind the]. rewrite B. cbn [rbind the]. rewrite Tk. unfold pop.
    destruct (tasks ++ [l]) eqn:E; [destruct tasks; discriminate|]. rewrite <- E, removelast_last. reflexivity.
Qed.
Lemma pop_tasks_inv k l m : pop_tasks_of k l = Ok m <-> Forall2 (without_last_task k) l m.
Proof.
  revert m. induction l as [|c l IH]; intros m; cbn [pop_tasks_of].
  - split; [intros [= <-]; constructor|]. intros H. inversion H. reflexivity.
  - split.
    + destruct (pop_task k c) as [d|] eqn:E; [|discriminate]. cbn [rbind]. destruct (pop_tasks_of k l) as [n|]; [|discriminate].
      cbn [rbind]. intros [= <-]. constructor; [apply pop_task_inv, E|]. apply IH. reflexivity.
    + intros H. inversion H as [|a d b n H1 H2]; subst. apply pop_task_inv in H1. rewrite H1. cbn [rbind]. apply IH in H2. rewrite H2. reflexivity.
Qed.
(** The program succeeds exactly if every civilisation has the unit with a task, and then it
    changes nothing but these tasks. *)
Theorem C32_tasks_only : forall k x y, pop_tasks k x = Ok y <->
  exists l, y = with_DatFile_civs l x /\ Forall2 (without_last_task k) (DatFile_civs x) l.
Proof.
  intros k x y. unfold pop_tasks. split.
  - destruct (pop_tasks_of k (DatFile_civs x)) as [l|] eqn:E; [|discriminate]. cbn [rbind]. intros [= <-]. exists l.
    split; [reflexivity|]. apply pop_tasks_inv, E.
  - intros (l & -> & F). apply pop_tasks_inv in F. rewrite F. reflexivity.
Qed.
Lemma bird_pop_ok v b tasks last : cells_ok (Bird_layout v b) /\ Bird_shape v b -> Bird_tasks b = tasks ++ [last] ->
  cells_ok (Bird_layout v (with_Bird_tasks tasks b)) /\ Bird_shape v (with_Bird_tasks tasks b).
Proof.
  intros [H [S1 S2]] E. split.
  - assert (K : cell_ok (I16 (count (tasks ++ [last]))) = true -> cell_ok (I16 (count tasks)) = true).
    { unfold count. rewrite app_length. cbn [length]. unfold cell_ok, within. clear. lia. }
    unfold Bird_layout in *. rewrite E in H. destruct b; cbn [with_Bird_tasks M_Unit.Bird_default_task_id M_Unit.Bird_search_radius M_Unit.Bird_work_rate
      M_Unit.Bird_drop_sites M_Unit.Bird_task_swap_group M_Unit.Bird_attack_sound M_Unit.Bird_move_sound M_Unit.Bird_wwise_attack_sound_id
      M_Unit.Bird_wwise_move_sound_id M_Unit.Bird_run_pattern M_Unit.Bird_tasks] in *.
    rewrite !cells_ok_app, flat_map_app, !cells_ok_app in *. rewrite !cells_ok_cons in *.
    tauto.
  - unfold Bird_shape. rewrite E in S2. apply Forall_app in S2 as [S2 _]. destruct b; split; assumption.
Qed.

(** ** The same at the level of units and civilisations *)
Lemma unit_around_bird v u : exists pre post, forall o,
  Unit_layout v (with_Unit_bird o u) = pre ++ stored (has_bird (Unit_type u)) (Bird_layout v) o ++ post.
Proof.
  destruct u. unfold Unit_layout, Unit_sections_layout.
  cbn [with_Unit_bird M_Unit.Unit_type M_Unit.Unit_id M_Unit.Unit_language_dll_name M_Unit.Unit_language_dll_creation M_Unit.Unit_class_ M_Unit.Unit_standing_graphic M_Unit.Unit_dying_graphic M_Unit.Unit_undead_graphic M_Unit.Unit_undead_mode M_Unit.Unit_hit_points M_Unit.Unit_line_of_sight M_Unit.Unit_garrison_capacity M_Unit.Unit_collision_size_x M_Unit.Unit_collision_size_y M_Unit.Unit_collision_size_z M_Unit.Unit_train_sound M_Unit.Unit_damage_sound M_Unit.Unit_dead_unit_id M_Unit.Unit_blood_unit_id M_Unit.Unit_sort_number M_Unit.Unit_can_be_built_on M_Unit.Unit_icon_id M_Unit.Unit_hide_in_editor M_Unit.Unit_old_portrait_pict M_Unit.Unit_enabled M_Unit.Unit_disabled M_Unit.Unit_placement_side_terrain M_Unit.Unit_placement_terrain M_Unit.Unit_clearance_size M_Unit.Unit_hill_mode M_Unit.Unit_fog_visibility M_Unit.Unit_terrain_restriction M_Unit.Unit_fly_mode M_Unit.Unit_resource_capacity M_Unit.Unit_resource_decay M_Unit.Unit_blast_defense_level M_Unit.Unit_combat_level M_Unit.Unit_interaction_mode M_Unit.Unit_minimap_mode M_Unit.Unit_interface_kind M_Unit.Unit_multiple_attribute_mode M_Unit.Unit_minimap_color M_Unit.Unit_language_dll_help M_Unit.Unit_language_dll_hotkey_text M_Unit.Unit_hot_key M_Unit.Unit_recyclable M_Unit.Unit_enable_auto_gather M_Unit.Unit_create_doppelganger_on_death M_Unit.Unit_resource_gather_group M_Unit.Unit_occlusion_mode M_Unit.Unit_obstruction_type M_Unit.Unit_obstruction_class M_Unit.Unit_trait M_Unit.Unit_civilization M_Unit.Unit_nothing M_Unit.Unit_selection_effect M_Unit.Unit_editor_selection_colour M_Unit.Unit_outline_size_x M_Unit.Unit_outline_size_y M_Unit.Unit_outline_size_z M_Unit.Unit_scenario_triggers_1 M_Unit.Unit_scenario_triggers_2 M_Unit.Unit_resource_storages M_Unit.Unit_damage_graphics M_Unit.Unit_selection_sound M_Unit.Unit_dying_sound M_Unit.Unit_wwise_train_sound_id M_Unit.Unit_wwise_damage_sound_id M_Unit.Unit_wwise_selection_sound_id M_Unit.Unit_wwise_dying_sound_id M_Unit.Unit_old_attack_reaction M_Unit.Unit_convert_terrain M_Unit.Unit_name M_Unit.Unit_copy_id M_Unit.Unit_base_id M_Unit.Unit_speed M_Unit.Unit_dead_fish M_Unit.Unit_bird M_Unit.Unit_type_50 M_Unit.Unit_projectile M_Unit.Unit_creatable M_Unit.Unit_building].
  match goal with |- exists pre post, forall o, ?a1 ++ ?a2 ++ ?a3 ++ ?a4 ++ ?a5 ++ ?a6 ++ ?a7 ++ ?a8 ++ ?a9 ++ ?a10 ++ ?a11 ++ ?a12 ++ ?a13 ++ ?a14 ++ ?a15 ++ _ ++ ?z = _ =>
    exists (a1 ++ a2 ++ a3 ++ a4 ++ a5 ++ a6 ++ a7 ++ a8 ++ a9 ++ a10 ++ a11 ++ a12 ++ a13 ++ a14 ++ a15), z end.
  intros o. rewrite <- !app_assoc. reflexivity.
Qed.

Lemma unit_bird_same u : with_Unit_bird (Unit_bird u) u = u.
Proof. destruct u; reflexivity. Qed.
Lemma unit_bird_shape v u b b' : Unit_bird u = Some b -> Unit_shape v u -> Bird_shape v b' -> Unit_shape v (with_Unit_bird (Some b') u).
Proof.
  destruct u. unfold Unit_shape, Unit_arity, Unit_sections_shape, Unit_hot_key_shape, train_hot_key.
  cbn [with_Unit_bird M_Unit.Unit_type M_Unit.Unit_id M_Unit.Unit_language_dll_name M_Unit.Unit_language_dll_creation M_Unit.Unit_class_ M_Unit.Unit_standing_graphic M_Unit.Unit_dying_graphic M_Unit.Unit_undead_graphic M_Unit.Unit_undead_mode M_Unit.Unit_hit_points M_Unit.Unit_line_of_sight M_Unit.Unit_garrison_capacity M_Unit.Unit_collision_size_x M_Unit.Unit_collision_size_y M_Unit.Unit_collision_size_z M_Unit.Unit_train_sound M_Unit.Unit_damage_sound M_Unit.Unit_dead_unit_id M_Unit.Unit_blood_unit_id M_Unit.Unit_sort_number M_Unit.Unit_can_be_built_on M_Unit.Unit_icon_id M_Unit.Unit_hide_in_editor M_Unit.Unit_old_portrait_pict M_Unit.Unit_enabled M_Unit.Unit_disabled M_Unit.Unit_placement_side_terrain M_Unit.Unit_placement_terrain M_Unit.Unit_clearance_size M_Unit.Unit_hill_mode M_Unit.Unit_fog_visibility M_Unit.Unit_terrain_restriction M_Unit.Unit_fly_mode M_Unit.Unit_resource_capacity M_Unit.Unit_resource_decay M_Unit.Unit_blast_defense_level M_Unit.Unit_combat_level M_Unit.Unit_interaction_mode M_Unit.Unit_minimap_mode M_Unit.Unit_interface_kind M_Unit.Unit_multiple_attribute_mode M_Unit.Unit_minimap_color M_Unit.Unit_language_dll_help M_Unit.Unit_language_dll_hotkey_text M_Unit.Unit_hot_key M_Unit.Unit_recyclable M_Unit.Unit_enable_auto_gather M_Unit.Unit_create_doppelganger_on_death M_Unit.Unit_resource_gather_group M_Unit.Unit_occlusion_mode M_Unit.Unit_obstruction_type M_Unit.Unit_obstruction_class M_Unit.Unit_trait M_Unit.Unit_civilization M_Unit.Unit_nothing M_Unit.Unit_selection_effect M_Unit.Unit_editor_selection_colour M_Unit.Unit_outline_size_x M_Unit.Unit_outline_size_y M_Unit.Unit_outline_size_z M_Unit.Unit_scenario_triggers_1 M_Unit.Unit_scenario_triggers_2 M_Unit.Unit_resource_storages M_Unit.Unit_damage_graphics M_Unit.Unit_selection_sound M_Unit.Unit_dying_sound M_Unit.Unit_wwise_train_sound_id M_Unit.Unit_wwise_damage_sound_id M_Unit.Unit_wwise_selection_sound_id M_Unit.Unit_wwise_dying_sound_id M_Unit.Unit_old_attack_reaction M_Unit.Unit_convert_terrain M_Unit.Unit_name M_Unit.Unit_copy_id M_Unit.Unit_base_id M_Unit.Unit_speed M_Unit.Unit_dead_fish M_Unit.Unit_bird M_Unit.Unit_type_50 M_Unit.Unit_projectile M_Unit.Unit_creatable M_Unit.Unit_building].
  intros -> (H1 & H2 & H3 & (K1 & K2 & K3 & K4) & H5 & H6 & H7) B.
  split; [exact H1|]. split; [exact H2|]. split; [exact H3|]. split; [exact (conj K1 (conj K2 (conj K3 K4)))|]. split; [exact H5|].
  split; [exact B|exact H7].
Qed.
Lemma unit_has_bird v u b : Unit_shape v u -> Unit_bird u = Some b -> has_bird (Unit_type u) = true.
Proof. intros (_ & _ & _ & (_ & _ & K & _) & _) E. rewrite <- K, E. reflexivity. Qed.
Lemma unit_pop_ok v u b tasks last : cells_ok (Unit_layout v u) /\ Unit_shape v u -> Unit_bird u = Some b -> Bird_tasks b = tasks ++ [last] ->
  cells_ok (Unit_layout v (with_Unit_bird (Some (with_Bird_tasks tasks b)) u)) /\ Unit_shape v (with_Unit_bird (Some (with_Bird_tasks tasks b)) u).
Proof.
  intros [H S] B T. pose proof (unit_has_bird v u b S B) as Hb.
  destruct (unit_around_bird v u) as (pre & post & L). pose proof (L (Unit_bird u)) as L0.
  rewrite unit_bird_same, B in L0. rewrite L0 in H. rewrite Hb in H, L.
  cbn [stored opt_cells] in H. rewrite !cells_ok_app in H. destruct H as (H1 & H2 & H3).
  assert (SB : Bird_shape v b). { destruct S as (_ & _ & _ & _ & _ & SB & _). rewrite B in SB. exact SB. }
  destruct (bird_pop_ok v b tasks last (conj H2 SB) T) as [C Sh]. split.
  - rewrite L. cbn [stored opt_cells]. rewrite !cells_ok_app. auto.
  - exact (unit_bird_shape v u b _ B S Sh).
Qed.
Lemma flags_same {A} k (a b : A) l : nth_error l k = Some (Some a) -> flags (set_nth k (Some b) l) = flags l.
Proof.
  revert k. induction l as [|c l IH]; intros [|k] H; try discriminate.
  - cbn [nth_error] in H. injection H as ->. reflexivity.
  - change (set_nth (S k) (Some b) (c :: l)) with (c :: set_nth k (Some b) l). unfold flags in *. cbn [map]. rewrite (IH k H). reflexivity.
Qed.
Lemma civ_pop_ok v k c d : cells_ok (Civ_layout v c) /\ Civ_shape v c -> without_last_task k c d -> cells_ok (Civ_layout v d) /\ Civ_shape v d.
Proof.
  intros [H S] (u & b & tasks & l & Hu & B & T & ->).
  assert (Lk : (k < length (Civ_units c))%nat) by (apply nth_error_Some; congruence).
  assert (U : cells_ok (Unit_layout v u) /\ Unit_shape v u).
  { split.
    - unfold Civ_layout in H. rewrite !cells_ok_app in H. destruct H as (_ & _ & _ & _ & H). unfold slots in H. rewrite cells_ok_flat_map in H.
      rewrite Forall_forall in H. exact (H _ (nth_in _ _ _ Hu)).
    - unfold Civ_shape in S. rewrite Forall_forall in S. exact (S _ (nth_in _ _ _ Hu)). }
  destruct (unit_pop_ok v u b tasks l U B T) as [C Sh]. revert C Sh. generalize (with_Unit_bird (Some (with_Bird_tasks tasks b)) u). intros u' C Sh.
  unfold Civ_layout, Civ_shape in *.
  replace (Civ_player_type (with_Civ_units _ c)) with (Civ_player_type c) by (destruct c; reflexivity).
  replace (Civ_name (with_Civ_units _ c)) with (Civ_name c) by (destruct c; reflexivity).
  replace (Civ_resources (with_Civ_units _ c)) with (Civ_resources c) by (destruct c; reflexivity).
  replace (Civ_tech_tree_id (with_Civ_units _ c)) with (Civ_tech_tree_id c) by (destruct c; reflexivity).
  replace (Civ_team_bonus_id (with_Civ_units _ c)) with (Civ_team_bonus_id c) by (destruct c; reflexivity).
  replace (Civ_icon_set (with_Civ_units _ c)) with (Civ_icon_set c) by (destruct c; reflexivity).
  replace (Civ_units (with_Civ_units (set_nth k (Some u') (Civ_units c)) c)) with (set_nth k (Some u') (Civ_units c)) by (destruct c; reflexivity).
  rewrite count_set_nth by exact Lk. rewrite (flags_same k u) by exact Hu. rewrite !cells_ok_app in *. split.
  - destruct H as (H1 & H2 & H3 & H4 & H5). split; [exact H1|]. split; [exact H2|]. split; [exact H3|]. split; [exact H4|].
    unfold slots in *. rewrite cells_ok_flat_map in *. apply Forall_set_nth; [exact H5|exact C].
  - apply Forall_set_nth; [exact S|exact Sh].
Qed.
Lemma same_length {A B} (R : A -> B -> Prop) l m : Forall2 R l m -> length l = length m.
Proof. induction 1; cbn; congruence. Qed.
(** The edited file can be saved, and loads as edited. *)
Theorem C32_tasks : forall k x y, DatFile_wf x -> pop_tasks k x = Ok y -> exists bs, to_bytes y = Ok bs /\ from_bytes bs = Ok y.
Proof.
  intros k x y W E. apply C32_tasks_only in E as (l & -> & F). apply wf_iff_survives.
  destruct (file_version (DatFile_version x)) as [u|] eqn:V.
  2:{ destruct W as [_ S]. unfold DatFile_shape in S. rewrite V in S. contradiction. }
  destruct (wf_parts u x W V) as ((G & C) & _). apply (with_civs_wf u x l W V).
  - clear -F G. induction F as [|c d cs ds H F IH]; [constructor|]. inversion G; subst. constructor; [|auto]. exact (civ_pop_ok u k c d ltac:(assumption) H).
  - unfold count in *. rewrite <- (same_length _ _ _ F). exact C.
Qed.
(** ** How much shorter the file gets: the size of a task for every civilisation *)
Definition task_bytes (v : Version) : nat := if since 88 v then 69 else 67.
Lemma total_more {A} (size : A -> nat) a l : total size (a :: l) = (size a + total size l)%nat.
Proof. reflexivity. Qed.
Lemma total_set_nth {A} (size : A -> nat) i a z l : nth_error l i = Some a -> (total size (set_nth i z l) + size a = total size l + size z)%nat.
Proof.
  revert i. induction l as [|b l IH]; intros [|i] H; try discriminate.
  - cbn [nth_error] in H. injection H as ->. change (set_nth 0 z (a :: l)) with (z :: l). rewrite !total_more. lia.
  - change (set_nth (S i) z (b :: l)) with (b :: set_nth i z l). specialize (IH i H). rewrite !total_more. lia.
Qed.
Lemma bird_pop_size v b tasks last : Bird_tasks b = tasks ++ [last] -> (Bird_size v (with_Bird_tasks tasks b) + task_bytes v = Bird_size v b)%nat.
Proof.
  intros E. unfold Bird_size. rewrite E. replace (Bird_drop_sites (with_Bird_tasks tasks b)) with (Bird_drop_sites b) by (destruct b; reflexivity).
  replace (Bird_tasks (with_Bird_tasks tasks b)) with tasks by (destruct b; reflexivity).
  assert (T : (total (Task_size v) (tasks ++ [last]) = total (Task_size v) tasks + task_bytes v)%nat).
  { clear. induction tasks as [|t ts IH]; cbn [app]; rewrite !total_more; [|lia]. unfold task_bytes, Task_size, from. destruct (since 88 v); reflexivity. }
  rewrite T. lia.
Qed.
Lemma assoc5 m x a b c d : (m + x + a + b + c + d = m + x + (a + b + c + d))%nat.
Proof. lia. Qed.
Lemma assoc3 m x a b : (m + x + a + b = m + x + (a + b))%nat.
Proof. lia. Qed.
Lemma unit_bird_size v u b b' : Unit_bird u = Some b -> has_bird (Unit_type u) = true ->
  (Unit_size v (with_Unit_bird (Some b') u) + Bird_size v b = Unit_size v u + Bird_size v b')%nat.
Proof.
  intros B H. assert (G : exists m n, forall o, Unit_size v (with_Unit_bird o u) = (m + when (has_bird (Unit_type u)) (if_some (Bird_size v) o) + n)%nat).
  { destruct u. unfold Unit_size.
    cbn [with_Unit_bird M_Unit.Unit_type M_Unit.Unit_id M_Unit.Unit_language_dll_name M_Unit.Unit_language_dll_creation M_Unit.Unit_class_ M_Unit.Unit_standing_graphic M_Unit.Unit_dying_graphic M_Unit.Unit_undead_graphic M_Unit.Unit_undead_mode M_Unit.Unit_hit_points M_Unit.Unit_line_of_sight M_Unit.Unit_garrison_capacity M_Unit.Unit_collision_size_x M_Unit.Unit_collision_size_y M_Unit.Unit_collision_size_z M_Unit.Unit_train_sound M_Unit.Unit_damage_sound M_Unit.Unit_dead_unit_id M_Unit.Unit_blood_unit_id M_Unit.Unit_sort_number M_Unit.Unit_can_be_built_on M_Unit.Unit_icon_id M_Unit.Unit_hide_in_editor M_Unit.Unit_old_portrait_pict M_Unit.Unit_enabled M_Unit.Unit_disabled M_Unit.Unit_placement_side_terrain M_Unit.Unit_placement_terrain M_Unit.Unit_clearance_size M_Unit.Unit_hill_mode M_Unit.Unit_fog_visibility M_Unit.Unit_terrain_restriction M_Unit.Unit_fly_mode M_Unit.Unit_resource_capacity M_Unit.Unit_resource_decay M_Unit.Unit_blast_defense_level M_Unit.Unit_combat_level M_Unit.Unit_interaction_mode M_Unit.Unit_minimap_mode M_Unit.Unit_interface_kind M_Unit.Unit_multiple_attribute_mode M_Unit.Unit_minimap_color M_Unit.Unit_language_dll_help M_Unit.Unit_language_dll_hotkey_text M_Unit.Unit_hot_key M_Unit.Unit_recyclable M_Unit.Unit_enable_auto_gather M_Unit.Unit_create_doppelganger_on_death M_Unit.Unit_resource_gather_group M_Unit.Unit_occlusion_mode M_Unit.Unit_obstruction_type M_Unit.Unit_obstruction_class M_Unit.Unit_trait M_Unit.Unit_civilization M_Unit.Unit_nothing M_Unit.Unit_selection_effect M_Unit.Unit_editor_selection_colour M_Unit.Unit_outline_size_x M_Unit.Unit_outline_size_y M_Unit.Unit_outline_size_z M_Unit.Unit_scenario_triggers_1 M_Unit.Unit_scenario_triggers_2 M_Unit.Unit_resource_storages M_Unit.Unit_damage_graphics M_Unit.Unit_selection_sound M_Unit.Unit_dying_sound M_Unit.Unit_wwise_train_sound_id M_Unit.Unit_wwise_damage_sound_id M_Unit.Unit_wwise_selection_sound_id M_Unit.Unit_wwise_dying_sound_id M_Unit.Unit_old_attack_reaction M_Unit.Unit_convert_terrain M_Unit.Unit_name M_Unit.Unit_copy_id M_Unit.Unit_base_id M_Unit.Unit_speed M_Unit.Unit_dead_fish M_Unit.Unit_bird M_Unit.Unit_type_50 M_Unit.Unit_projectile M_Unit.Unit_creatable M_Unit.Unit_building]. 
    match goal with |- exists m n, forall o, (?m + _ + ?a + ?b + ?c + ?d = _)%nat => exists m, (a + b + c + d)%nat; intros o; apply (assoc5 m _ a b c d) end. }
  destruct G as (m & n & G'). pose proof (G' (Unit_bird u)) as G0. rewrite unit_bird_same, B, H in G0. rewrite (G' (Some b')), G0, H. cbn [when if_some]. lia.
Qed.

Lemma civ_pop_size v k c d : Civ_shape v c -> without_last_task k c d -> (Civ_size v d + task_bytes v = Civ_size v c)%nat.
Proof.
  intros S (u & b & tasks & l & Hu & B & T & ->).
  assert (Su : Unit_shape v u). { unfold Civ_shape in S. rewrite Forall_forall in S. exact (S _ (nth_in _ _ _ Hu)). }
  pose proof (unit_bird_size v u b (with_Bird_tasks tasks b) B (unit_has_bird v u b Su B)) as E1. pose proof (bird_pop_size v b tasks l T) as E2.
  revert E1 E2. generalize (with_Unit_bird (Some (with_Bird_tasks tasks b)) u). intros u' E1 E2.
  unfold Civ_size.
  replace (Civ_name (with_Civ_units _ c)) with (Civ_name c) by (destruct c; reflexivity).
  replace (Civ_resources (with_Civ_units _ c)) with (Civ_resources c) by (destruct c; reflexivity).
  replace (Civ_units (with_Civ_units (set_nth k (Some u') (Civ_units c)) c)) with (set_nth k (Some u') (Civ_units c)) by (destruct c; reflexivity).
  pose proof (total_set_nth (if_some (Unit_size v)) k (Some u) (Some u') (Civ_units c) Hu) as E3. cbn [if_some] in E3.
  rewrite length_set_nth by (apply nth_error_Some; congruence). clear -E1 E2 E3. lia.
Qed.
Theorem C32_tasks_size : forall k x y bx by_, DatFile_wf x -> pop_tasks k x = Ok y -> to_bytes x = Ok bx -> to_bytes y = Ok by_ ->
  exists v, file_version (DatFile_version x) = Some v /\
    length bx = (length by_ + length (DatFile_civs x) * (if since 88 v then 69 else 67))%nat.
Proof.
  intros k x y bx by_ W E Ex Ey. apply C32_tasks_only in E as (l & -> & F).
  destruct (C08_DatFile _ _ Ex) as (v & V & Lx). destruct (C08_DatFile _ _ Ey) as (v' & V' & Ly).
  replace (DatFile_version (with_DatFile_civs l x)) with (DatFile_version x) in V' by (destruct x; reflexivity).
  assert (v' = v) by congruence. subst v'. exists v. split; [exact V|]. rewrite Lx, Ly. fold (task_bytes v).
  destruct (wf_parts v x W V) as ((G & _) & _).
  assert (T : (total (Civ_size v) l + length (DatFile_civs x) * task_bytes v = total (Civ_size v) (DatFile_civs x))%nat).
  { clear -F G. induction F as [|c d cs ds H F IH]; [reflexivity|]. inversion G as [|? ? [_ S] G']; subst. specialize (IH G').
    pose proof (civ_pop_size v k c d S H). rewrite !total_more. cbn [length]. lia. }
  assert (D : exists m n, forall cs, DatFile_size v (with_DatFile_civs cs x) = (m + total (Civ_size v) cs + n)%nat).
  { destruct x. unfold DatFile_size. cbn [with_DatFile_civs M_DatFile.DatFile_version M_DatFile.DatFile_terrain_restrictions M_DatFile.DatFile_player_colours
      M_DatFile.DatFile_sounds M_DatFile.DatFile_graphics M_DatFile.DatFile_terrain_block M_DatFile.DatFile_random_maps M_DatFile.DatFile_effects
      M_DatFile.DatFile_unit_headers M_DatFile.DatFile_civs M_DatFile.DatFile_techs M_DatFile.DatFile_tech_tree].
    
    match goal with |- exists m n, forall o, (?m + _ + ?a + ?b = _)%nat => exists m, (a + b)%nat; intros o; apply (assoc3 m _ a b) end. }
  destruct D as (m & n & D). pose proof (D (DatFile_civs x)) as Dx.
  replace (with_DatFile_civs (DatFile_civs x) x) with x in Dx by (destruct x; reflexivity).
  rewrite Dx, D. clear -T. lia.
Qed.
(** The whole README program: load, remove, save, load again. *)
Theorem C32_tasks_file : forall deflate inflate, inverts inflate deflate ->
  forall f p q k x y f', parse inflate f p = Ok x -> pop_tasks k x = Ok y -> saved deflate y q f f' ->
  parse inflate f' q = Ok y /\ same_but q f f'.
Proof.
  intros deflate inflate Z f p q k x y f' P E S.
  assert (W : DatFile_wf x).
  { unfold parse in P. destruct (f p) as [c|]; [|discriminate]. destruct (inflate c) as [d|]; [|discriminate]. exact (from_bytes_wf d x P). }
  apply (C27_save_parse deflate inflate Z y q f f'); [|exact S]. apply wf_iff_survives. exact (C32_tasks k x y W E).
Qed.

(** ** The cases *)
Lemma cost_case x i j t c : DatFile_wf x -> nth_error (DatFile_techs x) i = Some t -> nth_error (Tech_resource_costs t) j = Some c ->
  exists y z bx by_ bz, set_cost i j 25 x = Ok y /\ set_cost i j (-300) x = Ok z /\ to_bytes x = Ok bx /\ to_bytes y = Ok by_ /\ to_bytes z = Ok bz
    /\ from_bytes by_ = Ok y /\ from_bytes bz = Ok z /\ by_ <> bz /\ length by_ = length bx /\ length bz = length bx.
Proof.
  intros W Ht Hc. assert (S : forall a, exists y, set_cost i j a x = Ok y).
  { intros a. unfold set_cost, get_nth. rewrite Ht. cbn [rbind]. rewrite Hc. eexists. reflexivity. }
  destruct (S 25) as [y Ey]. destruct (S (-300)) as [z Ez].
  destruct (C32_cost x i j 25 y W ltac:(lia) Ey) as (by_ & Ty & Fy). destruct (C32_cost x i j (-300) z W ltac:(lia) Ez) as (bz & Tz & Fz).
  destruct (dat_round_trip_bytes x W) as (bx & Tx & _).
  exists y, z, bx, by_, bz. split; [exact Ey|]. split; [exact Ez|]. split; [exact Tx|]. split; [exact Ty|]. split; [exact Tz|]. split; [exact Fy|].
  split; [exact Fz|].
  destruct (C32_cost_bytes x i j 25 y bx by_ Ey Tx Ty) as (p1 & b1 & c1 & q1 & -> & Y & L1 & M1 & _).
  destruct (C32_cost_bytes x i j (-300) z _ bz Ez Tx Tz) as (p2 & b2 & c2 & q2 & X & Z' & L2 & M2 & _).
  split; [|split].
  - intros ->. rewrite Fy in Fz. injection Fz as ->. destruct (C32_cost_only x i j 25 z Ey) as ((t1 & d1 & A1 & B1 & C1) & _).
    destruct (C32_cost_only x i j (-300) z Ez) as ((t2 & d2 & A2 & B2 & C2) & _). congruence.
  - rewrite Y, !app_length. clear -L1 M1. lia.
  - rewrite X, Z', !app_length. clear -L2 M2. lia.
Qed.
(** Two amounts in the sample file of any version. *)
Example C32_cost_case : forall v, v <> UNDEFINED -> exists y z bx by_ bz,
  set_cost 0 0 25 (sample v) = Ok y /\ set_cost 0 0 (-300) (sample v) = Ok z /\ to_bytes (sample v) = Ok bx /\ to_bytes y = Ok by_ /\ to_bytes z = Ok bz
    /\ from_bytes by_ = Ok y /\ from_bytes bz = Ok z /\ by_ <> bz /\ length by_ = length bx /\ length bz = length bx.
Proof. intros v H. destruct (sample_techs_0 v) as (t & c & Ht & Hc). exact (cost_case (sample v) 0 0 t c (sample_wf v H) Ht Hc). Qed.

Lemma sample_pops v : exists y, pop_tasks 0 (sample v) = Ok y /\ length (DatFile_civs (sample v)) = 2%nat.
Proof.
  assert (P : exists d, pop_task 0 (sample_Civ v) = Ok d).
  { unfold pop_task. cbn [sample_Civ Civ_units get_nth nth_error rbind the].
    replace (Unit_bird (sample_Unit v 70)) with (Some (sample_Bird v)) by reflexivity. cbn [the rbind]. eexists. reflexivity. }
  destruct P as [d P]. exists (with_DatFile_civs [d; d] (sample v)). split; [|reflexivity].
  unfold pop_tasks. replace (DatFile_civs (sample v)) with [sample_Civ v; sample_Civ v] by reflexivity.
  cbn [pop_tasks_of]. rewrite P. reflexivity.
Qed.
Lemma tasks_case k x y : DatFile_wf x -> pop_tasks k x = Ok y -> length (DatFile_civs x) = 2%nat ->
  exists bx by_, to_bytes x = Ok bx /\ to_bytes y = Ok by_ /\ from_bytes by_ = Ok y /\ (length by_ < length bx)%nat.
Proof.
  intros W E L. destruct (C32_tasks k x y W E) as (by_ & T & F). destruct (dat_round_trip_bytes x W) as (bx & Tx & _).
  exists bx, by_. split; [exact Tx|]. split; [exact T|]. split; [exact F|]. destruct (C32_tasks_size k x y bx by_ W E Tx T) as (v & _ & S).
  rewrite L in S. destruct (since 88 v); lia.
Qed.
(** The first unit of both civilisations of the sample file has tasks. *)
Example C32_tasks_case : forall v, v <> UNDEFINED -> exists y bx by_,
  pop_tasks 0 (sample v) = Ok y /\ to_bytes (sample v) = Ok bx /\ to_bytes y = Ok by_ /\ from_bytes by_ = Ok y /\ (length by_ < length bx)%nat.
Proof.
  intros v H. destruct (sample_pops v) as (y & E & L). exists y. destruct (tasks_case 0 (sample v) y (sample_wf v H) E L) as (bx & by_ & K).
  exists bx, by_. split; [exact E|exact K].
Qed.
Definition all_of_this_file := (C32_cost, C32_cost_only, C32_cost_bytes, C32_cost_file, C32_cost_refused, C32_tasks, C32_tasks_only, C32_tasks_size,
  C32_tasks_file, C32_cost_case, C32_tasks_case).
Print Assumptions all_of_this_file.
