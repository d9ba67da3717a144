(** * Codec of the whole data file. *)
From Verif Require Import Base PyInt PyFloat PyStr PyStruct DataTypes Versions Common Wire Layout Shape.
From Verif Require Import Codec CodecP CodecF CodecC P_Simple P_More P_Unit P_UnitR P_Civ.
From Verif Require Import M_Sound M_PlayerColour M_Effect M_TerrainRestriction M_Graphic
  M_TerrainBlock M_RandomMaps M_Task M_UnitHeaders M_Unit M_Civ M_Tech M_TechTree M_DatFile.
From Coq Require Import ZifyBool.
Open Scope Z_scope.
Local Open Scope list_scope.
Local Notation length := List.length.

(** ** Version strings *)
Lemma str_compare_eq a b : str_compare a b = Eq <-> a = b.
Proof.
  revert b; induction a as [|x a IH]; intros [|y b]; cbn; try (split; congruence).
  destruct (Z.compare_spec x y).
  - subst. rewrite IH. split; congruence.
  - split; [discriminate|]. intros E. injection E as -> _. lia.
  - split; [discriminate|]. intros E. injection E as -> _. lia.
Qed.
Lemma find_ext {A} (f g : A -> bool) l : (forall x, f x = g x) -> find f l = find g l.
Proof. intros H. induction l as [|x l IH]; cbn; [reflexivity|]. rewrite H, IH. reflexivity. Qed.
Lemma version_lookup_spec s : version_lookup s = match file_version s with Some v => Ok v | None => Err ValueError end.
Proof.
  unfold version_lookup, file_version.
  rewrite (find_ext (fun v => str_eqb (version_value v) s)
    (fun v => if list_eq_dec Z.eq_dec (version_value v) s then true else false)); [reflexivity|].
  intros v. unfold str_eqb. destruct (list_eq_dec Z.eq_dec (version_value v) s) as [e|n].
  - apply str_compare_eq in e. rewrite e. reflexivity.
  - destruct (str_compare (version_value v) s) eqn:E; try reflexivity. apply str_compare_eq in E. contradiction.
Qed.

(** datfile.py:64-114: what follows the header. *)
Definition read_body (version : pystr) : rd DatFile :=
  terrain_restrictions_size <- read_int_16 true ;;
  terrains_used_1 <- read_int_16 true ;;
  float_ptr_terrain_tables <- read_int_32_array terrain_restrictions_size ;;
  terrain_pass_graphic_pointers <- read_int_32_array terrain_restrictions_size ;;
  terrain_restrictions <- read_class_array_with_param TerrainRestriction_from_bytes_with_count terrain_restrictions_size terrains_used_1 ;;
  _ <- note ((terrain_restrictions_size <=? 0) && negb (terrains_used_1 =? 0)) TerrainCount ;; (* ghost *)
  player_colours_size <- read_int_16 true ;;
  player_colours <- read_class_array PlayerColour_from_bytes player_colours_size ;;
  sounds_size <- read_int_16 true ;;
  sounds <- read_class_array Sound_from_bytes sounds_size ;;
  graphics_size <- read_int_16 true ;;
  graphic_pointers <- read_int_32_array graphics_size ;;
  graphics <- read_class_array_with_pointers Graphic_from_bytes graphics_size graphic_pointers ;;
  terrain_block <- read_class TerrainBlock_from_bytes ;;
  random_maps <- read_class RandomMaps_from_bytes ;;
  effects_size <- read_int_32 true ;;
  effects <- read_class_array Effect_from_bytes effects_size ;;
  unit_headers_size <- read_int_32 true ;;
  unit_headers <- read_class_array UnitHeaders_from_bytes unit_headers_size ;;
  civs_size <- read_int_16 true ;;
  civs <- read_class_array Civ_from_bytes civs_size ;;
  techs_size <- read_int_16 true ;;
  techs <- read_class_array Tech_from_bytes techs_size ;;
  time_slice <- read_int_32 true ;;
  unit_kill_rate <- read_int_32 true ;;
  unit_kill_total <- read_int_32 true ;;
  unit_hit_point_rate <- read_int_32 true ;;
  unit_hit_point_total <- read_int_32 true ;;
  razing_kill_rate <- read_int_32 true ;;
  razing_kill_total <- read_int_32 true ;;
  tech_tree <- read_class TechTree_from_bytes ;;
  ret {| DatFile_version := version;
     DatFile_float_ptr_terrain_tables := float_ptr_terrain_tables;
     DatFile_terrain_pass_graphic_pointers := terrain_pass_graphic_pointers;
     DatFile_terrain_restrictions := terrain_restrictions;
     DatFile_player_colours := player_colours;
     DatFile_sounds := sounds;
     DatFile_graphics := graphics;
     DatFile_terrain_block := terrain_block;
     DatFile_random_maps := random_maps;
     DatFile_effects := effects;
     DatFile_unit_headers := unit_headers;
     DatFile_civs := civs;
     DatFile_techs := techs;
     DatFile_time_slice := time_slice;
     DatFile_unit_kill_rate := unit_kill_rate;
     DatFile_unit_kill_total := unit_kill_total;
     DatFile_unit_hit_point_rate := unit_hit_point_rate;
     DatFile_unit_hit_point_total := unit_hit_point_total;
     DatFile_razing_kill_rate := razing_kill_rate;
     DatFile_razing_kill_total := razing_kill_total;
     DatFile_tech_tree := tech_tree |}.

Lemma from_bytes_split h : DatFile_from_bytes h =
  bind (read_string 8) (fun version => bind (lift (version_lookup version)) (fun parsed =>
    bind (set_version parsed) (fun _ => read_body version))) h.
Proof. reflexivity. Qed.

(** ** Writer *)
Definition DatFile_arity (x : DatFile) : Prop := Forall Civ_arity (DatFile_civs x).
Lemma DatFile_lay x w : DatFile_arity x -> Lay (DatFile_to_bytes x w) (DatFile_layout x).
Proof.
  intros H. unfold DatFile_arity in H. unfold DatFile_to_bytes, DatFile_layout. rewrite version_lookup_spec.
  destruct (file_version (DatFile_version x)) as [v|]; [|reflexivity]. cbn [rbind]. cbv zeta.
  change @len with @count. unfold py_assert.
  match goal with |- Lay (rbind (if ?a then _ else _) _) (guard ?b _) => assert (E : a = b) by (clear; generalize (count (DatFile_float_ptr_terrain_tables x)), (count (DatFile_terrain_pass_graphic_pointers x)), (count (DatFile_terrain_restrictions x)); intros; repeat match goal with |- context [Z.eqb ?p ?q] => destruct (Z.eqb_spec p q) end; cbn; congruence); rewrite E; destruct b end;
    [|reflexivity].
  cbn [rbind guard]. unfold DatFile_body.
  assert (Ht : (if nonempty (DatFile_terrain_restrictions x) then
      first <-- py_index (DatFile_terrain_restrictions x) 0 ;;;
      Ok (count (TerrainRestriction_passable_buildable_dmg_multiplier first))
     else Ok 0) = Ok (terrains_used x)).
  { unfold terrains_used. destruct (DatFile_terrain_restrictions x); reflexivity. }
  rewrite Ht. cbn [rbind]. change (DatFile_graphic_pointers x) with (map flag_of (DatFile_graphics x)).
  rewrite flags_map. apply Lay_nil_r; norm_cells.
  apply Lay_join_cons; [apply Lay_padded; lia|].
  repeat first [apply Lay_join_app; [apply Lay_class_array, Forall_True; intros; apply TerrainRestriction_lay|] | lay_step].
Qed.


(** ** Reader, towards *)
Lemma count_map {A B} (f : A -> B) l : count (map f l) = count l.
Proof. unfold count. rewrite map_length. reflexivity. Qed.
Lemma DatFile_body_parses v x :
  count (DatFile_float_ptr_terrain_tables x) = count (DatFile_terrain_restrictions x) ->
  count (DatFile_terrain_pass_graphic_pointers x) = count (DatFile_terrain_restrictions x) ->
  DatFile_body_shape v x -> Parses v (DatFile_body v x) (read_body (DatFile_version x)) x.
Proof.
  intros E1 E2 (H1 & H2 & H3 & H4 & H5 & H6 & H7 & H8).
  unfold read_body, DatFile_body. rewrite flags_map.
  assert (Ht : 0 <= terrains_used x).
  { unfold terrains_used. destruct (DatFile_terrain_restrictions x); [lia|apply count_nonneg]. }
  assert (Hz : DatFile_terrain_restrictions x = [] -> terrains_used x = 0) by (unfold terrains_used; intros ->; reflexivity).
  set (t := terrains_used x) in *. clearbody t. destruct x; cbn in *.
  apply Parses_nil_r; norm_cells. do 4 parses_step.
  eapply Parses_bind.
  { unfold read_class_array_with_param. apply Parses_for_range; [side_count|].
    intros r Hin. rewrite Forall_forall in H1. pose proof (H1 r Hin) as Hr. apply TerrainRestriction_parses; [exact Ht|].
    unfold TerrainRestriction_count. lia. }
  apply Parses_note.
  { destruct DatFile_terrain_restrictions as [|r rs]; [rewrite (Hz eq_refl); apply andb_false_r|].
    unfold count. cbn [length]. clear. lia. }
  repeat parses_step.
  eapply Parses_bind; [apply Parses_i32_array; rewrite count_map; reflexivity|]. repeat parses_step.
Qed.
Lemma DatFile_parses x : DatFile_wf x -> exists v bs,
  file_version (DatFile_version x) = Some v /\ encode (DatFile_layout x) = Some bs /\
  forall pre post v0 ls,
    DatFile_from_bytes (mkHandler (pre ++ bs ++ post) (length pre) v0 ls)
    = Ok (x, mkHandler (pre ++ bs ++ post) (length pre + length bs) v ls).
Proof.
  intros [Hc Hs]. unfold DatFile_shape in Hs. unfold DatFile_layout in *.
  destruct (file_version (DatFile_version x)) as [v|] eqn:Ev; [|contradiction].
  apply cells_ok_guard in Hc. destruct Hc as [Hg Hc]. rewrite Hg. cbn [guard].
  apply andb_true_iff in Hg. destruct Hg as [G1 G2]. apply Z.eqb_eq in G1, G2.
  cbn [app] in *. apply cells_ok_cons in Hc. destruct Hc as [Hp Hb].
  destruct (DatFile_body_parses v x G1 G2 Hs Hb) as (b2 & E2 & R2).
  assert (Hp1 : cells_ok [Padded 8 (DatFile_version x)]) by (apply cells_ok_cons; split; [exact Hp|reflexivity]).
  exists v. destruct (Parses_padded v 8 _ Hp1) as (b1 & E1 & _).
  exists (b1 ++ b2). split; [reflexivity|]. split; [rewrite encode_cons; rewrite encode_one in E1; rewrite E1, E2; reflexivity|].
  intros pre post v0 ls. rewrite from_bytes_split.
  destruct (Parses_padded v0 8 _ Hp1) as (b1' & E1' & R1). rewrite E1 in E1'. injection E1' as <-.
  pose proof (R1 pre (b2 ++ post) ls) as R1'. unfold bind at 1. rewrite <- app_assoc. rewrite R1'.
  unfold bind, lift, set_version. rewrite version_lookup_spec, Ev. cbn [h_content h_offset h_losses].
  pose proof (R2 (pre ++ b1) post ls) as R2'. rewrite app_length, <- app_assoc in R2'. rewrite R2'.
  rewrite app_length, Nat.add_assoc. reflexivity.
Qed.

(** ** Reader, from *)
Definition BodyK (v : Version) (s : pystr) (P : Prop) (x : DatFile) (cs : list cell) : Prop :=
  DatFile_version x = s /\
  count (DatFile_float_ptr_terrain_tables x) = count (DatFile_terrain_restrictions x) /\
  count (DatFile_terrain_pass_graphic_pointers x) = count (DatFile_terrain_restrictions x) /\
  cells_ok (DatFile_body v x) /\ DatFile_body_shape v x /\
  (P -> cs = DatFile_body v x).
Lemma restrictions_read v n t :
  Fwd v (read_class_array_with_param TerrainRestriction_from_bytes_with_count n t) (fun P l cs =>
    (P -> cs = flat_map (TerrainRestriction_layout v) l /\ n = count l /\ (l <> [] -> 0 <= t)) /\
    cells_ok (flat_map (TerrainRestriction_layout v) l) /\
    Forall (TerrainRestriction_count t) l /\ count l = Z.max 0 n).
Proof.
  unfold read_class_array_with_param, for_range. apply Fwd_note_bind.
  eapply Fwd_weaken; [apply (Fwd_loop_gen v _ (TerrainRestriction_layout v) (TerrainRestriction_count t) (0 <= t)),
    TerrainRestriction_reads|].
  cbv beta. intros P l cs (H & O & S & L). split; [|split; [exact O|split; [exact S|unfold count; lia]]].
  intros [E p]. destruct (H p) as [H1 H2]. split; [exact H1|]. split; [unfold count; lia|exact H2].
Qed.
Lemma DatFile_body_reads v s : Fwd v (read_body s) (BodyK v s).
Proof.
  unfold read_body. do 4 fwd_step.
  eapply Fwd_bind; [apply restrictions_read|].
  cbv beta. intros Pr lr cr Hr. split_ands. apply Fwd_note_bind.
  repeat fwd_step. apply Fwd_ret. unfold BodyK. cbn.
  match goal with |- context [DatFile_body v ?r] => set (X := r) in * end.
  assert (T : terrains_used X = if nonempty lr then Z.max 0 x0 else 0).
  { unfold terrains_used, X. cbn. destruct lr as [|r lr']; [reflexivity|]. cbn.
    inversion H7; subst. assumption. }
  assert (Ok0 : cell_ok (I16 (terrains_used X)) = true).
  { rewrite T. revert Hx0. clear. cbv [cell_ok]. rewrite !within_spec. destruct (nonempty lr); lia. }
  split; [reflexivity|]. split; [clear -H1 H8; lia|]. split; [clear -H4 H8; lia|]. split; [|split].
  - unfold DatFile_body. set (T0 := terrains_used X) in *; clearbody T0; subst X; cbn. ok_cells.
  - unfold DatFile_body_shape. rewrite T. subst X. cbn. repeat split; try assumption; try apply H48.
    all: try (apply Forall_forall; intros r Hin; rewrite Forall_forall in H7; rewrite (H7 r Hin); destruct lr; [destruct Hin|reflexivity]).
    all: first [apply H26|apply H29|idtac].
  - intros HQ. assert (Et : x0 = terrains_used X).
    { rewrite T. destruct HQ as (_ & _ & Q & N & _). destruct (H5 Q) as (_ & Hc & Hz). destruct lr; cbn [nonempty].
      - unfold count in Hc. cbn in Hc. clear -N Hc. lia.
      - specialize (Hz ltac:(discriminate)). clear -Hz; lia. }
    unfold DatFile_body. rewrite <- Et. clear T Ok0 Et. subst X. cbn.
    revert HQ. use_quiet. rewrite flags_map. rewrite count_map in *. congruence.
Qed.

Lemma DatFile_layout_eq x v : file_version (DatFile_version x) = Some v ->
  count (DatFile_float_ptr_terrain_tables x) = count (DatFile_terrain_restrictions x) ->
  count (DatFile_terrain_pass_graphic_pointers x) = count (DatFile_terrain_restrictions x) ->
  DatFile_layout x = Padded 8 (DatFile_version x) :: DatFile_body v x.
Proof.
  intros E A B. unfold DatFile_layout. rewrite E, A, B, Z.eqb_refl. reflexivity.
Qed.
(** Whatever is read is well formed. *)
Lemma DatFile_reads h x h' : DatFile_from_bytes h = Ok (x, h') ->
  h_content h' = h_content h /\ (exists ls, h_losses h' = ls ++ h_losses h) /\
  file_version (DatFile_version x) = Some (h_version h') /\ DatFile_wf x /\
  (quiet h h' -> took h h' (DatFile_layout x)).
Proof.
  rewrite from_bytes_split. unfold bind at 1. destruct (read_string 8 h) as [[s h1]|] eqn:E1; [|discriminate].
  destruct (Fwd_padded (h_version h) 8 h s h1 eq_refl E1) as ((C1 & V1 & ls1 & L1) & P & cs & (Ok1 & ->) & Q1).
  unfold bind at 1, lift. rewrite version_lookup_spec. destruct (file_version s) as [v|] eqn:Ev; [|discriminate].
  unfold bind, set_version. set (h2 := mkHandler _ _ _ _). intros E2.
  destruct (DatFile_body_reads v s h2 x h' eq_refl E2) as ((C2 & V2 & ls2 & L2) & P2 & cs & K & Q2).
  destruct K as (Ks & K1 & K2 & K3 & K4 & K5). cbn [h_version h2] in V2. rewrite V2, Ks in *.
  split; [rewrite C2; exact C1|]. split; [exists (ls2 ++ ls1); rewrite L2; cbn; rewrite L1, app_assoc; reflexivity|].
  split; [exact Ev|]. split.
  - unfold DatFile_wf, DatFile_shape. rewrite (DatFile_layout_eq x v) by (rewrite ?Ks; assumption).
    rewrite Ks, Ev. split; [|exact K4]. apply cells_ok_cons. split; assumption.
  - intros Q. assert (Qa : quiet h h1 /\ quiet h2 h').
    { unfold quiet in *. cbn [h_losses h2] in *. rewrite L2 in Q. cbn [h_losses h2] in Q. rewrite L1, app_assoc in Q.
      apply app_self_nil in Q. apply app_eq_nil in Q. destruct Q as [-> ->]. rewrite L2. cbn. split; [exact L1|reflexivity]. }
    destruct Qa as [Qa Qb]. destruct (Q1 Qa) as (p & T1). destruct (Q2 Qb) as (p2 & T2).
    rewrite (DatFile_layout_eq x v), Ks by (rewrite ?Ks; assumption). rewrite (K5 p2) in T2.
    apply (took_app h h1 h' [Padded 8 s] _ C1 T1). exact T2.
Qed.
