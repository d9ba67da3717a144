(** * The reader of a data file, section by section. *)
From Verif Require Import Base PyInt PyFloat PyStr PyStruct DataTypes Versions Common Wire Layout Shape Spec.
From Verif Require Import M_Sound M_PlayerColour M_Effect M_TerrainRestriction M_Graphic
  M_TerrainBlock M_RandomMaps M_Task M_UnitHeaders M_Unit M_Civ M_Tech M_TechTree M_DatFile.
From Verif Require Import Codec CodecP CodecF CodecC P_Simple P_More P_Unit P_UnitR P_Civ P_DatFile Theory.
Open Scope Z_scope.
Local Open Scope list_scope.
Local Notation length := List.length.

(** ** Runs *)
(** On the content [c] at offset [o], [m] returns [x], stops at [o'] and records [new]. *)
Definition run {A} (m : rd A) (c : bytes) (v : Version) (o : nat) (x : A) (o' : nat) (new : list loss) : Prop :=
  forall ls, m (mkHandler c o v ls) = Ok (x, mkHandler c o' v (new ++ ls)).
Lemma run_ret {A} (x : A) c v o : run (ret x) c v o x o [].
Proof. intros ls. reflexivity. Qed.
Lemma run_bind {A B} (m : rd A) (k : A -> rd B) c v o x o1 n1 y o2 n2 :
  run m c v o x o1 n1 -> run (k x) c v o1 y o2 n2 -> run (bind m k) c v o y o2 (n2 ++ n1).
Proof. intros H1 H2 ls. unfold bind. rewrite H1, H2, app_assoc. reflexivity. Qed.
Lemma run_ext {A} (m m' : rd A) c v o x o' n : (forall h, m h = m' h) -> run m c v o x o' n -> run m' c v o x o' n.
Proof. intros E H ls. rewrite <- E. apply H. Qed.
Lemma run_parses {A} v cs (m : rd A) x bs pre post : Parses v cs m x -> cells_ok cs -> encode cs = Some bs ->
  run m (pre ++ bs ++ post) v (length pre) x (length pre + length bs) [].
Proof.
  intros H Hc E ls. destruct (H Hc) as (b & Eb & R). rewrite Eb in E. injection E as ->. apply R.
Qed.

(** ** Sections *)
Definition Front : Set := list Z * list Z * list TerrainRestriction * list PlayerColour * list Sound * list (option Graphic).
Definition Closing : Set := Z * Z * Z * Z * Z * Z * Z * TechTree.
Definition read_front : rd Front :=
  terrain_restrictions_size <- read_int_16 true ;;
  terrains_used_1 <- read_int_16 true ;;
  float_ptr_terrain_tables <- read_int_32_array terrain_restrictions_size ;;
  terrain_pass_graphic_pointers <- read_int_32_array terrain_restrictions_size ;;
  terrain_restrictions <- read_class_array_with_param TerrainRestriction_from_bytes_with_count terrain_restrictions_size terrains_used_1 ;;
  _ <- note ((terrain_restrictions_size <=? 0) && negb (terrains_used_1 =? 0)) TerrainCount ;;
  player_colours_size <- read_int_16 true ;;
  player_colours <- read_class_array PlayerColour_from_bytes player_colours_size ;;
  sounds_size <- read_int_16 true ;;
  sounds <- read_class_array Sound_from_bytes sounds_size ;;
  graphics_size <- read_int_16 true ;;
  graphic_pointers <- read_int_32_array graphics_size ;;
  graphics <- read_class_array_with_pointers Graphic_from_bytes graphics_size graphic_pointers ;;
  ret (float_ptr_terrain_tables, terrain_pass_graphic_pointers, terrain_restrictions, player_colours, sounds, graphics).
Definition read_effects : rd (list Effect) := n <- read_int_32 true ;; read_class_array Effect_from_bytes n.
Definition read_headers : rd (list UnitHeaders) := n <- read_int_32 true ;; read_class_array UnitHeaders_from_bytes n.
Definition read_civs : rd (list Civ) := n <- read_int_16 true ;; read_class_array Civ_from_bytes n.
Definition read_techs : rd (list Tech) := n <- read_int_16 true ;; read_class_array Tech_from_bytes n.
Definition read_closing : rd Closing :=
  time_slice <- read_int_32 true ;;
  unit_kill_rate <- read_int_32 true ;;
  unit_kill_total <- read_int_32 true ;;
  unit_hit_point_rate <- read_int_32 true ;;
  unit_hit_point_total <- read_int_32 true ;;
  razing_kill_rate <- read_int_32 true ;;
  razing_kill_total <- read_int_32 true ;;
  tech_tree <- read_class TechTree_from_bytes ;;
  ret (time_slice, unit_kill_rate, unit_kill_total, unit_hit_point_rate, unit_hit_point_total, razing_kill_rate, razing_kill_total, tech_tree).
Definition file_of (s : pystr) (f : Front) (b : TerrainBlock) (m : RandomMaps) (e : list Effect) (u : list UnitHeaders) (c : list Civ) (t : list Tech)
    (z : Closing) : DatFile :=
  let '(f1, f2, f3, f4, f5, f6) := f in
  let '(z1, z2, z3, z4, z5, z6, z7, z8) := z in
  mkDatFile s f1 f2 f3 f4 f5 f6 b m e u c t z1 z2 z3 z4 z5 z6 z7 z8.
Definition front_of (x : DatFile) : Front :=
  (DatFile_float_ptr_terrain_tables x, DatFile_terrain_pass_graphic_pointers x, DatFile_terrain_restrictions x, DatFile_player_colours x,
   DatFile_sounds x, DatFile_graphics x).
Definition closing_of (x : DatFile) : Closing :=
  (DatFile_time_slice x, DatFile_unit_kill_rate x, DatFile_unit_kill_total x, DatFile_unit_hit_point_rate x, DatFile_unit_hit_point_total x,
   DatFile_razing_kill_rate x, DatFile_razing_kill_total x, DatFile_tech_tree x).
Lemma file_of_parts x : x = file_of (DatFile_version x) (front_of x) (DatFile_terrain_block x) (DatFile_random_maps x) (DatFile_effects x)
  (DatFile_unit_headers x) (DatFile_civs x) (DatFile_techs x) (closing_of x).
Proof. destruct x; reflexivity. Qed.
Definition read_parts (s : pystr) : rd DatFile :=
  f <- read_front ;; b <- TerrainBlock_from_bytes ;; m <- RandomMaps_from_bytes ;; e <- read_effects ;; u <- read_headers ;;
  c <- read_civs ;; t <- read_techs ;; z <- read_closing ;; ret (file_of s f b m e u c t z).
Ltac same_reads := repeat match goal with |- context [match ?m ?h with Ok _ => _ | Err _ => _ end] =>
  lazymatch m with bind _ _ => fail | _ => destruct (m h) as [[? ?]|]; [|reflexivity] end end.
Lemma read_parts_eq s h : read_parts s h = read_body s h.
Proof.
  unfold read_parts, read_body, read_front, read_effects, read_headers, read_civs, read_techs, read_closing, read_class.
  unfold bind, ret.
  repeat match goal with |- context [match ?m ?h with Ok _ => _ | Err _ => _ end] =>
    is_var h; destruct (m h) as [[? ?]|]; [|reflexivity] end. reflexivity.
Qed.

(** The tables of the sections. *)
Definition front_cells (v : Version) (x : DatFile) : list cell :=
  [I16 (count (DatFile_terrain_restrictions x)); I16 (terrains_used x)]
  ++ map I32 (DatFile_float_ptr_terrain_tables x)
  ++ map I32 (DatFile_terrain_pass_graphic_pointers x)
  ++ flat_map (TerrainRestriction_layout v) (DatFile_terrain_restrictions x)
  ++ [I16 (count (DatFile_player_colours x))]
  ++ flat_map (PlayerColour_layout v) (DatFile_player_colours x)
  ++ [I16 (count (DatFile_sounds x))]
  ++ flat_map (Sound_layout v) (DatFile_sounds x)
  ++ [I16 (count (DatFile_graphics x))]
  ++ flags (DatFile_graphics x)
  ++ slots (Graphic_layout v) (DatFile_graphics x).
Definition effect_cells v (l : list Effect) := [I32 (count l)] ++ flat_map (Effect_layout v) l.
Definition header_cells v (l : list UnitHeaders) := [I32 (count l)] ++ flat_map (UnitHeaders_layout v) l.
Definition civ_cells v (l : list Civ) := [I16 (count l)] ++ flat_map (Civ_layout v) l.
Definition tech_cells v (l : list Tech) := [I16 (count l)] ++ flat_map (Tech_layout v) l.
Definition closing_cells v (x : DatFile) :=
  [I32 (DatFile_time_slice x); I32 (DatFile_unit_kill_rate x); I32 (DatFile_unit_kill_total x);
      I32 (DatFile_unit_hit_point_rate x); I32 (DatFile_unit_hit_point_total x);
      I32 (DatFile_razing_kill_rate x); I32 (DatFile_razing_kill_total x)]
  ++ TechTree_layout v (DatFile_tech_tree x).
Lemma body_cells v x : DatFile_body v x = front_cells v x ++ TerrainBlock_layout v (DatFile_terrain_block x) ++ RandomMaps_layout v (DatFile_random_maps x)
  ++ effect_cells v (DatFile_effects x) ++ header_cells v (DatFile_unit_headers x) ++ civ_cells v (DatFile_civs x) ++ tech_cells v (DatFile_techs x)
  ++ closing_cells v x.
Proof. unfold DatFile_body, front_cells, effect_cells, header_cells, civ_cells, tech_cells, closing_cells. rewrite <- !app_assoc. reflexivity. Qed.

Lemma front_parses v x :
  count (DatFile_float_ptr_terrain_tables x) = count (DatFile_terrain_restrictions x) ->
  count (DatFile_terrain_pass_graphic_pointers x) = count (DatFile_terrain_restrictions x) ->
  Forall (fun r => count (TerrainRestriction_passable_buildable_dmg_multiplier r) = terrains_used x) (DatFile_terrain_restrictions x) ->
  Forall (on_some (Graphic_shape v)) (DatFile_graphics x) ->
  Parses v (front_cells v x) read_front (front_of x).
Proof.
  intros E1 E2 H1 H2. unfold read_front, front_cells, front_of. rewrite flags_map.
  assert (Ht : 0 <= terrains_used x).
  { unfold terrains_used. destruct (DatFile_terrain_restrictions x); [lia|apply count_nonneg]. }
  assert (Hz : DatFile_terrain_restrictions x = [] -> terrains_used x = 0) by (unfold terrains_used; intros ->; reflexivity).
  set (t := terrains_used x) in *. clearbody t. destruct x; cbn in *.
  apply Parses_nil_r; norm_cells. do 4 parses_step.
  eapply Parses_bind.
  { unfold read_class_array_with_param. apply Parses_for_range; [side_count|].
    intros r Hin. rewrite Forall_forall in H1. pose proof (H1 r Hin) as Hr. apply TerrainRestriction_parses; [exact Ht|].
    unfold TerrainRestriction_count. lia. }
  apply Parses_note.
  { destruct DatFile_terrain_restrictions as [|r rs]; [rewrite (Hz eq_refl); apply andb_false_r|].
    unfold count. cbn [length]. clear. lia. }
  repeat parses_step.
  eapply Parses_bind; [apply Parses_i32_array; rewrite count_map; reflexivity|]. repeat parses_step.
Qed.
Lemma Parses_tail {A B} v cs (m : rd A) (k : A -> rd B) x : Parses v cs (bind (bind m k) (fun b => ret b)) x -> Parses v cs (bind m k) x.
Proof. apply Parses_ext. intros h. unfold bind, ret. destruct (m h) as [[a h']|]; [|reflexivity]. destruct (k a h') as [[b h'']|]; reflexivity. Qed.
Lemma effects_parses v l : Parses v (effect_cells v l) read_effects l.
Proof. unfold read_effects, effect_cells. apply Parses_tail. apply Parses_nil_r; norm_cells. repeat parses_step. Qed.
Lemma headers_parses v l : Forall (UnitHeaders_shape v) l -> Parses v (header_cells v l) read_headers l.
Proof. intros H. unfold read_headers, header_cells. apply Parses_tail. apply Parses_nil_r; norm_cells. repeat parses_step. Qed.
Lemma civs_parses v l : Forall (Civ_shape v) l -> Parses v (civ_cells v l) read_civs l.
Proof. intros H. unfold read_civs, civ_cells. apply Parses_tail. apply Parses_nil_r; norm_cells. repeat parses_step. Qed.
Lemma techs_parses v l : Forall (Tech_shape v) l -> Parses v (tech_cells v l) read_techs l.
Proof. intros H. unfold read_techs, tech_cells. apply Parses_tail. apply Parses_nil_r; norm_cells. repeat parses_step. Qed.
Lemma closing_parses v x : TechTree_shape v (DatFile_tech_tree x) -> Parses v (closing_cells v x) read_closing (closing_of x).
Proof. intros H. unfold read_closing, closing_cells, closing_of. destruct x; cbn in *. apply Parses_nil_r; norm_cells. repeat parses_step. Qed.
