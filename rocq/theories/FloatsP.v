(** * Tables of objects with changed floats.  Generated by tools/gen_rounded.py. *)
From Verif Require Import Base PyInt PyFloat PyStr PyStruct DataTypes Versions Common Wire Layout Shape Spec Floats.
From Verif Require Import M_Sound M_PlayerColour M_Effect M_TerrainRestriction M_Graphic
  M_TerrainBlock M_RandomMaps M_Task M_UnitHeaders M_Unit M_Civ M_Tech M_TechTree M_DatFile.
From Verif Require Import Codec Theory.
Open Scope Z_scope.
Local Open Scope list_scope.
Local Notation length := List.length.

(** ** Changing the floats of a cell, of a table *)
Definition cell_map (g : f64 -> f64) (c : cell) : cell :=
  match c with F32 x => F32 (g x) | F32s x => F32s (g x) | c => c end.
Lemma flat_norm g {A} (lay : A -> list cell) f : (forall x, map (cell_map g) (lay x) = lay (f x)) ->
  forall l, map (cell_map g) (flat_map lay l) = flat_map lay (map f l).
Proof. intros H l. induction l as [|a l IH]; [reflexivity|]. cbn [flat_map map]. rewrite map_app, H, IH. reflexivity. Qed.
Lemma flat_norm_id g {A} (lay : A -> list cell) : (forall x, map (cell_map g) (lay x) = lay x) ->
  forall l, map (cell_map g) (flat_map lay l) = flat_map lay l.
Proof. intros H l. induction l as [|a l IH]; [reflexivity|]. cbn [flat_map map]. rewrite map_app, H, IH. reflexivity. Qed.
Lemma slots_norm g {A} (lay : A -> list cell) f : (forall x, map (cell_map g) (lay x) = lay (f x)) ->
  forall l, map (cell_map g) (slots lay l) = slots lay (map (option_map f) l).
Proof. intros H l. unfold slots. apply (flat_norm _ _ (option_map f)). intros [x|]; [apply H|reflexivity]. Qed.
Lemma slots_norm_id g {A} (lay : A -> list cell) : (forall x, map (cell_map g) (lay x) = lay x) ->
  forall l, map (cell_map g) (slots lay l) = slots lay l.
Proof. intros H l. unfold slots. apply flat_norm_id. intros [x|]; [apply H|reflexivity]. Qed.
Lemma stored_norm g {A} (lay : A -> list cell) f : (forall x, map (cell_map g) (lay x) = lay (f x)) ->
  forall c o, map (cell_map g) (stored c lay o) = stored c lay (option_map f o).
Proof. intros H [] [x|]; cbn [stored opt_cells option_map]; try reflexivity. apply H. Qed.
Lemma stored_norm_id g {A} (lay : A -> list cell) : (forall x, map (cell_map g) (lay x) = lay x) ->
  forall c o, map (cell_map g) (stored c lay o) = stored c lay o.
Proof. intros H [] [x|]; cbn [stored opt_cells]; try reflexivity. apply H. Qed.
Lemma stored_norm_float g c o : map (cell_map g) (stored c (fun s => [F32 s]) o) = stored c (fun s => [F32 s]) (option_map g o).
Proof. destruct c, o; reflexivity. Qed.
Lemma norm_u8 g l : map (cell_map g) (map U8 l) = map U8 l. Proof. rewrite map_map. reflexivity. Qed.
Lemma norm_i8 g l : map (cell_map g) (map I8 l) = map I8 l. Proof. rewrite map_map. reflexivity. Qed.
Lemma norm_i16 g l : map (cell_map g) (map I16 l) = map I16 l. Proof. rewrite map_map. reflexivity. Qed.
Lemma norm_i32 g l : map (cell_map g) (map I32 l) = map I32 l. Proof. rewrite map_map. reflexivity. Qed.
Lemma norm_f32 g l : map (cell_map g) (map F32 l) = map F32 (map g l). Proof. rewrite !map_map. reflexivity. Qed.
Lemma norm_f32s g l : map (cell_map g) (map F32s l) = map F32s (map g l). Proof. rewrite !map_map. reflexivity. Qed.
Lemma norm_flags g {A} (l : list (option A)) : map (cell_map g) (flags l) = flags l.
Proof. unfold flags. rewrite map_map. apply map_ext. intros [a|]; reflexivity. Qed.
Lemma norm_guard g c l : map (cell_map g) (guard c l) = guard c (map (cell_map g) l). Proof. destruct c; reflexivity. Qed.
Lemma norm_exactly g {A} n (a : list A) l : map (cell_map g) (exactly n a l) = exactly n a (map (cell_map g) l). Proof. apply norm_guard. Qed.
Lemma exactly_map {A B} n (f : A -> B) a l : exactly n (map f a) l = exactly n a l. Proof. unfold exactly. rewrite map_length. reflexivity. Qed.
Lemma count_map {A B} (f : A -> B) l : count (map f l) = count l. Proof. unfold count. rewrite map_length. reflexivity. Qed.
Lemma flags_map {A B} (f : A -> B) l : flags (map (option_map f) l) = flags l.
Proof. unfold flags. rewrite map_map. apply map_ext. intros [a|]; reflexivity. Qed.
Lemma norm_if g (c : bool) l m : map (cell_map g) (if c then l else m) = if c then map (cell_map g) l else map (cell_map g) m. Proof. destruct c; reflexivity. Qed.
Global Hint Rewrite @map_app norm_u8 norm_i8 norm_i16 norm_i32 norm_f32 norm_f32s @norm_flags norm_guard @norm_exactly @exactly_map @count_map @flags_map norm_if
  stored_norm_float : norm_cells.
Ltac norms := autorewrite with norm_cells; cbn [map cell_map]; try reflexivity.

(** Only the header of a file is padded. *)
Definition unpadded (c : cell) : bool := match c with Padded _ _ => false | _ => true end.
Lemma np_flat {A} (lay : A -> list cell) : (forall x, forallb unpadded (lay x) = true) -> forall l, forallb unpadded (flat_map lay l) = true.
Proof. intros H l. induction l as [|a l IH]; [reflexivity|]. cbn [flat_map]. rewrite forallb_app, H, IH. reflexivity. Qed.
Lemma np_slots {A} (lay : A -> list cell) : (forall x, forallb unpadded (lay x) = true) -> forall l, forallb unpadded (slots lay l) = true.
Proof. intros H l. apply np_flat. intros [x|]; [apply H|reflexivity]. Qed.
Lemma np_stored {A} (lay : A -> list cell) : (forall x, forallb unpadded (lay x) = true) -> forall c l, forallb unpadded (stored c lay l) = true.
Proof. intros H [] [x|]; cbn [stored opt_cells]; try reflexivity. apply H. Qed.
Lemma np_stored_float c o : forallb unpadded (stored c (fun s => [F32 s]) o) = true. Proof. destruct c, o; reflexivity. Qed.
Lemma np_map {A} (mk : A -> cell) l : (forall a, unpadded (mk a) = true) -> forallb unpadded (map mk l) = true.
Proof. intros H. induction l; cbn [map forallb]; [reflexivity|]. rewrite H, IHl. reflexivity. Qed.
Lemma np_u8 l : forallb unpadded (map U8 l) = true. Proof. apply np_map. reflexivity. Qed.
Lemma np_i8 l : forallb unpadded (map I8 l) = true. Proof. apply np_map. reflexivity. Qed.
Lemma np_i16 l : forallb unpadded (map I16 l) = true. Proof. apply np_map. reflexivity. Qed.
Lemma np_i32 l : forallb unpadded (map I32 l) = true. Proof. apply np_map. reflexivity. Qed.
Lemma np_f32 l : forallb unpadded (map F32 l) = true. Proof. apply np_map. reflexivity. Qed.
Lemma np_f32s l : forallb unpadded (map F32s l) = true. Proof. apply np_map. reflexivity. Qed.
Lemma np_flags {A} (l : list (option A)) : forallb unpadded (flags l) = true. Proof. apply np_map. intros [a|]; reflexivity. Qed.
Lemma np_guard c l : forallb unpadded (guard c l) = if c then forallb unpadded l else true. Proof. destruct c; reflexivity. Qed.
Lemma np_exactly {A} n (a : list A) l : forallb unpadded (exactly n a l) = if Nat.eqb (length a) n then forallb unpadded l else true. Proof. apply np_guard. Qed.
Lemma np_if (c : bool) l m : forallb unpadded (if c then l else m) = if c then forallb unpadded l else forallb unpadded m. Proof. destruct c; reflexivity. Qed.
Lemma if_same (c : bool) : (if c then true else true) = true. Proof. destruct c; reflexivity. Qed.
Global Hint Rewrite @forallb_app np_u8 np_i8 np_i16 np_i32 np_f32 np_f32s @np_flags np_guard @np_exactly np_if np_stored_float : np_cells.
Ltac nps := autorewrite with np_cells; cbn [forallb unpadded andb]; rewrite ?if_same; cbn [andb]; try reflexivity.

Lemma SoundItem_norm g v x : map (cell_map g) (SoundItem_layout v x) = SoundItem_layout v x.
Proof. destruct x; unfold SoundItem_layout; cbn [M_Sound.SoundItem_filename M_Sound.SoundItem_resource_id M_Sound.SoundItem_probability M_Sound.SoundItem_civilization M_Sound.SoundItem_icon_set option_map]; norms. Qed.
Global Hint Rewrite SoundItem_norm : norm_cells.
Lemma SoundItem_norms g v l : map (cell_map g) (flat_map (SoundItem_layout v) l) = flat_map (SoundItem_layout v) l.
Proof. apply flat_norm_id. intros x. apply SoundItem_norm. Qed.
Lemma SoundItem_norm_slots g v l : map (cell_map g) (slots (SoundItem_layout v) l) = slots (SoundItem_layout v) l.
Proof. apply slots_norm_id. intros x. apply SoundItem_norm. Qed.
Lemma SoundItem_norm_stored g v c l : map (cell_map g) (stored c (SoundItem_layout v) l) = stored c (SoundItem_layout v) l.
Proof. apply stored_norm_id. intros x. apply SoundItem_norm. Qed.
Global Hint Rewrite SoundItem_norms SoundItem_norm_slots SoundItem_norm_stored : norm_cells.
Lemma Sound_norm g v x : map (cell_map g) (Sound_layout v x) = Sound_layout v x.
Proof. destruct x; unfold Sound_layout; cbn [M_Sound.Sound_id M_Sound.Sound_play_delay M_Sound.Sound_cache_time M_Sound.Sound_total_probability M_Sound.Sound_items option_map]; norms. Qed.
Global Hint Rewrite Sound_norm : norm_cells.
Lemma Sound_norms g v l : map (cell_map g) (flat_map (Sound_layout v) l) = flat_map (Sound_layout v) l.
Proof. apply flat_norm_id. intros x. apply Sound_norm. Qed.
Lemma Sound_norm_slots g v l : map (cell_map g) (slots (Sound_layout v) l) = slots (Sound_layout v) l.
Proof. apply slots_norm_id. intros x. apply Sound_norm. Qed.
Lemma Sound_norm_stored g v c l : map (cell_map g) (stored c (Sound_layout v) l) = stored c (Sound_layout v) l.
Proof. apply stored_norm_id. intros x. apply Sound_norm. Qed.
Global Hint Rewrite Sound_norms Sound_norm_slots Sound_norm_stored : norm_cells.
Lemma PlayerColour_norm g v x : map (cell_map g) (PlayerColour_layout v x) = PlayerColour_layout v x.
Proof. destruct x; unfold PlayerColour_layout; cbn [M_PlayerColour.PlayerColour_id M_PlayerColour.PlayerColour_player_color_base M_PlayerColour.PlayerColour_unit_outline_color M_PlayerColour.PlayerColour_unit_selection_color_1 M_PlayerColour.PlayerColour_unit_selection_color_2 M_PlayerColour.PlayerColour_minimap_color M_PlayerColour.PlayerColour_minimap_color_2 M_PlayerColour.PlayerColour_minimap_color_3 M_PlayerColour.PlayerColour_statistics_text option_map]; norms. Qed.
Global Hint Rewrite PlayerColour_norm : norm_cells.
Lemma PlayerColour_norms g v l : map (cell_map g) (flat_map (PlayerColour_layout v) l) = flat_map (PlayerColour_layout v) l.
Proof. apply flat_norm_id. intros x. apply PlayerColour_norm. Qed.
Lemma PlayerColour_norm_slots g v l : map (cell_map g) (slots (PlayerColour_layout v) l) = slots (PlayerColour_layout v) l.
Proof. apply slots_norm_id. intros x. apply PlayerColour_norm. Qed.
Lemma PlayerColour_norm_stored g v c l : map (cell_map g) (stored c (PlayerColour_layout v) l) = stored c (PlayerColour_layout v) l.
Proof. apply stored_norm_id. intros x. apply PlayerColour_norm. Qed.
Global Hint Rewrite PlayerColour_norms PlayerColour_norm_slots PlayerColour_norm_stored : norm_cells.
Lemma EffectCommand_norm g v x : map (cell_map g) (EffectCommand_layout v x) = EffectCommand_layout v (EffectCommand_floats g x).
Proof. unfold EffectCommand_floats. destruct x; unfold EffectCommand_layout; cbn [M_Effect.EffectCommand_type M_Effect.EffectCommand_a M_Effect.EffectCommand_b M_Effect.EffectCommand_c M_Effect.EffectCommand_d option_map]; norms. Qed.
Global Hint Rewrite EffectCommand_norm : norm_cells.
Lemma EffectCommand_norms g v l : map (cell_map g) (flat_map (EffectCommand_layout v) l) = flat_map (EffectCommand_layout v) (map (EffectCommand_floats g) l).
Proof. apply flat_norm. intros x. apply EffectCommand_norm. Qed.
Lemma EffectCommand_norm_slots g v l : map (cell_map g) (slots (EffectCommand_layout v) l) = slots (EffectCommand_layout v) (map (option_map (EffectCommand_floats g)) l).
Proof. apply slots_norm. intros x. apply EffectCommand_norm. Qed.
Lemma EffectCommand_norm_stored g v c l : map (cell_map g) (stored c (EffectCommand_layout v) l) = stored c (EffectCommand_layout v) (option_map (EffectCommand_floats g) l).
Proof. apply stored_norm. intros x. apply EffectCommand_norm. Qed.
Global Hint Rewrite EffectCommand_norms EffectCommand_norm_slots EffectCommand_norm_stored : norm_cells.
Lemma Effect_norm g v x : map (cell_map g) (Effect_layout v x) = Effect_layout v (Effect_floats g x).
Proof. unfold Effect_floats. destruct x; unfold Effect_layout; cbn [M_Effect.Effect_name M_Effect.Effect_effect_commands option_map]; norms. Qed.
Global Hint Rewrite Effect_norm : norm_cells.
Lemma Effect_norms g v l : map (cell_map g) (flat_map (Effect_layout v) l) = flat_map (Effect_layout v) (map (Effect_floats g) l).
Proof. apply flat_norm. intros x. apply Effect_norm. Qed.
Lemma Effect_norm_slots g v l : map (cell_map g) (slots (Effect_layout v) l) = slots (Effect_layout v) (map (option_map (Effect_floats g)) l).
Proof. apply slots_norm. intros x. apply Effect_norm. Qed.
Lemma Effect_norm_stored g v c l : map (cell_map g) (stored c (Effect_layout v) l) = stored c (Effect_layout v) (option_map (Effect_floats g) l).
Proof. apply stored_norm. intros x. apply Effect_norm. Qed.
Global Hint Rewrite Effect_norms Effect_norm_slots Effect_norm_stored : norm_cells.
Lemma TerrainPassGraphic_norm g v x : map (cell_map g) (TerrainPassGraphic_layout v x) = TerrainPassGraphic_layout v x.
Proof. destruct x; unfold TerrainPassGraphic_layout; cbn [M_TerrainRestriction.TerrainPassGraphic_exit_tile_sprite_id M_TerrainRestriction.TerrainPassGraphic_enter_tile_sprite_id M_TerrainRestriction.TerrainPassGraphic_walk_tile_sprite_id M_TerrainRestriction.TerrainPassGraphic_walk_sprite_rate option_map]; norms. Qed.
Global Hint Rewrite TerrainPassGraphic_norm : norm_cells.
Lemma TerrainPassGraphic_norms g v l : map (cell_map g) (flat_map (TerrainPassGraphic_layout v) l) = flat_map (TerrainPassGraphic_layout v) l.
Proof. apply flat_norm_id. intros x. apply TerrainPassGraphic_norm. Qed.
Lemma TerrainPassGraphic_norm_slots g v l : map (cell_map g) (slots (TerrainPassGraphic_layout v) l) = slots (TerrainPassGraphic_layout v) l.
Proof. apply slots_norm_id. intros x. apply TerrainPassGraphic_norm. Qed.
Lemma TerrainPassGraphic_norm_stored g v c l : map (cell_map g) (stored c (TerrainPassGraphic_layout v) l) = stored c (TerrainPassGraphic_layout v) l.
Proof. apply stored_norm_id. intros x. apply TerrainPassGraphic_norm. Qed.
Global Hint Rewrite TerrainPassGraphic_norms TerrainPassGraphic_norm_slots TerrainPassGraphic_norm_stored : norm_cells.
Lemma TerrainRestriction_norm g v x : map (cell_map g) (TerrainRestriction_layout v x) = TerrainRestriction_layout v (TerrainRestriction_floats g x).
Proof. unfold TerrainRestriction_floats. destruct x; unfold TerrainRestriction_layout; cbn [M_TerrainRestriction.TerrainRestriction_passable_buildable_dmg_multiplier M_TerrainRestriction.TerrainRestriction_terrain_pass_graphics option_map]; norms. Qed.
Global Hint Rewrite TerrainRestriction_norm : norm_cells.
Lemma TerrainRestriction_norms g v l : map (cell_map g) (flat_map (TerrainRestriction_layout v) l) = flat_map (TerrainRestriction_layout v) (map (TerrainRestriction_floats g) l).
Proof. apply flat_norm. intros x. apply TerrainRestriction_norm. Qed.
Lemma TerrainRestriction_norm_slots g v l : map (cell_map g) (slots (TerrainRestriction_layout v) l) = slots (TerrainRestriction_layout v) (map (option_map (TerrainRestriction_floats g)) l).
Proof. apply slots_norm. intros x. apply TerrainRestriction_norm. Qed.
Lemma TerrainRestriction_norm_stored g v c l : map (cell_map g) (stored c (TerrainRestriction_layout v) l) = stored c (TerrainRestriction_layout v) (option_map (TerrainRestriction_floats g) l).
Proof. apply stored_norm. intros x. apply TerrainRestriction_norm. Qed.
Global Hint Rewrite TerrainRestriction_norms TerrainRestriction_norm_slots TerrainRestriction_norm_stored : norm_cells.
Lemma GraphicDelta_norm g v x : map (cell_map g) (GraphicDelta_layout v x) = GraphicDelta_layout v x.
Proof. destruct x; unfold GraphicDelta_layout; cbn [M_Graphic.GraphicDelta_graphic_id M_Graphic.GraphicDelta_padding_1 M_Graphic.GraphicDelta_sprite_ptr M_Graphic.GraphicDelta_offset_x M_Graphic.GraphicDelta_offset_y M_Graphic.GraphicDelta_display_angle M_Graphic.GraphicDelta_padding_2 option_map]; norms. Qed.
Global Hint Rewrite GraphicDelta_norm : norm_cells.
Lemma GraphicDelta_norms g v l : map (cell_map g) (flat_map (GraphicDelta_layout v) l) = flat_map (GraphicDelta_layout v) l.
Proof. apply flat_norm_id. intros x. apply GraphicDelta_norm. Qed.
Lemma GraphicDelta_norm_slots g v l : map (cell_map g) (slots (GraphicDelta_layout v) l) = slots (GraphicDelta_layout v) l.
Proof. apply slots_norm_id. intros x. apply GraphicDelta_norm. Qed.
Lemma GraphicDelta_norm_stored g v c l : map (cell_map g) (stored c (GraphicDelta_layout v) l) = stored c (GraphicDelta_layout v) l.
Proof. apply stored_norm_id. intros x. apply GraphicDelta_norm. Qed.
Global Hint Rewrite GraphicDelta_norms GraphicDelta_norm_slots GraphicDelta_norm_stored : norm_cells.
Lemma GraphicAngleSound_norm g v x : map (cell_map g) (GraphicAngleSound_layout v x) = GraphicAngleSound_layout v x.
Proof. destruct x; unfold GraphicAngleSound_layout; cbn [M_Graphic.GraphicAngleSound_frame_num M_Graphic.GraphicAngleSound_sound_id M_Graphic.GraphicAngleSound_wwise_sound_id M_Graphic.GraphicAngleSound_frame_num_2 M_Graphic.GraphicAngleSound_sound_id_2 M_Graphic.GraphicAngleSound_wwise_sound_id_2 M_Graphic.GraphicAngleSound_frame_num_3 M_Graphic.GraphicAngleSound_sound_id_3 M_Graphic.GraphicAngleSound_wwise_sound_id_3 option_map]; norms. Qed.
Global Hint Rewrite GraphicAngleSound_norm : norm_cells.
Lemma GraphicAngleSound_norms g v l : map (cell_map g) (flat_map (GraphicAngleSound_layout v) l) = flat_map (GraphicAngleSound_layout v) l.
Proof. apply flat_norm_id. intros x. apply GraphicAngleSound_norm. Qed.
Lemma GraphicAngleSound_norm_slots g v l : map (cell_map g) (slots (GraphicAngleSound_layout v) l) = slots (GraphicAngleSound_layout v) l.
Proof. apply slots_norm_id. intros x. apply GraphicAngleSound_norm. Qed.
Lemma GraphicAngleSound_norm_stored g v c l : map (cell_map g) (stored c (GraphicAngleSound_layout v) l) = stored c (GraphicAngleSound_layout v) l.
Proof. apply stored_norm_id. intros x. apply GraphicAngleSound_norm. Qed.
Global Hint Rewrite GraphicAngleSound_norms GraphicAngleSound_norm_slots GraphicAngleSound_norm_stored : norm_cells.
Lemma Graphic_norm g v x : map (cell_map g) (Graphic_layout v x) = Graphic_layout v (Graphic_floats g x).
Proof. unfold Graphic_floats. destruct x; unfold Graphic_layout; cbn [M_Graphic.Graphic_name M_Graphic.Graphic_file_name M_Graphic.Graphic_particle_effect_name M_Graphic.Graphic_slp M_Graphic.Graphic_is_loaded M_Graphic.Graphic_old_color_flag M_Graphic.Graphic_layer M_Graphic.Graphic_player_color M_Graphic.Graphic_transparent_selection M_Graphic.Graphic_coordinates M_Graphic.Graphic_sound_id M_Graphic.Graphic_wwise_sound_id M_Graphic.Graphic_angle_sounds_used M_Graphic.Graphic_frame_count M_Graphic.Graphic_angle_count M_Graphic.Graphic_speed_multiplier M_Graphic.Graphic_frame_duration M_Graphic.Graphic_replay_delay M_Graphic.Graphic_sequence_type M_Graphic.Graphic_id M_Graphic.Graphic_mirroring_mode M_Graphic.Graphic_editor_flag M_Graphic.Graphic_deltas M_Graphic.Graphic_angle_sounds option_map]; norms. Qed.
Global Hint Rewrite Graphic_norm : norm_cells.
Lemma Graphic_norms g v l : map (cell_map g) (flat_map (Graphic_layout v) l) = flat_map (Graphic_layout v) (map (Graphic_floats g) l).
Proof. apply flat_norm. intros x. apply Graphic_norm. Qed.
Lemma Graphic_norm_slots g v l : map (cell_map g) (slots (Graphic_layout v) l) = slots (Graphic_layout v) (map (option_map (Graphic_floats g)) l).
Proof. apply slots_norm. intros x. apply Graphic_norm. Qed.
Lemma Graphic_norm_stored g v c l : map (cell_map g) (stored c (Graphic_layout v) l) = stored c (Graphic_layout v) (option_map (Graphic_floats g) l).
Proof. apply stored_norm. intros x. apply Graphic_norm. Qed.
Global Hint Rewrite Graphic_norms Graphic_norm_slots Graphic_norm_stored : norm_cells.
Lemma FrameData_norm g v x : map (cell_map g) (FrameData_layout v x) = FrameData_layout v x.
Proof. destruct x; unfold FrameData_layout; cbn [M_TerrainBlock.FrameData_frame_count M_TerrainBlock.FrameData_angle_count M_TerrainBlock.FrameData_shape_id option_map]; norms. Qed.
Global Hint Rewrite FrameData_norm : norm_cells.
Lemma FrameData_norms g v l : map (cell_map g) (flat_map (FrameData_layout v) l) = flat_map (FrameData_layout v) l.
Proof. apply flat_norm_id. intros x. apply FrameData_norm. Qed.
Lemma FrameData_norm_slots g v l : map (cell_map g) (slots (FrameData_layout v) l) = slots (FrameData_layout v) l.
Proof. apply slots_norm_id. intros x. apply FrameData_norm. Qed.
Lemma FrameData_norm_stored g v c l : map (cell_map g) (stored c (FrameData_layout v) l) = stored c (FrameData_layout v) l.
Proof. apply stored_norm_id. intros x. apply FrameData_norm. Qed.
Global Hint Rewrite FrameData_norms FrameData_norm_slots FrameData_norm_stored : norm_cells.
Lemma Terrain_norm g v x : map (cell_map g) (Terrain_layout v x) = Terrain_layout v (Terrain_floats g x).
Proof. unfold Terrain_floats. destruct x; unfold Terrain_layout; cbn [M_TerrainBlock.Terrain_enabled M_TerrainBlock.Terrain_random M_TerrainBlock.Terrain_is_water M_TerrainBlock.Terrain_hide_in_editor M_TerrainBlock.Terrain_string_id M_TerrainBlock.Terrain_name M_TerrainBlock.Terrain_name_2 M_TerrainBlock.Terrain_slp M_TerrainBlock.Terrain_shape_ptr M_TerrainBlock.Terrain_sound_id M_TerrainBlock.Terrain_wwise_sound_id M_TerrainBlock.Terrain_wwise_sound_stop_id M_TerrainBlock.Terrain_blend_priority M_TerrainBlock.Terrain_blend_type M_TerrainBlock.Terrain_overlay_mask_name M_TerrainBlock.Terrain_colors M_TerrainBlock.Terrain_cliff_colors M_TerrainBlock.Terrain_passable_terrain M_TerrainBlock.Terrain_impassable_terrain M_TerrainBlock.Terrain_is_animated M_TerrainBlock.Terrain_animation_frames M_TerrainBlock.Terrain_pause_frames M_TerrainBlock.Terrain_interval M_TerrainBlock.Terrain_pause_between_loops M_TerrainBlock.Terrain_frame M_TerrainBlock.Terrain_draw_frame M_TerrainBlock.Terrain_animate_last M_TerrainBlock.Terrain_frame_changed M_TerrainBlock.Terrain_drawn M_TerrainBlock.Terrain_frame_data M_TerrainBlock.Terrain_terrain_to_draw M_TerrainBlock.Terrain_terrain_dimensions M_TerrainBlock.Terrain_terrain_unit_masked_density M_TerrainBlock.Terrain_terrain_unit_id M_TerrainBlock.Terrain_terrain_unit_density M_TerrainBlock.Terrain_terrain_unit_centering M_TerrainBlock.Terrain_number_of_terrain_units_used M_TerrainBlock.Terrain_phantom option_map]; norms. Qed.
Global Hint Rewrite Terrain_norm : norm_cells.
Lemma Terrain_norms g v l : map (cell_map g) (flat_map (Terrain_layout v) l) = flat_map (Terrain_layout v) (map (Terrain_floats g) l).
Proof. apply flat_norm. intros x. apply Terrain_norm. Qed.
Lemma Terrain_norm_slots g v l : map (cell_map g) (slots (Terrain_layout v) l) = slots (Terrain_layout v) (map (option_map (Terrain_floats g)) l).
Proof. apply slots_norm. intros x. apply Terrain_norm. Qed.
Lemma Terrain_norm_stored g v c l : map (cell_map g) (stored c (Terrain_layout v) l) = stored c (Terrain_layout v) (option_map (Terrain_floats g) l).
Proof. apply stored_norm. intros x. apply Terrain_norm. Qed.
Global Hint Rewrite Terrain_norms Terrain_norm_slots Terrain_norm_stored : norm_cells.
Lemma TileSize_norm g v x : map (cell_map g) (TileSize_layout v x) = TileSize_layout v x.
Proof. destruct x; unfold TileSize_layout; cbn [M_TerrainBlock.TileSize_width M_TerrainBlock.TileSize_height M_TerrainBlock.TileSize_delta_y option_map]; norms. Qed.
Global Hint Rewrite TileSize_norm : norm_cells.
Lemma TileSize_norms g v l : map (cell_map g) (flat_map (TileSize_layout v) l) = flat_map (TileSize_layout v) l.
Proof. apply flat_norm_id. intros x. apply TileSize_norm. Qed.
Lemma TileSize_norm_slots g v l : map (cell_map g) (slots (TileSize_layout v) l) = slots (TileSize_layout v) l.
Proof. apply slots_norm_id. intros x. apply TileSize_norm. Qed.
Lemma TileSize_norm_stored g v c l : map (cell_map g) (stored c (TileSize_layout v) l) = stored c (TileSize_layout v) l.
Proof. apply stored_norm_id. intros x. apply TileSize_norm. Qed.
Global Hint Rewrite TileSize_norms TileSize_norm_slots TileSize_norm_stored : norm_cells.
Lemma TerrainBlock_norm g v x : map (cell_map g) (TerrainBlock_layout v x) = TerrainBlock_layout v (TerrainBlock_floats g x).
Proof. unfold TerrainBlock_floats. destruct x; unfold TerrainBlock_layout; cbn [M_TerrainBlock.TerrainBlock_virtual_function_ptr M_TerrainBlock.TerrainBlock_map_pointer M_TerrainBlock.TerrainBlock_map_width M_TerrainBlock.TerrainBlock_map_height M_TerrainBlock.TerrainBlock_world_width M_TerrainBlock.TerrainBlock_world_height M_TerrainBlock.TerrainBlock_tile_sizes M_TerrainBlock.TerrainBlock_padding_ts M_TerrainBlock.TerrainBlock_terrains M_TerrainBlock.TerrainBlock_map_min_x M_TerrainBlock.TerrainBlock_map_min_y M_TerrainBlock.TerrainBlock_map_max_x M_TerrainBlock.TerrainBlock_map_max_y M_TerrainBlock.TerrainBlock_map_max_x_plus_1 M_TerrainBlock.TerrainBlock_map_max_y_plus_1 M_TerrainBlock.TerrainBlock_terrains_used_2 M_TerrainBlock.TerrainBlock_borders_used M_TerrainBlock.TerrainBlock_max_terrain M_TerrainBlock.TerrainBlock_tile_width M_TerrainBlock.TerrainBlock_tile_height M_TerrainBlock.TerrainBlock_tile_half_height M_TerrainBlock.TerrainBlock_tile_half_width M_TerrainBlock.TerrainBlock_elev_height M_TerrainBlock.TerrainBlock_cur_row M_TerrainBlock.TerrainBlock_cur_col M_TerrainBlock.TerrainBlock_block_beg_row M_TerrainBlock.TerrainBlock_block_end_row M_TerrainBlock.TerrainBlock_block_beg_col M_TerrainBlock.TerrainBlock_block_end_col M_TerrainBlock.TerrainBlock_search_map_ptr M_TerrainBlock.TerrainBlock_search_map_rows_ptr M_TerrainBlock.TerrainBlock_any_frame_change M_TerrainBlock.TerrainBlock_map_visible_flag M_TerrainBlock.TerrainBlock_fog_flag option_map]; norms. Qed.
Global Hint Rewrite TerrainBlock_norm : norm_cells.
Lemma TerrainBlock_norms g v l : map (cell_map g) (flat_map (TerrainBlock_layout v) l) = flat_map (TerrainBlock_layout v) (map (TerrainBlock_floats g) l).
Proof. apply flat_norm. intros x. apply TerrainBlock_norm. Qed.
Lemma TerrainBlock_norm_slots g v l : map (cell_map g) (slots (TerrainBlock_layout v) l) = slots (TerrainBlock_layout v) (map (option_map (TerrainBlock_floats g)) l).
Proof. apply slots_norm. intros x. apply TerrainBlock_norm. Qed.
Lemma TerrainBlock_norm_stored g v c l : map (cell_map g) (stored c (TerrainBlock_layout v) l) = stored c (TerrainBlock_layout v) (option_map (TerrainBlock_floats g) l).
Proof. apply stored_norm. intros x. apply TerrainBlock_norm. Qed.
Global Hint Rewrite TerrainBlock_norms TerrainBlock_norm_slots TerrainBlock_norm_stored : norm_cells.
Lemma MapUnit_norm g v x : map (cell_map g) (MapUnit_layout v x) = MapUnit_layout v x.
Proof. destruct x; unfold MapUnit_layout; cbn [M_RandomMaps.MapUnit_unit M_RandomMaps.MapUnit_host_terrain M_RandomMaps.MapUnit_group_placing M_RandomMaps.MapUnit_scale_flag M_RandomMaps.MapUnit_padding_1 M_RandomMaps.MapUnit_objects_per_group M_RandomMaps.MapUnit_fluctuation M_RandomMaps.MapUnit_groups_per_player M_RandomMaps.MapUnit_group_arena M_RandomMaps.MapUnit_player_id M_RandomMaps.MapUnit_set_place_for_all_players M_RandomMaps.MapUnit_min_distance_to_players M_RandomMaps.MapUnit_max_distance_to_players option_map]; norms. Qed.
Global Hint Rewrite MapUnit_norm : norm_cells.
Lemma MapUnit_norms g v l : map (cell_map g) (flat_map (MapUnit_layout v) l) = flat_map (MapUnit_layout v) l.
Proof. apply flat_norm_id. intros x. apply MapUnit_norm. Qed.
Lemma MapUnit_norm_slots g v l : map (cell_map g) (slots (MapUnit_layout v) l) = slots (MapUnit_layout v) l.
Proof. apply slots_norm_id. intros x. apply MapUnit_norm. Qed.
Lemma MapUnit_norm_stored g v c l : map (cell_map g) (stored c (MapUnit_layout v) l) = stored c (MapUnit_layout v) l.
Proof. apply stored_norm_id. intros x. apply MapUnit_norm. Qed.
Global Hint Rewrite MapUnit_norms MapUnit_norm_slots MapUnit_norm_stored : norm_cells.
Lemma MapTerrain_norm g v x : map (cell_map g) (MapTerrain_layout v x) = MapTerrain_layout v x.
Proof. destruct x; unfold MapTerrain_layout; cbn [M_RandomMaps.MapTerrain_proportion M_RandomMaps.MapTerrain_terrain M_RandomMaps.MapTerrain_clump_count M_RandomMaps.MapTerrain_edge_spacing M_RandomMaps.MapTerrain_placement_terrain M_RandomMaps.MapTerrain_clumpiness option_map]; norms. Qed.
Global Hint Rewrite MapTerrain_norm : norm_cells.
Lemma MapTerrain_norms g v l : map (cell_map g) (flat_map (MapTerrain_layout v) l) = flat_map (MapTerrain_layout v) l.
Proof. apply flat_norm_id. intros x. apply MapTerrain_norm. Qed.
Lemma MapTerrain_norm_slots g v l : map (cell_map g) (slots (MapTerrain_layout v) l) = slots (MapTerrain_layout v) l.
Proof. apply slots_norm_id. intros x. apply MapTerrain_norm. Qed.
Lemma MapTerrain_norm_stored g v c l : map (cell_map g) (stored c (MapTerrain_layout v) l) = stored c (MapTerrain_layout v) l.
Proof. apply stored_norm_id. intros x. apply MapTerrain_norm. Qed.
Global Hint Rewrite MapTerrain_norms MapTerrain_norm_slots MapTerrain_norm_stored : norm_cells.
Lemma MapLand_norm g v x : map (cell_map g) (MapLand_layout v x) = MapLand_layout v x.
Proof. destruct x; unfold MapLand_layout; cbn [M_RandomMaps.MapLand_land_id M_RandomMaps.MapLand_terrain M_RandomMaps.MapLand_land_spacing M_RandomMaps.MapLand_base_size M_RandomMaps.MapLand_zone M_RandomMaps.MapLand_placement_type M_RandomMaps.MapLand_padding_1 M_RandomMaps.MapLand_base_x M_RandomMaps.MapLand_base_y M_RandomMaps.MapLand_land_proportion M_RandomMaps.MapLand_by_player_flag M_RandomMaps.MapLand_padding_2 M_RandomMaps.MapLand_start_area_radius M_RandomMaps.MapLand_terrain_edge_fade M_RandomMaps.MapLand_clumpiness option_map]; norms. Qed.
Global Hint Rewrite MapLand_norm : norm_cells.
Lemma MapLand_norms g v l : map (cell_map g) (flat_map (MapLand_layout v) l) = flat_map (MapLand_layout v) l.
Proof. apply flat_norm_id. intros x. apply MapLand_norm. Qed.
Lemma MapLand_norm_slots g v l : map (cell_map g) (slots (MapLand_layout v) l) = slots (MapLand_layout v) l.
Proof. apply slots_norm_id. intros x. apply MapLand_norm. Qed.
Lemma MapLand_norm_stored g v c l : map (cell_map g) (stored c (MapLand_layout v) l) = stored c (MapLand_layout v) l.
Proof. apply stored_norm_id. intros x. apply MapLand_norm. Qed.
Global Hint Rewrite MapLand_norms MapLand_norm_slots MapLand_norm_stored : norm_cells.
Lemma MapElevation_norm g v x : map (cell_map g) (MapElevation_layout v x) = MapElevation_layout v x.
Proof. destruct x; unfold MapElevation_layout; cbn [M_RandomMaps.MapElevation_proportion M_RandomMaps.MapElevation_terrain M_RandomMaps.MapElevation_clump_count M_RandomMaps.MapElevation_base_terrain M_RandomMaps.MapElevation_base_elevation M_RandomMaps.MapElevation_tile_spacing option_map]; norms. Qed.
Global Hint Rewrite MapElevation_norm : norm_cells.
Lemma MapElevation_norms g v l : map (cell_map g) (flat_map (MapElevation_layout v) l) = flat_map (MapElevation_layout v) l.
Proof. apply flat_norm_id. intros x. apply MapElevation_norm. Qed.
Lemma MapElevation_norm_slots g v l : map (cell_map g) (slots (MapElevation_layout v) l) = slots (MapElevation_layout v) l.
Proof. apply slots_norm_id. intros x. apply MapElevation_norm. Qed.
Lemma MapElevation_norm_stored g v c l : map (cell_map g) (stored c (MapElevation_layout v) l) = stored c (MapElevation_layout v) l.
Proof. apply stored_norm_id. intros x. apply MapElevation_norm. Qed.
Global Hint Rewrite MapElevation_norms MapElevation_norm_slots MapElevation_norm_stored : norm_cells.
Lemma MapInfo_norm g v x : map (cell_map g) (MapInfo_layout v x) = MapInfo_layout v x.
Proof. destruct x; unfold MapInfo_layout; cbn [M_RandomMaps.MapInfo_map_id M_RandomMaps.MapInfo_border_south_west M_RandomMaps.MapInfo_border_north_west M_RandomMaps.MapInfo_border_north_east M_RandomMaps.MapInfo_border_south_east M_RandomMaps.MapInfo_border_usage M_RandomMaps.MapInfo_water_shape M_RandomMaps.MapInfo_base_terrain M_RandomMaps.MapInfo_land_coverage M_RandomMaps.MapInfo_unused_id M_RandomMaps.MapInfo_map_lands_size M_RandomMaps.MapInfo_map_lands_ptr M_RandomMaps.MapInfo_map_lands M_RandomMaps.MapInfo_map_terrains_size M_RandomMaps.MapInfo_map_terrains_ptr M_RandomMaps.MapInfo_map_terrains M_RandomMaps.MapInfo_map_units_size M_RandomMaps.MapInfo_map_units_ptr M_RandomMaps.MapInfo_map_units M_RandomMaps.MapInfo_map_elevations_size M_RandomMaps.MapInfo_map_elevations_ptr M_RandomMaps.MapInfo_map_elevations option_map]; norms. Qed.
Global Hint Rewrite MapInfo_norm : norm_cells.
Lemma MapInfo_norms g v l : map (cell_map g) (flat_map (MapInfo_layout v) l) = flat_map (MapInfo_layout v) l.
Proof. apply flat_norm_id. intros x. apply MapInfo_norm. Qed.
Lemma MapInfo_norm_slots g v l : map (cell_map g) (slots (MapInfo_layout v) l) = slots (MapInfo_layout v) l.
Proof. apply slots_norm_id. intros x. apply MapInfo_norm. Qed.
Lemma MapInfo_norm_stored g v c l : map (cell_map g) (stored c (MapInfo_layout v) l) = stored c (MapInfo_layout v) l.
Proof. apply stored_norm_id. intros x. apply MapInfo_norm. Qed.
Global Hint Rewrite MapInfo_norms MapInfo_norm_slots MapInfo_norm_stored : norm_cells.
Lemma RandomMaps_norm g v x : map (cell_map g) (RandomMaps_layout v x) = RandomMaps_layout v x.
Proof. destruct x; unfold RandomMaps_layout; cbn [M_RandomMaps.RandomMaps_random_maps_ptr M_RandomMaps.RandomMaps_map_info_1 M_RandomMaps.RandomMaps_map_info_2 option_map]; norms. Qed.
Global Hint Rewrite RandomMaps_norm : norm_cells.
Lemma RandomMaps_norms g v l : map (cell_map g) (flat_map (RandomMaps_layout v) l) = flat_map (RandomMaps_layout v) l.
Proof. apply flat_norm_id. intros x. apply RandomMaps_norm. Qed.
Lemma RandomMaps_norm_slots g v l : map (cell_map g) (slots (RandomMaps_layout v) l) = slots (RandomMaps_layout v) l.
Proof. apply slots_norm_id. intros x. apply RandomMaps_norm. Qed.
Lemma RandomMaps_norm_stored g v c l : map (cell_map g) (stored c (RandomMaps_layout v) l) = stored c (RandomMaps_layout v) l.
Proof. apply stored_norm_id. intros x. apply RandomMaps_norm. Qed.
Global Hint Rewrite RandomMaps_norms RandomMaps_norm_slots RandomMaps_norm_stored : norm_cells.
Lemma Task_norm g v x : map (cell_map g) (Task_layout v x) = Task_layout v (Task_floats g x).
Proof. unfold Task_floats. destruct x; unfold Task_layout; cbn [M_Task.Task_task_type M_Task.Task_id M_Task.Task_is_default M_Task.Task_action_type M_Task.Task_class_id M_Task.Task_unit_id M_Task.Task_terrain_id M_Task.Task_resource_in M_Task.Task_resource_multiplier M_Task.Task_resource_out M_Task.Task_unused_resource M_Task.Task_work_value_1 M_Task.Task_work_value_2 M_Task.Task_work_range M_Task.Task_auto_search_targets M_Task.Task_search_wait_time M_Task.Task_enable_targeting M_Task.Task_combat_level_flag M_Task.Task_gather_type M_Task.Task_work_flag_2 M_Task.Task_target_diplomacy M_Task.Task_carry_check M_Task.Task_pick_for_construction M_Task.Task_moving_graphic_id M_Task.Task_proceeding_graphic_id M_Task.Task_working_graphic_id M_Task.Task_carrying_graphic_id M_Task.Task_resource_gathering_sound_id M_Task.Task_resource_deposit_sound_id M_Task.Task_wwise_resource_gathering_sound_id M_Task.Task_wwise_resource_deposit_sound_id M_Task.Task_enabled option_map]; norms. Qed.
Global Hint Rewrite Task_norm : norm_cells.
Lemma Task_norms g v l : map (cell_map g) (flat_map (Task_layout v) l) = flat_map (Task_layout v) (map (Task_floats g) l).
Proof. apply flat_norm. intros x. apply Task_norm. Qed.
Lemma Task_norm_slots g v l : map (cell_map g) (slots (Task_layout v) l) = slots (Task_layout v) (map (option_map (Task_floats g)) l).
Proof. apply slots_norm. intros x. apply Task_norm. Qed.
Lemma Task_norm_stored g v c l : map (cell_map g) (stored c (Task_layout v) l) = stored c (Task_layout v) (option_map (Task_floats g) l).
Proof. apply stored_norm. intros x. apply Task_norm. Qed.
Global Hint Rewrite Task_norms Task_norm_slots Task_norm_stored : norm_cells.
Lemma UnitHeaders_norm g v x : map (cell_map g) (UnitHeaders_layout v x) = UnitHeaders_layout v (UnitHeaders_floats g x).
Proof. unfold UnitHeaders_floats. destruct x as [e [l|]]; unfold UnitHeaders_layout; cbn [M_UnitHeaders.UnitHeaders_exists_ M_UnitHeaders.UnitHeaders_task_list option_map]; destruct (e =? 0); norms. Qed.
Global Hint Rewrite UnitHeaders_norm : norm_cells.
Lemma UnitHeaders_norms g v l : map (cell_map g) (flat_map (UnitHeaders_layout v) l) = flat_map (UnitHeaders_layout v) (map (UnitHeaders_floats g) l).
Proof. apply flat_norm. intros x. apply UnitHeaders_norm. Qed.
Lemma UnitHeaders_norm_slots g v l : map (cell_map g) (slots (UnitHeaders_layout v) l) = slots (UnitHeaders_layout v) (map (option_map (UnitHeaders_floats g)) l).
Proof. apply slots_norm. intros x. apply UnitHeaders_norm. Qed.
Lemma UnitHeaders_norm_stored g v c l : map (cell_map g) (stored c (UnitHeaders_layout v) l) = stored c (UnitHeaders_layout v) (option_map (UnitHeaders_floats g) l).
Proof. apply stored_norm. intros x. apply UnitHeaders_norm. Qed.
Global Hint Rewrite UnitHeaders_norms UnitHeaders_norm_slots UnitHeaders_norm_stored : norm_cells.
Lemma ResourceStorage_norm g v x : map (cell_map g) (ResourceStorage_layout v x) = ResourceStorage_layout v (ResourceStorage_floats g x).
Proof. unfold ResourceStorage_floats. destruct x; unfold ResourceStorage_layout; cbn [M_Unit.ResourceStorage_type M_Unit.ResourceStorage_amount M_Unit.ResourceStorage_flag option_map]; norms. Qed.
Global Hint Rewrite ResourceStorage_norm : norm_cells.
Lemma ResourceStorage_norms g v l : map (cell_map g) (flat_map (ResourceStorage_layout v) l) = flat_map (ResourceStorage_layout v) (map (ResourceStorage_floats g) l).
Proof. apply flat_norm. intros x. apply ResourceStorage_norm. Qed.
Lemma ResourceStorage_norm_slots g v l : map (cell_map g) (slots (ResourceStorage_layout v) l) = slots (ResourceStorage_layout v) (map (option_map (ResourceStorage_floats g)) l).
Proof. apply slots_norm. intros x. apply ResourceStorage_norm. Qed.
Lemma ResourceStorage_norm_stored g v c l : map (cell_map g) (stored c (ResourceStorage_layout v) l) = stored c (ResourceStorage_layout v) (option_map (ResourceStorage_floats g) l).
Proof. apply stored_norm. intros x. apply ResourceStorage_norm. Qed.
Global Hint Rewrite ResourceStorage_norms ResourceStorage_norm_slots ResourceStorage_norm_stored : norm_cells.
Lemma DamageGraphic_norm g v x : map (cell_map g) (DamageGraphic_layout v x) = DamageGraphic_layout v x.
Proof. destruct x; unfold DamageGraphic_layout; cbn [M_Unit.DamageGraphic_graphic_id M_Unit.DamageGraphic_damage_percent M_Unit.DamageGraphic_apply_mode option_map]; norms. Qed.
Global Hint Rewrite DamageGraphic_norm : norm_cells.
Lemma DamageGraphic_norms g v l : map (cell_map g) (flat_map (DamageGraphic_layout v) l) = flat_map (DamageGraphic_layout v) l.
Proof. apply flat_norm_id. intros x. apply DamageGraphic_norm. Qed.
Lemma DamageGraphic_norm_slots g v l : map (cell_map g) (slots (DamageGraphic_layout v) l) = slots (DamageGraphic_layout v) l.
Proof. apply slots_norm_id. intros x. apply DamageGraphic_norm. Qed.
Lemma DamageGraphic_norm_stored g v c l : map (cell_map g) (stored c (DamageGraphic_layout v) l) = stored c (DamageGraphic_layout v) l.
Proof. apply stored_norm_id. intros x. apply DamageGraphic_norm. Qed.
Global Hint Rewrite DamageGraphic_norms DamageGraphic_norm_slots DamageGraphic_norm_stored : norm_cells.
Lemma DeadFish_norm g v x : map (cell_map g) (DeadFish_layout v x) = DeadFish_layout v (DeadFish_floats g x).
Proof. unfold DeadFish_floats. destruct x; unfold DeadFish_layout; cbn [M_Unit.DeadFish_walking_graphic M_Unit.DeadFish_running_graphic M_Unit.DeadFish_rotation_speed M_Unit.DeadFish_old_size_class M_Unit.DeadFish_tracking_unit M_Unit.DeadFish_tracking_unit_mode M_Unit.DeadFish_tracking_unit_density M_Unit.DeadFish_old_move_algorithm M_Unit.DeadFish_turn_radius M_Unit.DeadFish_turn_radius_speed M_Unit.DeadFish_max_yaw_per_second_moving M_Unit.DeadFish_stationary_yaw_revolution_time M_Unit.DeadFish_max_yaw_per_second_stationary M_Unit.DeadFish_min_collision_size_multiplier option_map]; norms. Qed.
Global Hint Rewrite DeadFish_norm : norm_cells.
Lemma DeadFish_norms g v l : map (cell_map g) (flat_map (DeadFish_layout v) l) = flat_map (DeadFish_layout v) (map (DeadFish_floats g) l).
Proof. apply flat_norm. intros x. apply DeadFish_norm. Qed.
Lemma DeadFish_norm_slots g v l : map (cell_map g) (slots (DeadFish_layout v) l) = slots (DeadFish_layout v) (map (option_map (DeadFish_floats g)) l).
Proof. apply slots_norm. intros x. apply DeadFish_norm. Qed.
Lemma DeadFish_norm_stored g v c l : map (cell_map g) (stored c (DeadFish_layout v) l) = stored c (DeadFish_layout v) (option_map (DeadFish_floats g) l).
Proof. apply stored_norm. intros x. apply DeadFish_norm. Qed.
Global Hint Rewrite DeadFish_norms DeadFish_norm_slots DeadFish_norm_stored : norm_cells.
Lemma Bird_norm g v x : map (cell_map g) (Bird_layout v x) = Bird_layout v (Bird_floats g x).
Proof. unfold Bird_floats. destruct x; unfold Bird_layout; cbn [M_Unit.Bird_default_task_id M_Unit.Bird_search_radius M_Unit.Bird_work_rate M_Unit.Bird_drop_sites M_Unit.Bird_task_swap_group M_Unit.Bird_attack_sound M_Unit.Bird_move_sound M_Unit.Bird_wwise_attack_sound_id M_Unit.Bird_wwise_move_sound_id M_Unit.Bird_run_pattern M_Unit.Bird_tasks option_map]; norms. Qed.
Global Hint Rewrite Bird_norm : norm_cells.
Lemma Bird_norms g v l : map (cell_map g) (flat_map (Bird_layout v) l) = flat_map (Bird_layout v) (map (Bird_floats g) l).
Proof. apply flat_norm. intros x. apply Bird_norm. Qed.
Lemma Bird_norm_slots g v l : map (cell_map g) (slots (Bird_layout v) l) = slots (Bird_layout v) (map (option_map (Bird_floats g)) l).
Proof. apply slots_norm. intros x. apply Bird_norm. Qed.
Lemma Bird_norm_stored g v c l : map (cell_map g) (stored c (Bird_layout v) l) = stored c (Bird_layout v) (option_map (Bird_floats g) l).
Proof. apply stored_norm. intros x. apply Bird_norm. Qed.
Global Hint Rewrite Bird_norms Bird_norm_slots Bird_norm_stored : norm_cells.
Lemma AttackOrArmor_norm g v x : map (cell_map g) (AttackOrArmor_layout v x) = AttackOrArmor_layout v x.
Proof. destruct x; unfold AttackOrArmor_layout; cbn [M_Unit.AttackOrArmor_class_ M_Unit.AttackOrArmor_amount option_map]; norms. Qed.
Global Hint Rewrite AttackOrArmor_norm : norm_cells.
Lemma AttackOrArmor_norms g v l : map (cell_map g) (flat_map (AttackOrArmor_layout v) l) = flat_map (AttackOrArmor_layout v) l.
Proof. apply flat_norm_id. intros x. apply AttackOrArmor_norm. Qed.
Lemma AttackOrArmor_norm_slots g v l : map (cell_map g) (slots (AttackOrArmor_layout v) l) = slots (AttackOrArmor_layout v) l.
Proof. apply slots_norm_id. intros x. apply AttackOrArmor_norm. Qed.
Lemma AttackOrArmor_norm_stored g v c l : map (cell_map g) (stored c (AttackOrArmor_layout v) l) = stored c (AttackOrArmor_layout v) l.
Proof. apply stored_norm_id. intros x. apply AttackOrArmor_norm. Qed.
Global Hint Rewrite AttackOrArmor_norms AttackOrArmor_norm_slots AttackOrArmor_norm_stored : norm_cells.
Lemma Type50_norm g v x : map (cell_map g) (Type50_layout v x) = Type50_layout v (Type50_floats g x).
Proof. unfold Type50_floats. destruct x; unfold Type50_layout; cbn [M_Unit.Type50_base_armor M_Unit.Type50_attacks M_Unit.Type50_armours M_Unit.Type50_defense_terrain_bonus M_Unit.Type50_bonus_damage_resistance M_Unit.Type50_max_range M_Unit.Type50_blast_width M_Unit.Type50_reload_time M_Unit.Type50_projectile_unit_id M_Unit.Type50_accuracy_percent M_Unit.Type50_break_off_combat M_Unit.Type50_frame_delay M_Unit.Type50_graphic_displacement M_Unit.Type50_blast_attack_level M_Unit.Type50_min_range M_Unit.Type50_accuracy_dispersion M_Unit.Type50_attack_graphic M_Unit.Type50_displayed_melee_armour M_Unit.Type50_displayed_attack M_Unit.Type50_displayed_range M_Unit.Type50_displayed_reload_time M_Unit.Type50_blast_damage M_Unit.Type50_damage_reflection M_Unit.Type50_friendly_fire_damage M_Unit.Type50_interrupt_frame M_Unit.Type50_garrison_firepower M_Unit.Type50_attack_graphic_2 option_map]; norms. Qed.
Global Hint Rewrite Type50_norm : norm_cells.
Lemma Type50_norms g v l : map (cell_map g) (flat_map (Type50_layout v) l) = flat_map (Type50_layout v) (map (Type50_floats g) l).
Proof. apply flat_norm. intros x. apply Type50_norm. Qed.
Lemma Type50_norm_slots g v l : map (cell_map g) (slots (Type50_layout v) l) = slots (Type50_layout v) (map (option_map (Type50_floats g)) l).
Proof. apply slots_norm. intros x. apply Type50_norm. Qed.
Lemma Type50_norm_stored g v c l : map (cell_map g) (stored c (Type50_layout v) l) = stored c (Type50_layout v) (option_map (Type50_floats g) l).
Proof. apply stored_norm. intros x. apply Type50_norm. Qed.
Global Hint Rewrite Type50_norms Type50_norm_slots Type50_norm_stored : norm_cells.
Lemma Projectile_norm g v x : map (cell_map g) (Projectile_layout v x) = Projectile_layout v (Projectile_floats g x).
Proof. unfold Projectile_floats. destruct x; unfold Projectile_layout; cbn [M_Unit.Projectile_projectile_type M_Unit.Projectile_smart_mode M_Unit.Projectile_hit_mode M_Unit.Projectile_vanish_mode M_Unit.Projectile_area_effect_specials M_Unit.Projectile_projectile_arc option_map]; norms. Qed.
Global Hint Rewrite Projectile_norm : norm_cells.
Lemma Projectile_norms g v l : map (cell_map g) (flat_map (Projectile_layout v) l) = flat_map (Projectile_layout v) (map (Projectile_floats g) l).
Proof. apply flat_norm. intros x. apply Projectile_norm. Qed.
Lemma Projectile_norm_slots g v l : map (cell_map g) (slots (Projectile_layout v) l) = slots (Projectile_layout v) (map (option_map (Projectile_floats g)) l).
Proof. apply slots_norm. intros x. apply Projectile_norm. Qed.
Lemma Projectile_norm_stored g v c l : map (cell_map g) (stored c (Projectile_layout v) l) = stored c (Projectile_layout v) (option_map (Projectile_floats g) l).
Proof. apply stored_norm. intros x. apply Projectile_norm. Qed.
Global Hint Rewrite Projectile_norms Projectile_norm_slots Projectile_norm_stored : norm_cells.
Lemma ResourceCost_norm g v x : map (cell_map g) (ResourceCost_layout v x) = ResourceCost_layout v x.
Proof. destruct x; unfold ResourceCost_layout; cbn [M_Unit.ResourceCost_type M_Unit.ResourceCost_amount M_Unit.ResourceCost_flag option_map]; norms. Qed.
Global Hint Rewrite ResourceCost_norm : norm_cells.
Lemma ResourceCost_norms g v l : map (cell_map g) (flat_map (ResourceCost_layout v) l) = flat_map (ResourceCost_layout v) l.
Proof. apply flat_norm_id. intros x. apply ResourceCost_norm. Qed.
Lemma ResourceCost_norm_slots g v l : map (cell_map g) (slots (ResourceCost_layout v) l) = slots (ResourceCost_layout v) l.
Proof. apply slots_norm_id. intros x. apply ResourceCost_norm. Qed.
Lemma ResourceCost_norm_stored g v c l : map (cell_map g) (stored c (ResourceCost_layout v) l) = stored c (ResourceCost_layout v) l.
Proof. apply stored_norm_id. intros x. apply ResourceCost_norm. Qed.
Global Hint Rewrite ResourceCost_norms ResourceCost_norm_slots ResourceCost_norm_stored : norm_cells.
Lemma TrainLocation_norm g v x : map (cell_map g) (TrainLocation_layout v x) = TrainLocation_layout v x.
Proof. destruct x; unfold TrainLocation_layout; cbn [M_Unit.TrainLocation_train_time M_Unit.TrainLocation_unit_id M_Unit.TrainLocation_button_id M_Unit.TrainLocation_hot_key_id option_map]; norms. Qed.
Global Hint Rewrite TrainLocation_norm : norm_cells.
Lemma TrainLocation_norms g v l : map (cell_map g) (flat_map (TrainLocation_layout v) l) = flat_map (TrainLocation_layout v) l.
Proof. apply flat_norm_id. intros x. apply TrainLocation_norm. Qed.
Lemma TrainLocation_norm_slots g v l : map (cell_map g) (slots (TrainLocation_layout v) l) = slots (TrainLocation_layout v) l.
Proof. apply slots_norm_id. intros x. apply TrainLocation_norm. Qed.
Lemma TrainLocation_norm_stored g v c l : map (cell_map g) (stored c (TrainLocation_layout v) l) = stored c (TrainLocation_layout v) l.
Proof. apply stored_norm_id. intros x. apply TrainLocation_norm. Qed.
Global Hint Rewrite TrainLocation_norms TrainLocation_norm_slots TrainLocation_norm_stored : norm_cells.
Lemma Creatable_norm g v x : map (cell_map g) (Creatable_layout v x) = Creatable_layout v (Creatable_floats g x).
Proof. unfold Creatable_floats. destruct x; unfold Creatable_layout; cbn [M_Unit.Creatable_resource_costs M_Unit.Creatable_train_locations M_Unit.Creatable_rear_attack_modifier M_Unit.Creatable_flank_attack_modifier M_Unit.Creatable_creatable_type M_Unit.Creatable_hero_mode M_Unit.Creatable_garrison_graphic M_Unit.Creatable_spawning_graphic M_Unit.Creatable_upgrade_graphic M_Unit.Creatable_hero_glow_graphic M_Unit.Creatable_idle_attack_graphic M_Unit.Creatable_max_charge M_Unit.Creatable_recharge_rate M_Unit.Creatable_charge_event M_Unit.Creatable_charge_type M_Unit.Creatable_charge_target M_Unit.Creatable_charge_projectile_unit M_Unit.Creatable_attack_priority M_Unit.Creatable_invulnerability_level M_Unit.Creatable_button_icon_id M_Unit.Creatable_button_short_tooltip_id M_Unit.Creatable_button_extended_tooltip_id M_Unit.Creatable_button_hotkey_action M_Unit.Creatable_min_conversion_time_mod M_Unit.Creatable_max_conversion_time_mod M_Unit.Creatable_conversion_chance_mod M_Unit.Creatable_total_projectiles M_Unit.Creatable_max_total_projectiles M_Unit.Creatable_projectile_spawning_area M_Unit.Creatable_secondary_projectile_unit M_Unit.Creatable_special_graphic M_Unit.Creatable_special_ability M_Unit.Creatable_displayed_pierce_armour option_map]; destruct Creatable_train_locations as [|l ls], (since 88 v); norms. Qed.
Global Hint Rewrite Creatable_norm : norm_cells.
Lemma Creatable_norms g v l : map (cell_map g) (flat_map (Creatable_layout v) l) = flat_map (Creatable_layout v) (map (Creatable_floats g) l).
Proof. apply flat_norm. intros x. apply Creatable_norm. Qed.
Lemma Creatable_norm_slots g v l : map (cell_map g) (slots (Creatable_layout v) l) = slots (Creatable_layout v) (map (option_map (Creatable_floats g)) l).
Proof. apply slots_norm. intros x. apply Creatable_norm. Qed.
Lemma Creatable_norm_stored g v c l : map (cell_map g) (stored c (Creatable_layout v) l) = stored c (Creatable_layout v) (option_map (Creatable_floats g) l).
Proof. apply stored_norm. intros x. apply Creatable_norm. Qed.
Global Hint Rewrite Creatable_norms Creatable_norm_slots Creatable_norm_stored : norm_cells.
Lemma BuildingAnnex_norm g v x : map (cell_map g) (BuildingAnnex_layout v x) = BuildingAnnex_layout v (BuildingAnnex_floats g x).
Proof. unfold BuildingAnnex_floats. destruct x; unfold BuildingAnnex_layout; cbn [M_Unit.BuildingAnnex_unit_id M_Unit.BuildingAnnex_misplacement_x M_Unit.BuildingAnnex_misplacement_y option_map]; norms. Qed.
Global Hint Rewrite BuildingAnnex_norm : norm_cells.
Lemma BuildingAnnex_norms g v l : map (cell_map g) (flat_map (BuildingAnnex_layout v) l) = flat_map (BuildingAnnex_layout v) (map (BuildingAnnex_floats g) l).
Proof. apply flat_norm. intros x. apply BuildingAnnex_norm. Qed.
Lemma BuildingAnnex_norm_slots g v l : map (cell_map g) (slots (BuildingAnnex_layout v) l) = slots (BuildingAnnex_layout v) (map (option_map (BuildingAnnex_floats g)) l).
Proof. apply slots_norm. intros x. apply BuildingAnnex_norm. Qed.
Lemma BuildingAnnex_norm_stored g v c l : map (cell_map g) (stored c (BuildingAnnex_layout v) l) = stored c (BuildingAnnex_layout v) (option_map (BuildingAnnex_floats g) l).
Proof. apply stored_norm. intros x. apply BuildingAnnex_norm. Qed.
Global Hint Rewrite BuildingAnnex_norms BuildingAnnex_norm_slots BuildingAnnex_norm_stored : norm_cells.
Lemma Building_norm g v x : map (cell_map g) (Building_layout v x) = Building_layout v (Building_floats g x).
Proof. unfold Building_floats. destruct x; unfold Building_layout; cbn [M_Unit.Building_construction_graphic_id M_Unit.Building_snow_graphic_id M_Unit.Building_destruction_graphic_id M_Unit.Building_destruction_rubble_graphic_id M_Unit.Building_researching_graphic M_Unit.Building_research_completed_graphic M_Unit.Building_adjacent_mode M_Unit.Building_graphics_angle M_Unit.Building_disappears_when_built M_Unit.Building_stack_unit_id M_Unit.Building_foundation_terrain_id M_Unit.Building_old_overlap_id M_Unit.Building_tech_id M_Unit.Building_can_burn M_Unit.Building_annexes M_Unit.Building_head_unit M_Unit.Building_transform_unit M_Unit.Building_transform_sound M_Unit.Building_construction_sound M_Unit.Building_wwise_transform_sound_id M_Unit.Building_wwise_construction_sound_id M_Unit.Building_garrison_type M_Unit.Building_garrison_heal_rate M_Unit.Building_garrison_repair_rate M_Unit.Building_pile_unit M_Unit.Building_looting_table option_map]; norms. Qed.
Global Hint Rewrite Building_norm : norm_cells.
Lemma Building_norms g v l : map (cell_map g) (flat_map (Building_layout v) l) = flat_map (Building_layout v) (map (Building_floats g) l).
Proof. apply flat_norm. intros x. apply Building_norm. Qed.
Lemma Building_norm_slots g v l : map (cell_map g) (slots (Building_layout v) l) = slots (Building_layout v) (map (option_map (Building_floats g)) l).
Proof. apply slots_norm. intros x. apply Building_norm. Qed.
Lemma Building_norm_stored g v c l : map (cell_map g) (stored c (Building_layout v) l) = stored c (Building_layout v) (option_map (Building_floats g) l).
Proof. apply stored_norm. intros x. apply Building_norm. Qed.
Global Hint Rewrite Building_norms Building_norm_slots Building_norm_stored : norm_cells.
Lemma Unit_norm g v x : map (cell_map g) (Unit_layout v x) = Unit_layout v (Unit_floats g x).
Proof. unfold Unit_floats. destruct x; unfold Unit_layout, Unit_sections_layout; cbn [M_Unit.Unit_type M_Unit.Unit_id M_Unit.Unit_language_dll_name M_Unit.Unit_language_dll_creation M_Unit.Unit_class_ M_Unit.Unit_standing_graphic M_Unit.Unit_dying_graphic M_Unit.Unit_undead_graphic M_Unit.Unit_undead_mode M_Unit.Unit_hit_points M_Unit.Unit_line_of_sight M_Unit.Unit_garrison_capacity M_Unit.Unit_collision_size_x M_Unit.Unit_collision_size_y M_Unit.Unit_collision_size_z M_Unit.Unit_train_sound M_Unit.Unit_damage_sound M_Unit.Unit_dead_unit_id M_Unit.Unit_blood_unit_id M_Unit.Unit_sort_number M_Unit.Unit_can_be_built_on M_Unit.Unit_icon_id M_Unit.Unit_hide_in_editor M_Unit.Unit_old_portrait_pict M_Unit.Unit_enabled M_Unit.Unit_disabled M_Unit.Unit_placement_side_terrain M_Unit.Unit_placement_terrain M_Unit.Unit_clearance_size M_Unit.Unit_hill_mode M_Unit.Unit_fog_visibility M_Unit.Unit_terrain_restriction M_Unit.Unit_fly_mode M_Unit.Unit_resource_capacity M_Unit.Unit_resource_decay M_Unit.Unit_blast_defense_level M_Unit.Unit_combat_level M_Unit.Unit_interaction_mode M_Unit.Unit_minimap_mode M_Unit.Unit_interface_kind M_Unit.Unit_multiple_attribute_mode M_Unit.Unit_minimap_color M_Unit.Unit_language_dll_help M_Unit.Unit_language_dll_hotkey_text M_Unit.Unit_hot_key M_Unit.Unit_recyclable M_Unit.Unit_enable_auto_gather M_Unit.Unit_create_doppelganger_on_death M_Unit.Unit_resource_gather_group M_Unit.Unit_occlusion_mode M_Unit.Unit_obstruction_type M_Unit.Unit_obstruction_class M_Unit.Unit_trait M_Unit.Unit_civilization M_Unit.Unit_nothing M_Unit.Unit_selection_effect M_Unit.Unit_editor_selection_colour M_Unit.Unit_outline_size_x M_Unit.Unit_outline_size_y M_Unit.Unit_outline_size_z M_Unit.Unit_scenario_triggers_1 M_Unit.Unit_scenario_triggers_2 M_Unit.Unit_resource_storages M_Unit.Unit_damage_graphics M_Unit.Unit_selection_sound M_Unit.Unit_dying_sound M_Unit.Unit_wwise_train_sound_id M_Unit.Unit_wwise_damage_sound_id M_Unit.Unit_wwise_selection_sound_id M_Unit.Unit_wwise_dying_sound_id M_Unit.Unit_old_attack_reaction M_Unit.Unit_convert_terrain M_Unit.Unit_name M_Unit.Unit_copy_id M_Unit.Unit_base_id M_Unit.Unit_speed M_Unit.Unit_dead_fish M_Unit.Unit_bird M_Unit.Unit_type_50 M_Unit.Unit_projectile M_Unit.Unit_creatable M_Unit.Unit_building option_map]; norms. Qed.
Lemma Unit_norm_o g v o : map (cell_map g) (opt_cells (Unit_layout v) o) = opt_cells (Unit_layout v) (option_map (Unit_floats g) o).
Proof. destruct o; cbn [opt_cells option_map]; [apply Unit_norm|reflexivity]. Qed.
Global Hint Rewrite Unit_norm : norm_cells.
Lemma Unit_norms g v l : map (cell_map g) (flat_map (Unit_layout v) l) = flat_map (Unit_layout v) (map (Unit_floats g) l).
Proof. apply flat_norm. intros x. apply Unit_norm. Qed.
Lemma Unit_norm_slots g v l : map (cell_map g) (slots (Unit_layout v) l) = slots (Unit_layout v) (map (option_map (Unit_floats g)) l).
Proof. apply slots_norm. intros x. apply Unit_norm. Qed.
Lemma Unit_norm_stored g v c l : map (cell_map g) (stored c (Unit_layout v) l) = stored c (Unit_layout v) (option_map (Unit_floats g) l).
Proof. apply stored_norm. intros x. apply Unit_norm. Qed.
Global Hint Rewrite Unit_norms Unit_norm_slots Unit_norm_stored : norm_cells.
Lemma Civ_norm g v x : map (cell_map g) (Civ_layout v x) = Civ_layout v (Civ_floats g x).
Proof. unfold Civ_floats. destruct x; unfold Civ_layout; cbn [M_Civ.Civ_player_type M_Civ.Civ_name M_Civ.Civ_tech_tree_id M_Civ.Civ_team_bonus_id M_Civ.Civ_resources M_Civ.Civ_icon_set M_Civ.Civ_units option_map]; norms. Qed.
Global Hint Rewrite Civ_norm : norm_cells.
Lemma Civ_norms g v l : map (cell_map g) (flat_map (Civ_layout v) l) = flat_map (Civ_layout v) (map (Civ_floats g) l).
Proof. apply flat_norm. intros x. apply Civ_norm. Qed.
Lemma Civ_norm_slots g v l : map (cell_map g) (slots (Civ_layout v) l) = slots (Civ_layout v) (map (option_map (Civ_floats g)) l).
Proof. apply slots_norm. intros x. apply Civ_norm. Qed.
Lemma Civ_norm_stored g v c l : map (cell_map g) (stored c (Civ_layout v) l) = stored c (Civ_layout v) (option_map (Civ_floats g) l).
Proof. apply stored_norm. intros x. apply Civ_norm. Qed.
Global Hint Rewrite Civ_norms Civ_norm_slots Civ_norm_stored : norm_cells.
Lemma ResearchResourceCost_norm g v x : map (cell_map g) (ResearchResourceCost_layout v x) = ResearchResourceCost_layout v x.
Proof. destruct x; unfold ResearchResourceCost_layout; cbn [M_Tech.ResearchResourceCost_type M_Tech.ResearchResourceCost_amount M_Tech.ResearchResourceCost_flag option_map]; norms. Qed.
Global Hint Rewrite ResearchResourceCost_norm : norm_cells.
Lemma ResearchResourceCost_norms g v l : map (cell_map g) (flat_map (ResearchResourceCost_layout v) l) = flat_map (ResearchResourceCost_layout v) l.
Proof. apply flat_norm_id. intros x. apply ResearchResourceCost_norm. Qed.
Lemma ResearchResourceCost_norm_slots g v l : map (cell_map g) (slots (ResearchResourceCost_layout v) l) = slots (ResearchResourceCost_layout v) l.
Proof. apply slots_norm_id. intros x. apply ResearchResourceCost_norm. Qed.
Lemma ResearchResourceCost_norm_stored g v c l : map (cell_map g) (stored c (ResearchResourceCost_layout v) l) = stored c (ResearchResourceCost_layout v) l.
Proof. apply stored_norm_id. intros x. apply ResearchResourceCost_norm. Qed.
Global Hint Rewrite ResearchResourceCost_norms ResearchResourceCost_norm_slots ResearchResourceCost_norm_stored : norm_cells.
Lemma ResearchLocation_norm g v x : map (cell_map g) (ResearchLocation_layout v x) = ResearchLocation_layout v x.
Proof. destruct x; unfold ResearchLocation_layout; cbn [M_Tech.ResearchLocation_location_id M_Tech.ResearchLocation_research_time M_Tech.ResearchLocation_button_id M_Tech.ResearchLocation_hot_key_id option_map]; norms. Qed.
Global Hint Rewrite ResearchLocation_norm : norm_cells.
Lemma ResearchLocation_norms g v l : map (cell_map g) (flat_map (ResearchLocation_layout v) l) = flat_map (ResearchLocation_layout v) l.
Proof. apply flat_norm_id. intros x. apply ResearchLocation_norm. Qed.
Lemma ResearchLocation_norm_slots g v l : map (cell_map g) (slots (ResearchLocation_layout v) l) = slots (ResearchLocation_layout v) l.
Proof. apply slots_norm_id. intros x. apply ResearchLocation_norm. Qed.
Lemma ResearchLocation_norm_stored g v c l : map (cell_map g) (stored c (ResearchLocation_layout v) l) = stored c (ResearchLocation_layout v) l.
Proof. apply stored_norm_id. intros x. apply ResearchLocation_norm. Qed.
Global Hint Rewrite ResearchLocation_norms ResearchLocation_norm_slots ResearchLocation_norm_stored : norm_cells.
Lemma Tech_norm g v x : map (cell_map g) (Tech_layout v x) = Tech_layout v x.
Proof. destruct x; unfold Tech_layout; cbn [M_Tech.Tech_required_techs M_Tech.Tech_resource_costs M_Tech.Tech_required_tech_count M_Tech.Tech_civ M_Tech.Tech_full_tech_mode M_Tech.Tech_language_dll_name M_Tech.Tech_language_dll_description M_Tech.Tech_effect_id M_Tech.Tech_type M_Tech.Tech_icon_id M_Tech.Tech_language_dll_help M_Tech.Tech_language_dll_tech_tree M_Tech.Tech_name M_Tech.Tech_repeatable M_Tech.Tech_research_locations option_map]; norms. Qed.
Global Hint Rewrite Tech_norm : norm_cells.
Lemma Tech_norms g v l : map (cell_map g) (flat_map (Tech_layout v) l) = flat_map (Tech_layout v) l.
Proof. apply flat_norm_id. intros x. apply Tech_norm. Qed.
Lemma Tech_norm_slots g v l : map (cell_map g) (slots (Tech_layout v) l) = slots (Tech_layout v) l.
Proof. apply slots_norm_id. intros x. apply Tech_norm. Qed.
Lemma Tech_norm_stored g v c l : map (cell_map g) (stored c (Tech_layout v) l) = stored c (Tech_layout v) l.
Proof. apply stored_norm_id. intros x. apply Tech_norm. Qed.
Global Hint Rewrite Tech_norms Tech_norm_slots Tech_norm_stored : norm_cells.
Lemma Common_norm g v x : map (cell_map g) (Common_layout v x) = Common_layout v x.
Proof. destruct x; unfold Common_layout; cbn [M_TechTree.Common_slots_used M_TechTree.Common_unit_research M_TechTree.Common_mode option_map]; norms. Qed.
Global Hint Rewrite Common_norm : norm_cells.
Lemma Common_norms g v l : map (cell_map g) (flat_map (Common_layout v) l) = flat_map (Common_layout v) l.
Proof. apply flat_norm_id. intros x. apply Common_norm. Qed.
Lemma Common_norm_slots g v l : map (cell_map g) (slots (Common_layout v) l) = slots (Common_layout v) l.
Proof. apply slots_norm_id. intros x. apply Common_norm. Qed.
Lemma Common_norm_stored g v c l : map (cell_map g) (stored c (Common_layout v) l) = stored c (Common_layout v) l.
Proof. apply stored_norm_id. intros x. apply Common_norm. Qed.
Global Hint Rewrite Common_norms Common_norm_slots Common_norm_stored : norm_cells.
Lemma TechTreeAge_norm g v x : map (cell_map g) (TechTreeAge_layout v x) = TechTreeAge_layout v x.
Proof. destruct x; unfold TechTreeAge_layout; cbn [M_TechTree.TechTreeAge_id M_TechTree.TechTreeAge_status M_TechTree.TechTreeAge_buildings M_TechTree.TechTreeAge_units M_TechTree.TechTreeAge_techs M_TechTree.TechTreeAge_common M_TechTree.TechTreeAge_num_building_levels M_TechTree.TechTreeAge_buildings_per_zone M_TechTree.TechTreeAge_group_length_per_zone M_TechTree.TechTreeAge_max_age_length M_TechTree.TechTreeAge_line_mode option_map]; norms. Qed.
Global Hint Rewrite TechTreeAge_norm : norm_cells.
Lemma TechTreeAge_norms g v l : map (cell_map g) (flat_map (TechTreeAge_layout v) l) = flat_map (TechTreeAge_layout v) l.
Proof. apply flat_norm_id. intros x. apply TechTreeAge_norm. Qed.
Lemma TechTreeAge_norm_slots g v l : map (cell_map g) (slots (TechTreeAge_layout v) l) = slots (TechTreeAge_layout v) l.
Proof. apply slots_norm_id. intros x. apply TechTreeAge_norm. Qed.
Lemma TechTreeAge_norm_stored g v c l : map (cell_map g) (stored c (TechTreeAge_layout v) l) = stored c (TechTreeAge_layout v) l.
Proof. apply stored_norm_id. intros x. apply TechTreeAge_norm. Qed.
Global Hint Rewrite TechTreeAge_norms TechTreeAge_norm_slots TechTreeAge_norm_stored : norm_cells.
Lemma BuildingConnection_norm g v x : map (cell_map g) (BuildingConnection_layout v x) = BuildingConnection_layout v x.
Proof. destruct x; unfold BuildingConnection_layout; cbn [M_TechTree.BuildingConnection_id M_TechTree.BuildingConnection_status M_TechTree.BuildingConnection_buildings M_TechTree.BuildingConnection_units M_TechTree.BuildingConnection_techs M_TechTree.BuildingConnection_common M_TechTree.BuildingConnection_location_in_age M_TechTree.BuildingConnection_units_techs_total M_TechTree.BuildingConnection_units_techs_first M_TechTree.BuildingConnection_line_mode M_TechTree.BuildingConnection_enabling_research option_map]; norms. Qed.
Global Hint Rewrite BuildingConnection_norm : norm_cells.
Lemma BuildingConnection_norms g v l : map (cell_map g) (flat_map (BuildingConnection_layout v) l) = flat_map (BuildingConnection_layout v) l.
Proof. apply flat_norm_id. intros x. apply BuildingConnection_norm. Qed.
Lemma BuildingConnection_norm_slots g v l : map (cell_map g) (slots (BuildingConnection_layout v) l) = slots (BuildingConnection_layout v) l.
Proof. apply slots_norm_id. intros x. apply BuildingConnection_norm. Qed.
Lemma BuildingConnection_norm_stored g v c l : map (cell_map g) (stored c (BuildingConnection_layout v) l) = stored c (BuildingConnection_layout v) l.
Proof. apply stored_norm_id. intros x. apply BuildingConnection_norm. Qed.
Global Hint Rewrite BuildingConnection_norms BuildingConnection_norm_slots BuildingConnection_norm_stored : norm_cells.
Lemma UnitConnection_norm g v x : map (cell_map g) (UnitConnection_layout v x) = UnitConnection_layout v x.
Proof. destruct x; unfold UnitConnection_layout; cbn [M_TechTree.UnitConnection_id M_TechTree.UnitConnection_status M_TechTree.UnitConnection_upper_building M_TechTree.UnitConnection_common M_TechTree.UnitConnection_vertical_line M_TechTree.UnitConnection_units M_TechTree.UnitConnection_location_in_age M_TechTree.UnitConnection_required_research M_TechTree.UnitConnection_line_mode M_TechTree.UnitConnection_enabling_research option_map]; norms. Qed.
Global Hint Rewrite UnitConnection_norm : norm_cells.
Lemma UnitConnection_norms g v l : map (cell_map g) (flat_map (UnitConnection_layout v) l) = flat_map (UnitConnection_layout v) l.
Proof. apply flat_norm_id. intros x. apply UnitConnection_norm. Qed.
Lemma UnitConnection_norm_slots g v l : map (cell_map g) (slots (UnitConnection_layout v) l) = slots (UnitConnection_layout v) l.
Proof. apply slots_norm_id. intros x. apply UnitConnection_norm. Qed.
Lemma UnitConnection_norm_stored g v c l : map (cell_map g) (stored c (UnitConnection_layout v) l) = stored c (UnitConnection_layout v) l.
Proof. apply stored_norm_id. intros x. apply UnitConnection_norm. Qed.
Global Hint Rewrite UnitConnection_norms UnitConnection_norm_slots UnitConnection_norm_stored : norm_cells.
Lemma ResearchConnection_norm g v x : map (cell_map g) (ResearchConnection_layout v x) = ResearchConnection_layout v x.
Proof. destruct x; unfold ResearchConnection_layout; cbn [M_TechTree.ResearchConnection_id M_TechTree.ResearchConnection_status M_TechTree.ResearchConnection_upper_building M_TechTree.ResearchConnection_buildings M_TechTree.ResearchConnection_units M_TechTree.ResearchConnection_techs M_TechTree.ResearchConnection_common M_TechTree.ResearchConnection_vertical_line M_TechTree.ResearchConnection_location_in_age M_TechTree.ResearchConnection_line_mode option_map]; norms. Qed.
Global Hint Rewrite ResearchConnection_norm : norm_cells.
Lemma ResearchConnection_norms g v l : map (cell_map g) (flat_map (ResearchConnection_layout v) l) = flat_map (ResearchConnection_layout v) l.
Proof. apply flat_norm_id. intros x. apply ResearchConnection_norm. Qed.
Lemma ResearchConnection_norm_slots g v l : map (cell_map g) (slots (ResearchConnection_layout v) l) = slots (ResearchConnection_layout v) l.
Proof. apply slots_norm_id. intros x. apply ResearchConnection_norm. Qed.
Lemma ResearchConnection_norm_stored g v c l : map (cell_map g) (stored c (ResearchConnection_layout v) l) = stored c (ResearchConnection_layout v) l.
Proof. apply stored_norm_id. intros x. apply ResearchConnection_norm. Qed.
Global Hint Rewrite ResearchConnection_norms ResearchConnection_norm_slots ResearchConnection_norm_stored : norm_cells.
Lemma TechTree_norm g v x : map (cell_map g) (TechTree_layout v x) = TechTree_layout v x.
Proof. destruct x; unfold TechTree_layout; cbn [M_TechTree.TechTree_total_unit_tech_groups M_TechTree.TechTree_tech_tree_ages M_TechTree.TechTree_building_connections M_TechTree.TechTree_unit_connections M_TechTree.TechTree_research_connections option_map]; norms. Qed.
Global Hint Rewrite TechTree_norm : norm_cells.
Lemma TechTree_norms g v l : map (cell_map g) (flat_map (TechTree_layout v) l) = flat_map (TechTree_layout v) l.
Proof. apply flat_norm_id. intros x. apply TechTree_norm. Qed.
Lemma TechTree_norm_slots g v l : map (cell_map g) (slots (TechTree_layout v) l) = slots (TechTree_layout v) l.
Proof. apply slots_norm_id. intros x. apply TechTree_norm. Qed.
Lemma TechTree_norm_stored g v c l : map (cell_map g) (stored c (TechTree_layout v) l) = stored c (TechTree_layout v) l.
Proof. apply stored_norm_id. intros x. apply TechTree_norm. Qed.
Global Hint Rewrite TechTree_norms TechTree_norm_slots TechTree_norm_stored : norm_cells.
Lemma SoundItem_np v x : forallb unpadded (SoundItem_layout v x) = true.
Proof. unfold SoundItem_layout; nps. Qed.
Lemma SoundItem_nps v l : forallb unpadded (flat_map (SoundItem_layout v) l) = true.
Proof. apply np_flat, SoundItem_np. Qed.
Lemma SoundItem_np_slots v l : forallb unpadded (slots (SoundItem_layout v) l) = true.
Proof. apply np_slots, SoundItem_np. Qed.
Lemma SoundItem_np_stored v c l : forallb unpadded (stored c (SoundItem_layout v) l) = true.
Proof. apply np_stored, SoundItem_np. Qed.
Global Hint Rewrite SoundItem_np SoundItem_nps SoundItem_np_slots SoundItem_np_stored : np_cells.
Lemma Sound_np v x : forallb unpadded (Sound_layout v x) = true.
Proof. unfold Sound_layout; nps. Qed.
Lemma Sound_nps v l : forallb unpadded (flat_map (Sound_layout v) l) = true.
Proof. apply np_flat, Sound_np. Qed.
Lemma Sound_np_slots v l : forallb unpadded (slots (Sound_layout v) l) = true.
Proof. apply np_slots, Sound_np. Qed.
Lemma Sound_np_stored v c l : forallb unpadded (stored c (Sound_layout v) l) = true.
Proof. apply np_stored, Sound_np. Qed.
Global Hint Rewrite Sound_np Sound_nps Sound_np_slots Sound_np_stored : np_cells.
Lemma PlayerColour_np v x : forallb unpadded (PlayerColour_layout v x) = true.
Proof. unfold PlayerColour_layout; nps. Qed.
Lemma PlayerColour_nps v l : forallb unpadded (flat_map (PlayerColour_layout v) l) = true.
Proof. apply np_flat, PlayerColour_np. Qed.
Lemma PlayerColour_np_slots v l : forallb unpadded (slots (PlayerColour_layout v) l) = true.
Proof. apply np_slots, PlayerColour_np. Qed.
Lemma PlayerColour_np_stored v c l : forallb unpadded (stored c (PlayerColour_layout v) l) = true.
Proof. apply np_stored, PlayerColour_np. Qed.
Global Hint Rewrite PlayerColour_np PlayerColour_nps PlayerColour_np_slots PlayerColour_np_stored : np_cells.
Lemma EffectCommand_np v x : forallb unpadded (EffectCommand_layout v x) = true.
Proof. unfold EffectCommand_layout; nps. Qed.
Lemma EffectCommand_nps v l : forallb unpadded (flat_map (EffectCommand_layout v) l) = true.
Proof. apply np_flat, EffectCommand_np. Qed.
Lemma EffectCommand_np_slots v l : forallb unpadded (slots (EffectCommand_layout v) l) = true.
Proof. apply np_slots, EffectCommand_np. Qed.
Lemma EffectCommand_np_stored v c l : forallb unpadded (stored c (EffectCommand_layout v) l) = true.
Proof. apply np_stored, EffectCommand_np. Qed.
Global Hint Rewrite EffectCommand_np EffectCommand_nps EffectCommand_np_slots EffectCommand_np_stored : np_cells.
Lemma Effect_np v x : forallb unpadded (Effect_layout v x) = true.
Proof. unfold Effect_layout; nps. Qed.
Lemma Effect_nps v l : forallb unpadded (flat_map (Effect_layout v) l) = true.
Proof. apply np_flat, Effect_np. Qed.
Lemma Effect_np_slots v l : forallb unpadded (slots (Effect_layout v) l) = true.
Proof. apply np_slots, Effect_np. Qed.
Lemma Effect_np_stored v c l : forallb unpadded (stored c (Effect_layout v) l) = true.
Proof. apply np_stored, Effect_np. Qed.
Global Hint Rewrite Effect_np Effect_nps Effect_np_slots Effect_np_stored : np_cells.
Lemma TerrainPassGraphic_np v x : forallb unpadded (TerrainPassGraphic_layout v x) = true.
Proof. unfold TerrainPassGraphic_layout; nps. Qed.
Lemma TerrainPassGraphic_nps v l : forallb unpadded (flat_map (TerrainPassGraphic_layout v) l) = true.
Proof. apply np_flat, TerrainPassGraphic_np. Qed.
Lemma TerrainPassGraphic_np_slots v l : forallb unpadded (slots (TerrainPassGraphic_layout v) l) = true.
Proof. apply np_slots, TerrainPassGraphic_np. Qed.
Lemma TerrainPassGraphic_np_stored v c l : forallb unpadded (stored c (TerrainPassGraphic_layout v) l) = true.
Proof. apply np_stored, TerrainPassGraphic_np. Qed.
Global Hint Rewrite TerrainPassGraphic_np TerrainPassGraphic_nps TerrainPassGraphic_np_slots TerrainPassGraphic_np_stored : np_cells.
Lemma TerrainRestriction_np v x : forallb unpadded (TerrainRestriction_layout v x) = true.
Proof. unfold TerrainRestriction_layout; nps. Qed.
Lemma TerrainRestriction_nps v l : forallb unpadded (flat_map (TerrainRestriction_layout v) l) = true.
Proof. apply np_flat, TerrainRestriction_np. Qed.
Lemma TerrainRestriction_np_slots v l : forallb unpadded (slots (TerrainRestriction_layout v) l) = true.
Proof. apply np_slots, TerrainRestriction_np. Qed.
Lemma TerrainRestriction_np_stored v c l : forallb unpadded (stored c (TerrainRestriction_layout v) l) = true.
Proof. apply np_stored, TerrainRestriction_np. Qed.
Global Hint Rewrite TerrainRestriction_np TerrainRestriction_nps TerrainRestriction_np_slots TerrainRestriction_np_stored : np_cells.
Lemma GraphicDelta_np v x : forallb unpadded (GraphicDelta_layout v x) = true.
Proof. unfold GraphicDelta_layout; nps. Qed.
Lemma GraphicDelta_nps v l : forallb unpadded (flat_map (GraphicDelta_layout v) l) = true.
Proof. apply np_flat, GraphicDelta_np. Qed.
Lemma GraphicDelta_np_slots v l : forallb unpadded (slots (GraphicDelta_layout v) l) = true.
Proof. apply np_slots, GraphicDelta_np. Qed.
Lemma GraphicDelta_np_stored v c l : forallb unpadded (stored c (GraphicDelta_layout v) l) = true.
Proof. apply np_stored, GraphicDelta_np. Qed.
Global Hint Rewrite GraphicDelta_np GraphicDelta_nps GraphicDelta_np_slots GraphicDelta_np_stored : np_cells.
Lemma GraphicAngleSound_np v x : forallb unpadded (GraphicAngleSound_layout v x) = true.
Proof. unfold GraphicAngleSound_layout; nps. Qed.
Lemma GraphicAngleSound_nps v l : forallb unpadded (flat_map (GraphicAngleSound_layout v) l) = true.
Proof. apply np_flat, GraphicAngleSound_np. Qed.
Lemma GraphicAngleSound_np_slots v l : forallb unpadded (slots (GraphicAngleSound_layout v) l) = true.
Proof. apply np_slots, GraphicAngleSound_np. Qed.
Lemma GraphicAngleSound_np_stored v c l : forallb unpadded (stored c (GraphicAngleSound_layout v) l) = true.
Proof. apply np_stored, GraphicAngleSound_np. Qed.
Global Hint Rewrite GraphicAngleSound_np GraphicAngleSound_nps GraphicAngleSound_np_slots GraphicAngleSound_np_stored : np_cells.
Lemma Graphic_np v x : forallb unpadded (Graphic_layout v x) = true.
Proof. unfold Graphic_layout; nps. Qed.
Lemma Graphic_nps v l : forallb unpadded (flat_map (Graphic_layout v) l) = true.
Proof. apply np_flat, Graphic_np. Qed.
Lemma Graphic_np_slots v l : forallb unpadded (slots (Graphic_layout v) l) = true.
Proof. apply np_slots, Graphic_np. Qed.
Lemma Graphic_np_stored v c l : forallb unpadded (stored c (Graphic_layout v) l) = true.
Proof. apply np_stored, Graphic_np. Qed.
Global Hint Rewrite Graphic_np Graphic_nps Graphic_np_slots Graphic_np_stored : np_cells.
Lemma FrameData_np v x : forallb unpadded (FrameData_layout v x) = true.
Proof. unfold FrameData_layout; nps. Qed.
Lemma FrameData_nps v l : forallb unpadded (flat_map (FrameData_layout v) l) = true.
Proof. apply np_flat, FrameData_np. Qed.
Lemma FrameData_np_slots v l : forallb unpadded (slots (FrameData_layout v) l) = true.
Proof. apply np_slots, FrameData_np. Qed.
Lemma FrameData_np_stored v c l : forallb unpadded (stored c (FrameData_layout v) l) = true.
Proof. apply np_stored, FrameData_np. Qed.
Global Hint Rewrite FrameData_np FrameData_nps FrameData_np_slots FrameData_np_stored : np_cells.
Lemma Terrain_np v x : forallb unpadded (Terrain_layout v x) = true.
Proof. unfold Terrain_layout; nps. Qed.
Lemma Terrain_nps v l : forallb unpadded (flat_map (Terrain_layout v) l) = true.
Proof. apply np_flat, Terrain_np. Qed.
Lemma Terrain_np_slots v l : forallb unpadded (slots (Terrain_layout v) l) = true.
Proof. apply np_slots, Terrain_np. Qed.
Lemma Terrain_np_stored v c l : forallb unpadded (stored c (Terrain_layout v) l) = true.
Proof. apply np_stored, Terrain_np. Qed.
Global Hint Rewrite Terrain_np Terrain_nps Terrain_np_slots Terrain_np_stored : np_cells.
Lemma TileSize_np v x : forallb unpadded (TileSize_layout v x) = true.
Proof. unfold TileSize_layout; nps. Qed.
Lemma TileSize_nps v l : forallb unpadded (flat_map (TileSize_layout v) l) = true.
Proof. apply np_flat, TileSize_np. Qed.
Lemma TileSize_np_slots v l : forallb unpadded (slots (TileSize_layout v) l) = true.
Proof. apply np_slots, TileSize_np. Qed.
Lemma TileSize_np_stored v c l : forallb unpadded (stored c (TileSize_layout v) l) = true.
Proof. apply np_stored, TileSize_np. Qed.
Global Hint Rewrite TileSize_np TileSize_nps TileSize_np_slots TileSize_np_stored : np_cells.
Lemma TerrainBlock_np v x : forallb unpadded (TerrainBlock_layout v x) = true.
Proof. unfold TerrainBlock_layout; nps. Qed.
Lemma TerrainBlock_nps v l : forallb unpadded (flat_map (TerrainBlock_layout v) l) = true.
Proof. apply np_flat, TerrainBlock_np. Qed.
Lemma TerrainBlock_np_slots v l : forallb unpadded (slots (TerrainBlock_layout v) l) = true.
Proof. apply np_slots, TerrainBlock_np. Qed.
Lemma TerrainBlock_np_stored v c l : forallb unpadded (stored c (TerrainBlock_layout v) l) = true.
Proof. apply np_stored, TerrainBlock_np. Qed.
Global Hint Rewrite TerrainBlock_np TerrainBlock_nps TerrainBlock_np_slots TerrainBlock_np_stored : np_cells.
Lemma MapUnit_np v x : forallb unpadded (MapUnit_layout v x) = true.
Proof. unfold MapUnit_layout; nps. Qed.
Lemma MapUnit_nps v l : forallb unpadded (flat_map (MapUnit_layout v) l) = true.
Proof. apply np_flat, MapUnit_np. Qed.
Lemma MapUnit_np_slots v l : forallb unpadded (slots (MapUnit_layout v) l) = true.
Proof. apply np_slots, MapUnit_np. Qed.
Lemma MapUnit_np_stored v c l : forallb unpadded (stored c (MapUnit_layout v) l) = true.
Proof. apply np_stored, MapUnit_np. Qed.
Global Hint Rewrite MapUnit_np MapUnit_nps MapUnit_np_slots MapUnit_np_stored : np_cells.
Lemma MapTerrain_np v x : forallb unpadded (MapTerrain_layout v x) = true.
Proof. unfold MapTerrain_layout; nps. Qed.
Lemma MapTerrain_nps v l : forallb unpadded (flat_map (MapTerrain_layout v) l) = true.
Proof. apply np_flat, MapTerrain_np. Qed.
Lemma MapTerrain_np_slots v l : forallb unpadded (slots (MapTerrain_layout v) l) = true.
Proof. apply np_slots, MapTerrain_np. Qed.
Lemma MapTerrain_np_stored v c l : forallb unpadded (stored c (MapTerrain_layout v) l) = true.
Proof. apply np_stored, MapTerrain_np. Qed.
Global Hint Rewrite MapTerrain_np MapTerrain_nps MapTerrain_np_slots MapTerrain_np_stored : np_cells.
Lemma MapLand_np v x : forallb unpadded (MapLand_layout v x) = true.
Proof. unfold MapLand_layout; nps. Qed.
Lemma MapLand_nps v l : forallb unpadded (flat_map (MapLand_layout v) l) = true.
Proof. apply np_flat, MapLand_np. Qed.
Lemma MapLand_np_slots v l : forallb unpadded (slots (MapLand_layout v) l) = true.
Proof. apply np_slots, MapLand_np. Qed.
Lemma MapLand_np_stored v c l : forallb unpadded (stored c (MapLand_layout v) l) = true.
Proof. apply np_stored, MapLand_np. Qed.
Global Hint Rewrite MapLand_np MapLand_nps MapLand_np_slots MapLand_np_stored : np_cells.
Lemma MapElevation_np v x : forallb unpadded (MapElevation_layout v x) = true.
Proof. unfold MapElevation_layout; nps. Qed.
Lemma MapElevation_nps v l : forallb unpadded (flat_map (MapElevation_layout v) l) = true.
Proof. apply np_flat, MapElevation_np. Qed.
Lemma MapElevation_np_slots v l : forallb unpadded (slots (MapElevation_layout v) l) = true.
Proof. apply np_slots, MapElevation_np. Qed.
Lemma MapElevation_np_stored v c l : forallb unpadded (stored c (MapElevation_layout v) l) = true.
Proof. apply np_stored, MapElevation_np. Qed.
Global Hint Rewrite MapElevation_np MapElevation_nps MapElevation_np_slots MapElevation_np_stored : np_cells.
Lemma MapInfo_np v x : forallb unpadded (MapInfo_layout v x) = true.
Proof. unfold MapInfo_layout; nps. Qed.
Lemma MapInfo_nps v l : forallb unpadded (flat_map (MapInfo_layout v) l) = true.
Proof. apply np_flat, MapInfo_np. Qed.
Lemma MapInfo_np_slots v l : forallb unpadded (slots (MapInfo_layout v) l) = true.
Proof. apply np_slots, MapInfo_np. Qed.
Lemma MapInfo_np_stored v c l : forallb unpadded (stored c (MapInfo_layout v) l) = true.
Proof. apply np_stored, MapInfo_np. Qed.
Global Hint Rewrite MapInfo_np MapInfo_nps MapInfo_np_slots MapInfo_np_stored : np_cells.
Lemma RandomMaps_np v x : forallb unpadded (RandomMaps_layout v x) = true.
Proof. unfold RandomMaps_layout; nps. Qed.
Lemma RandomMaps_nps v l : forallb unpadded (flat_map (RandomMaps_layout v) l) = true.
Proof. apply np_flat, RandomMaps_np. Qed.
Lemma RandomMaps_np_slots v l : forallb unpadded (slots (RandomMaps_layout v) l) = true.
Proof. apply np_slots, RandomMaps_np. Qed.
Lemma RandomMaps_np_stored v c l : forallb unpadded (stored c (RandomMaps_layout v) l) = true.
Proof. apply np_stored, RandomMaps_np. Qed.
Global Hint Rewrite RandomMaps_np RandomMaps_nps RandomMaps_np_slots RandomMaps_np_stored : np_cells.
Lemma Task_np v x : forallb unpadded (Task_layout v x) = true.
Proof. unfold Task_layout; nps. Qed.
Lemma Task_nps v l : forallb unpadded (flat_map (Task_layout v) l) = true.
Proof. apply np_flat, Task_np. Qed.
Lemma Task_np_slots v l : forallb unpadded (slots (Task_layout v) l) = true.
Proof. apply np_slots, Task_np. Qed.
Lemma Task_np_stored v c l : forallb unpadded (stored c (Task_layout v) l) = true.
Proof. apply np_stored, Task_np. Qed.
Global Hint Rewrite Task_np Task_nps Task_np_slots Task_np_stored : np_cells.
Lemma UnitHeaders_np v x : forallb unpadded (UnitHeaders_layout v x) = true.
Proof. unfold UnitHeaders_layout; destruct (UnitHeaders_exists_ x =? 0); [reflexivity|]; destruct (UnitHeaders_task_list x); nps. Qed.
Lemma UnitHeaders_nps v l : forallb unpadded (flat_map (UnitHeaders_layout v) l) = true.
Proof. apply np_flat, UnitHeaders_np. Qed.
Lemma UnitHeaders_np_slots v l : forallb unpadded (slots (UnitHeaders_layout v) l) = true.
Proof. apply np_slots, UnitHeaders_np. Qed.
Lemma UnitHeaders_np_stored v c l : forallb unpadded (stored c (UnitHeaders_layout v) l) = true.
Proof. apply np_stored, UnitHeaders_np. Qed.
Global Hint Rewrite UnitHeaders_np UnitHeaders_nps UnitHeaders_np_slots UnitHeaders_np_stored : np_cells.
Lemma ResourceStorage_np v x : forallb unpadded (ResourceStorage_layout v x) = true.
Proof. unfold ResourceStorage_layout; nps. Qed.
Lemma ResourceStorage_nps v l : forallb unpadded (flat_map (ResourceStorage_layout v) l) = true.
Proof. apply np_flat, ResourceStorage_np. Qed.
Lemma ResourceStorage_np_slots v l : forallb unpadded (slots (ResourceStorage_layout v) l) = true.
Proof. apply np_slots, ResourceStorage_np. Qed.
Lemma ResourceStorage_np_stored v c l : forallb unpadded (stored c (ResourceStorage_layout v) l) = true.
Proof. apply np_stored, ResourceStorage_np. Qed.
Global Hint Rewrite ResourceStorage_np ResourceStorage_nps ResourceStorage_np_slots ResourceStorage_np_stored : np_cells.
Lemma DamageGraphic_np v x : forallb unpadded (DamageGraphic_layout v x) = true.
Proof. unfold DamageGraphic_layout; nps. Qed.
Lemma DamageGraphic_nps v l : forallb unpadded (flat_map (DamageGraphic_layout v) l) = true.
Proof. apply np_flat, DamageGraphic_np. Qed.
Lemma DamageGraphic_np_slots v l : forallb unpadded (slots (DamageGraphic_layout v) l) = true.
Proof. apply np_slots, DamageGraphic_np. Qed.
Lemma DamageGraphic_np_stored v c l : forallb unpadded (stored c (DamageGraphic_layout v) l) = true.
Proof. apply np_stored, DamageGraphic_np. Qed.
Global Hint Rewrite DamageGraphic_np DamageGraphic_nps DamageGraphic_np_slots DamageGraphic_np_stored : np_cells.
Lemma DeadFish_np v x : forallb unpadded (DeadFish_layout v x) = true.
Proof. unfold DeadFish_layout; nps. Qed.
Lemma DeadFish_nps v l : forallb unpadded (flat_map (DeadFish_layout v) l) = true.
Proof. apply np_flat, DeadFish_np. Qed.
Lemma DeadFish_np_slots v l : forallb unpadded (slots (DeadFish_layout v) l) = true.
Proof. apply np_slots, DeadFish_np. Qed.
Lemma DeadFish_np_stored v c l : forallb unpadded (stored c (DeadFish_layout v) l) = true.
Proof. apply np_stored, DeadFish_np. Qed.
Global Hint Rewrite DeadFish_np DeadFish_nps DeadFish_np_slots DeadFish_np_stored : np_cells.
Lemma Bird_np v x : forallb unpadded (Bird_layout v x) = true.
Proof. unfold Bird_layout; nps. Qed.
Lemma Bird_nps v l : forallb unpadded (flat_map (Bird_layout v) l) = true.
Proof. apply np_flat, Bird_np. Qed.
Lemma Bird_np_slots v l : forallb unpadded (slots (Bird_layout v) l) = true.
Proof. apply np_slots, Bird_np. Qed.
Lemma Bird_np_stored v c l : forallb unpadded (stored c (Bird_layout v) l) = true.
Proof. apply np_stored, Bird_np. Qed.
Global Hint Rewrite Bird_np Bird_nps Bird_np_slots Bird_np_stored : np_cells.
Lemma AttackOrArmor_np v x : forallb unpadded (AttackOrArmor_layout v x) = true.
Proof. unfold AttackOrArmor_layout; nps. Qed.
Lemma AttackOrArmor_nps v l : forallb unpadded (flat_map (AttackOrArmor_layout v) l) = true.
Proof. apply np_flat, AttackOrArmor_np. Qed.
Lemma AttackOrArmor_np_slots v l : forallb unpadded (slots (AttackOrArmor_layout v) l) = true.
Proof. apply np_slots, AttackOrArmor_np. Qed.
Lemma AttackOrArmor_np_stored v c l : forallb unpadded (stored c (AttackOrArmor_layout v) l) = true.
Proof. apply np_stored, AttackOrArmor_np. Qed.
Global Hint Rewrite AttackOrArmor_np AttackOrArmor_nps AttackOrArmor_np_slots AttackOrArmor_np_stored : np_cells.
Lemma Type50_np v x : forallb unpadded (Type50_layout v x) = true.
Proof. unfold Type50_layout; nps. Qed.
Lemma Type50_nps v l : forallb unpadded (flat_map (Type50_layout v) l) = true.
Proof. apply np_flat, Type50_np. Qed.
Lemma Type50_np_slots v l : forallb unpadded (slots (Type50_layout v) l) = true.
Proof. apply np_slots, Type50_np. Qed.
Lemma Type50_np_stored v c l : forallb unpadded (stored c (Type50_layout v) l) = true.
Proof. apply np_stored, Type50_np. Qed.
Global Hint Rewrite Type50_np Type50_nps Type50_np_slots Type50_np_stored : np_cells.
Lemma Projectile_np v x : forallb unpadded (Projectile_layout v x) = true.
Proof. unfold Projectile_layout; nps. Qed.
Lemma Projectile_nps v l : forallb unpadded (flat_map (Projectile_layout v) l) = true.
Proof. apply np_flat, Projectile_np. Qed.
Lemma Projectile_np_slots v l : forallb unpadded (slots (Projectile_layout v) l) = true.
Proof. apply np_slots, Projectile_np. Qed.
Lemma Projectile_np_stored v c l : forallb unpadded (stored c (Projectile_layout v) l) = true.
Proof. apply np_stored, Projectile_np. Qed.
Global Hint Rewrite Projectile_np Projectile_nps Projectile_np_slots Projectile_np_stored : np_cells.
Lemma ResourceCost_np v x : forallb unpadded (ResourceCost_layout v x) = true.
Proof. unfold ResourceCost_layout; nps. Qed.
Lemma ResourceCost_nps v l : forallb unpadded (flat_map (ResourceCost_layout v) l) = true.
Proof. apply np_flat, ResourceCost_np. Qed.
Lemma ResourceCost_np_slots v l : forallb unpadded (slots (ResourceCost_layout v) l) = true.
Proof. apply np_slots, ResourceCost_np. Qed.
Lemma ResourceCost_np_stored v c l : forallb unpadded (stored c (ResourceCost_layout v) l) = true.
Proof. apply np_stored, ResourceCost_np. Qed.
Global Hint Rewrite ResourceCost_np ResourceCost_nps ResourceCost_np_slots ResourceCost_np_stored : np_cells.
Lemma TrainLocation_np v x : forallb unpadded (TrainLocation_layout v x) = true.
Proof. unfold TrainLocation_layout; nps. Qed.
Lemma TrainLocation_nps v l : forallb unpadded (flat_map (TrainLocation_layout v) l) = true.
Proof. apply np_flat, TrainLocation_np. Qed.
Lemma TrainLocation_np_slots v l : forallb unpadded (slots (TrainLocation_layout v) l) = true.
Proof. apply np_slots, TrainLocation_np. Qed.
Lemma TrainLocation_np_stored v c l : forallb unpadded (stored c (TrainLocation_layout v) l) = true.
Proof. apply np_stored, TrainLocation_np. Qed.
Global Hint Rewrite TrainLocation_np TrainLocation_nps TrainLocation_np_slots TrainLocation_np_stored : np_cells.
Lemma Creatable_np v x : forallb unpadded (Creatable_layout v x) = true.
Proof. unfold Creatable_layout; destruct (Creatable_train_locations x); nps. Qed.
Lemma Creatable_nps v l : forallb unpadded (flat_map (Creatable_layout v) l) = true.
Proof. apply np_flat, Creatable_np. Qed.
Lemma Creatable_np_slots v l : forallb unpadded (slots (Creatable_layout v) l) = true.
Proof. apply np_slots, Creatable_np. Qed.
Lemma Creatable_np_stored v c l : forallb unpadded (stored c (Creatable_layout v) l) = true.
Proof. apply np_stored, Creatable_np. Qed.
Global Hint Rewrite Creatable_np Creatable_nps Creatable_np_slots Creatable_np_stored : np_cells.
Lemma BuildingAnnex_np v x : forallb unpadded (BuildingAnnex_layout v x) = true.
Proof. unfold BuildingAnnex_layout; nps. Qed.
Lemma BuildingAnnex_nps v l : forallb unpadded (flat_map (BuildingAnnex_layout v) l) = true.
Proof. apply np_flat, BuildingAnnex_np. Qed.
Lemma BuildingAnnex_np_slots v l : forallb unpadded (slots (BuildingAnnex_layout v) l) = true.
Proof. apply np_slots, BuildingAnnex_np. Qed.
Lemma BuildingAnnex_np_stored v c l : forallb unpadded (stored c (BuildingAnnex_layout v) l) = true.
Proof. apply np_stored, BuildingAnnex_np. Qed.
Global Hint Rewrite BuildingAnnex_np BuildingAnnex_nps BuildingAnnex_np_slots BuildingAnnex_np_stored : np_cells.
Lemma Building_np v x : forallb unpadded (Building_layout v x) = true.
Proof. unfold Building_layout; nps. Qed.
Lemma Building_nps v l : forallb unpadded (flat_map (Building_layout v) l) = true.
Proof. apply np_flat, Building_np. Qed.
Lemma Building_np_slots v l : forallb unpadded (slots (Building_layout v) l) = true.
Proof. apply np_slots, Building_np. Qed.
Lemma Building_np_stored v c l : forallb unpadded (stored c (Building_layout v) l) = true.
Proof. apply np_stored, Building_np. Qed.
Global Hint Rewrite Building_np Building_nps Building_np_slots Building_np_stored : np_cells.
Lemma Unit_np v x : forallb unpadded (Unit_layout v x) = true.
Proof. unfold Unit_layout, Unit_sections_layout; nps. Qed.
Lemma Unit_nps v l : forallb unpadded (flat_map (Unit_layout v) l) = true.
Proof. apply np_flat, Unit_np. Qed.
Lemma Unit_np_slots v l : forallb unpadded (slots (Unit_layout v) l) = true.
Proof. apply np_slots, Unit_np. Qed.
Lemma Unit_np_stored v c l : forallb unpadded (stored c (Unit_layout v) l) = true.
Proof. apply np_stored, Unit_np. Qed.
Global Hint Rewrite Unit_np Unit_nps Unit_np_slots Unit_np_stored : np_cells.
Lemma Civ_np v x : forallb unpadded (Civ_layout v x) = true.
Proof. unfold Civ_layout; nps. Qed.
Lemma Civ_nps v l : forallb unpadded (flat_map (Civ_layout v) l) = true.
Proof. apply np_flat, Civ_np. Qed.
Lemma Civ_np_slots v l : forallb unpadded (slots (Civ_layout v) l) = true.
Proof. apply np_slots, Civ_np. Qed.
Lemma Civ_np_stored v c l : forallb unpadded (stored c (Civ_layout v) l) = true.
Proof. apply np_stored, Civ_np. Qed.
Global Hint Rewrite Civ_np Civ_nps Civ_np_slots Civ_np_stored : np_cells.
Lemma ResearchResourceCost_np v x : forallb unpadded (ResearchResourceCost_layout v x) = true.
Proof. unfold ResearchResourceCost_layout; nps. Qed.
Lemma ResearchResourceCost_nps v l : forallb unpadded (flat_map (ResearchResourceCost_layout v) l) = true.
Proof. apply np_flat, ResearchResourceCost_np. Qed.
Lemma ResearchResourceCost_np_slots v l : forallb unpadded (slots (ResearchResourceCost_layout v) l) = true.
Proof. apply np_slots, ResearchResourceCost_np. Qed.
Lemma ResearchResourceCost_np_stored v c l : forallb unpadded (stored c (ResearchResourceCost_layout v) l) = true.
Proof. apply np_stored, ResearchResourceCost_np. Qed.
Global Hint Rewrite ResearchResourceCost_np ResearchResourceCost_nps ResearchResourceCost_np_slots ResearchResourceCost_np_stored : np_cells.
Lemma ResearchLocation_np v x : forallb unpadded (ResearchLocation_layout v x) = true.
Proof. unfold ResearchLocation_layout; nps. Qed.
Lemma ResearchLocation_nps v l : forallb unpadded (flat_map (ResearchLocation_layout v) l) = true.
Proof. apply np_flat, ResearchLocation_np. Qed.
Lemma ResearchLocation_np_slots v l : forallb unpadded (slots (ResearchLocation_layout v) l) = true.
Proof. apply np_slots, ResearchLocation_np. Qed.
Lemma ResearchLocation_np_stored v c l : forallb unpadded (stored c (ResearchLocation_layout v) l) = true.
Proof. apply np_stored, ResearchLocation_np. Qed.
Global Hint Rewrite ResearchLocation_np ResearchLocation_nps ResearchLocation_np_slots ResearchLocation_np_stored : np_cells.
Lemma Tech_np v x : forallb unpadded (Tech_layout v x) = true.
Proof. unfold Tech_layout; nps. Qed.
Lemma Tech_nps v l : forallb unpadded (flat_map (Tech_layout v) l) = true.
Proof. apply np_flat, Tech_np. Qed.
Lemma Tech_np_slots v l : forallb unpadded (slots (Tech_layout v) l) = true.
Proof. apply np_slots, Tech_np. Qed.
Lemma Tech_np_stored v c l : forallb unpadded (stored c (Tech_layout v) l) = true.
Proof. apply np_stored, Tech_np. Qed.
Global Hint Rewrite Tech_np Tech_nps Tech_np_slots Tech_np_stored : np_cells.
Lemma Common_np v x : forallb unpadded (Common_layout v x) = true.
Proof. unfold Common_layout; nps. Qed.
Lemma Common_nps v l : forallb unpadded (flat_map (Common_layout v) l) = true.
Proof. apply np_flat, Common_np. Qed.
Lemma Common_np_slots v l : forallb unpadded (slots (Common_layout v) l) = true.
Proof. apply np_slots, Common_np. Qed.
Lemma Common_np_stored v c l : forallb unpadded (stored c (Common_layout v) l) = true.
Proof. apply np_stored, Common_np. Qed.
Global Hint Rewrite Common_np Common_nps Common_np_slots Common_np_stored : np_cells.
Lemma TechTreeAge_np v x : forallb unpadded (TechTreeAge_layout v x) = true.
Proof. unfold TechTreeAge_layout; nps. Qed.
Lemma TechTreeAge_nps v l : forallb unpadded (flat_map (TechTreeAge_layout v) l) = true.
Proof. apply np_flat, TechTreeAge_np. Qed.
Lemma TechTreeAge_np_slots v l : forallb unpadded (slots (TechTreeAge_layout v) l) = true.
Proof. apply np_slots, TechTreeAge_np. Qed.
Lemma TechTreeAge_np_stored v c l : forallb unpadded (stored c (TechTreeAge_layout v) l) = true.
Proof. apply np_stored, TechTreeAge_np. Qed.
Global Hint Rewrite TechTreeAge_np TechTreeAge_nps TechTreeAge_np_slots TechTreeAge_np_stored : np_cells.
Lemma BuildingConnection_np v x : forallb unpadded (BuildingConnection_layout v x) = true.
Proof. unfold BuildingConnection_layout; nps. Qed.
Lemma BuildingConnection_nps v l : forallb unpadded (flat_map (BuildingConnection_layout v) l) = true.
Proof. apply np_flat, BuildingConnection_np. Qed.
Lemma BuildingConnection_np_slots v l : forallb unpadded (slots (BuildingConnection_layout v) l) = true.
Proof. apply np_slots, BuildingConnection_np. Qed.
Lemma BuildingConnection_np_stored v c l : forallb unpadded (stored c (BuildingConnection_layout v) l) = true.
Proof. apply np_stored, BuildingConnection_np. Qed.
Global Hint Rewrite BuildingConnection_np BuildingConnection_nps BuildingConnection_np_slots BuildingConnection_np_stored : np_cells.
Lemma UnitConnection_np v x : forallb unpadded (UnitConnection_layout v x) = true.
Proof. unfold UnitConnection_layout; nps. Qed.
Lemma UnitConnection_nps v l : forallb unpadded (flat_map (UnitConnection_layout v) l) = true.
Proof. apply np_flat, UnitConnection_np. Qed.
Lemma UnitConnection_np_slots v l : forallb unpadded (slots (UnitConnection_layout v) l) = true.
Proof. apply np_slots, UnitConnection_np. Qed.
Lemma UnitConnection_np_stored v c l : forallb unpadded (stored c (UnitConnection_layout v) l) = true.
Proof. apply np_stored, UnitConnection_np. Qed.
Global Hint Rewrite UnitConnection_np UnitConnection_nps UnitConnection_np_slots UnitConnection_np_stored : np_cells.
Lemma ResearchConnection_np v x : forallb unpadded (ResearchConnection_layout v x) = true.
Proof. unfold ResearchConnection_layout; nps. Qed.
Lemma ResearchConnection_nps v l : forallb unpadded (flat_map (ResearchConnection_layout v) l) = true.
Proof. apply np_flat, ResearchConnection_np. Qed.
Lemma ResearchConnection_np_slots v l : forallb unpadded (slots (ResearchConnection_layout v) l) = true.
Proof. apply np_slots, ResearchConnection_np. Qed.
Lemma ResearchConnection_np_stored v c l : forallb unpadded (stored c (ResearchConnection_layout v) l) = true.
Proof. apply np_stored, ResearchConnection_np. Qed.
Global Hint Rewrite ResearchConnection_np ResearchConnection_nps ResearchConnection_np_slots ResearchConnection_np_stored : np_cells.
Lemma TechTree_np v x : forallb unpadded (TechTree_layout v x) = true.
Proof. unfold TechTree_layout; nps. Qed.
Lemma TechTree_nps v l : forallb unpadded (flat_map (TechTree_layout v) l) = true.
Proof. apply np_flat, TechTree_np. Qed.
Lemma TechTree_np_slots v l : forallb unpadded (slots (TechTree_layout v) l) = true.
Proof. apply np_slots, TechTree_np. Qed.
Lemma TechTree_np_stored v c l : forallb unpadded (stored c (TechTree_layout v) l) = true.
Proof. apply np_stored, TechTree_np. Qed.
Global Hint Rewrite TechTree_np TechTree_nps TechTree_np_slots TechTree_np_stored : np_cells.
(** ** Changing the floats of a data file *)
Lemma floats_terrains g x : terrains_used (DatFile_floats g x) = terrains_used x.
Proof.
  unfold terrains_used, DatFile_floats. cbn [DatFile_terrain_restrictions]. destruct (DatFile_terrain_restrictions x); [reflexivity|].
  exact (count_map _ _).
Qed.
Lemma body_norm g v x : map (cell_map g) (DatFile_body v x) = DatFile_body v (DatFile_floats g x).
Proof. unfold DatFile_body. rewrite floats_terrains. generalize (terrains_used x). intros n. unfold DatFile_floats. destruct x; cbn [M_DatFile.DatFile_version M_DatFile.DatFile_float_ptr_terrain_tables M_DatFile.DatFile_terrain_pass_graphic_pointers M_DatFile.DatFile_terrain_restrictions M_DatFile.DatFile_player_colours M_DatFile.DatFile_sounds M_DatFile.DatFile_graphics M_DatFile.DatFile_terrain_block M_DatFile.DatFile_random_maps M_DatFile.DatFile_effects M_DatFile.DatFile_unit_headers M_DatFile.DatFile_civs M_DatFile.DatFile_techs M_DatFile.DatFile_time_slice M_DatFile.DatFile_unit_kill_rate M_DatFile.DatFile_unit_kill_total M_DatFile.DatFile_unit_hit_point_rate M_DatFile.DatFile_unit_hit_point_total M_DatFile.DatFile_razing_kill_rate M_DatFile.DatFile_razing_kill_total M_DatFile.DatFile_tech_tree]; norms. Qed.
Lemma file_norm g x : map (cell_map g) (DatFile_layout x) = DatFile_layout (DatFile_floats g x).
Proof.
  unfold DatFile_layout. replace (DatFile_version (DatFile_floats g x)) with (DatFile_version x) by reflexivity.
  destruct (file_version (DatFile_version x)) as [v|]; [|reflexivity].
  rewrite norm_guard, map_app, body_norm. cbn [map cell_map].
  replace (count (DatFile_float_ptr_terrain_tables (DatFile_floats g x))) with (count (DatFile_float_ptr_terrain_tables x)) by reflexivity.
  replace (count (DatFile_terrain_pass_graphic_pointers (DatFile_floats g x))) with (count (DatFile_terrain_pass_graphic_pointers x)) by reflexivity.
  replace (count (DatFile_terrain_restrictions (DatFile_floats g x))) with (count (DatFile_terrain_restrictions x)); [reflexivity|].
  symmetry. apply count_map.
Qed.

Lemma body_np v x : forallb unpadded (DatFile_body v x) = true.
Proof. unfold DatFile_body. generalize (terrains_used x). intros n. nps. Qed.

