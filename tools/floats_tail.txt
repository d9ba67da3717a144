(** ** Changing the floats of a data file *)
Lemma floats_terrains g x : terrains_used (DatFile_floats g x) = terrains_used x.
Proof.
  unfold terrains_used, DatFile_floats. cbn [DatFile_terrain_restrictions]. destruct (DatFile_terrain_restrictions x); [reflexivity|].
  exact (count_map _ _).
Qed.
Lemma body_norm g v x : map (cell_map g) (DatFile_body v x) = DatFile_body v (DatFile_floats g x).
Proof. unfold DatFile_body. rewrite floats_terrains. generalize (terrains_used x). intros n. unfold DatFile_floats. destruct x; cbn [PROJS]; norms. Qed.
Lemma file_norm g x : map (cell_map g) (DatFile_layout x) = DatFile_layout (DatFile_floats g x).
Proof.
  unfold DatFile_layout. replace (DatFile_version (DatFile_floats g x)) with (DatFile_version x) by reflexivity.
  destruct (file_version (DatFile_version x)) as [v|]; [|reflexivity].
  rewrite norm_guard, map_app, body_norm. cbn [map cell_map].
  replace (count (DatFile_float_ptr_terrain_tables (DatFile_floats g x))) with (count (DatFile_float_ptr_terrain_tables x)) by reflexivity.
  replace (count (DatFile_terrain_pass_graphic_pointers (DatFile_floats g x))) with (count (DatFile_terrain_pass_graphic_pointers x)) by reflexivity.
  replace (count (DatFile_terrain_restrictions (DatFile_floats g x))) with (count (DatFile_terrain_restrictions x)); [reflexivity|].
  symmetry. apply count_map.
Qed.

Lemma body_np v x : forallb unpadded (DatFile_body v x) = true.
Proof. unfold DatFile_body. generalize (terrains_used x). intros n. nps. Qed.
