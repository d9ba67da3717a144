(** * C44: the parts of a file can be put together freely.

    A file object survives (it saves, and loads as itself) iff each of its records does on
    its own, and a few counts fit.  So records can be removed, reordered, repeated, or taken
    from another file of the same version. *)
From Verif Require Import Base PyInt PyFloat PyStr Versions Common Wire Layout Shape Spec Update.
From Verif Require Import M_Sound M_PlayerColour M_Effect M_TerrainRestriction M_Graphic
  M_TerrainBlock M_RandomMaps M_Task M_UnitHeaders M_Unit M_Civ M_Tech M_TechTree M_DatFile.
From Verif Require Import Codec CodecP CodecF CodecC P_Simple P_More P_Unit P_UnitR P_Civ Theory Sample ConvertP Props_Classes.
From Coq Require Import ZifyBool.
Open Scope Z_scope.
Local Open Scope list_scope.
Local Notation length := List.length.

(** ** Specification *)
(** A file object that saves, and loads as itself. *)
Definition survives (x : DatFile) : Prop := exists bs, to_bytes x = Ok bs /\ from_bytes bs = Ok x.
(** A record that [r.to_bytes(v)] writes, and that its class's [from_bytes] reads back. *)
Definition keeps {A} (tb : A -> Version -> res bytes) (fb : rd A) (v : Version) (r : A) : Prop :=
  exists bs, tb r v = Ok bs /\ decodes fb v bs r.
(** An optional slot is empty, or its record is kept. *)
Definition slot {A} (P : A -> Prop) (o : option A) : Prop := match o with Some a => P a | None => True end.
(** The file is of version [v]. *)
Definition version_is (v : Version) (x : DatFile) : Prop := DatFile_version x = version_value v.
(** What an i16, an i32 can hold. *)
Definition i16 (z : Z) : Prop := -32768 <= z <= 32767.
Definition i32 (z : Z) : Prop := -2147483648 <= z <= 2147483647.
Definition u8 (z : Z) : Prop := 0 <= z <= 255.

(** The terrain restrictions: as many as either list of pointers, and all of them of one
    number of terrains. *)
Definition restrictions_ok (v : Version) (tables graphics : list Z) (l : list TerrainRestriction) : Prop :=
  length tables = length l /\ length graphics = length l /\ Forall i32 tables /\ Forall i32 graphics /\
  i16 (count l) /\
  exists n, 0 <= n <= 32767 /\
    Forall (keeps TerrainRestriction_to_bytes (TerrainRestriction_from_bytes_with_count n) v) l.

(** Every part of the file is fine on its own. *)
Definition parts_ok (v : Version) (x : DatFile) : Prop :=
  restrictions_ok v (DatFile_float_ptr_terrain_tables x) (DatFile_terrain_pass_graphic_pointers x) (DatFile_terrain_restrictions x) /\
  (i16 (count (DatFile_player_colours x)) /\ Forall (keeps PlayerColour_to_bytes PlayerColour_from_bytes v) (DatFile_player_colours x)) /\
  (i16 (count (DatFile_sounds x)) /\ Forall (keeps Sound_to_bytes Sound_from_bytes v) (DatFile_sounds x)) /\
  (i16 (count (DatFile_graphics x)) /\ Forall (slot (keeps Graphic_to_bytes Graphic_from_bytes v)) (DatFile_graphics x)) /\
  keeps TerrainBlock_to_bytes TerrainBlock_from_bytes v (DatFile_terrain_block x) /\
  keeps RandomMaps_to_bytes RandomMaps_from_bytes v (DatFile_random_maps x) /\
  (i32 (count (DatFile_effects x)) /\ Forall (keeps Effect_to_bytes Effect_from_bytes v) (DatFile_effects x)) /\
  (i32 (count (DatFile_unit_headers x)) /\ Forall (keeps UnitHeaders_to_bytes UnitHeaders_from_bytes v) (DatFile_unit_headers x)) /\
  (i16 (count (DatFile_civs x)) /\ Forall (keeps Civ_to_bytes Civ_from_bytes v) (DatFile_civs x)) /\
  (i16 (count (DatFile_techs x)) /\ Forall (keeps Tech_to_bytes Tech_from_bytes v) (DatFile_techs x)) /\
  Forall i32 [DatFile_time_slice x; DatFile_unit_kill_rate x; DatFile_unit_kill_total x; DatFile_unit_hit_point_rate x;
     DatFile_unit_hit_point_total x; DatFile_razing_kill_rate x; DatFile_razing_kill_total x] /\
  keeps TechTree_to_bytes TechTree_from_bytes v (DatFile_tech_tree x).

(** ** Lemmas *)
Section Lemmas.
  Context {A : Type} {tb : A -> Version -> res bytes} {fb : rd A} {lay : Version -> A -> list cell}
    {shape : Version -> A -> Prop} (L : codec_laws tb fb lay shape).
  Lemma keeps_wf v r : keeps tb fb v r <-> wf lay shape v r.
  Proof.
    destruct L as (R & S & _). split.
    - intros (bs & _ & D). specialize (D [] [] []). exact (proj1 (S _ _ _ D)).
    - intros W. exact (R v r W).
  Qed.
  Lemma keeps_list v l : Forall (keeps tb fb v) l <-> cells_ok (flat_map (lay v) l) /\ Forall (shape v) l.
  Proof.
    rewrite cells_ok_flat_map. split.
    - intros F. split; (eapply Forall_impl; [|exact F]); intros a H; apply keeps_wf in H; apply H.
    - intros [F G]. apply Forall_forall. intros a H. apply keeps_wf. rewrite Forall_forall in F, G. split; auto.
  Qed.
  Lemma keeps_slots v l : Forall (slot (keeps tb fb v)) l <-> cells_ok (slots (lay v) l) /\ Forall (on_some (shape v)) l.
  Proof.
    unfold slots. rewrite cells_ok_flat_map. split.
    - intros F. split; (eapply Forall_impl; [|exact F]); intros [a|] H; cbn [slot on_some] in *; try exact I; try reflexivity; apply keeps_wf in H; apply H.
    - intros [F G]. apply Forall_forall. intros [a|] H; [|exact I]. apply keeps_wf. rewrite Forall_forall in F, G. specialize (F _ H). specialize (G _ H). split; auto.
  Qed.
End Lemmas.
Lemma always_Forall {A} (P : A -> Prop) l : (forall a, P a) -> Forall P l. Proof. intros H. apply Forall_forall. auto. Qed.
Lemma ok_flags {A} (l : list (option A)) : cells_ok (flags l).
Proof. induction l as [|[a|] l IH]; [reflexivity|..]; cbn; exact IH. Qed.
Lemma ok_I16 z : cell_ok (I16 z) = true <-> i16 z.
Proof. unfold cell_ok, within, i16. lia. Qed.
Lemma ok_I32 z : cell_ok (I32 z) = true <-> i32 z.
Proof. unfold cell_ok, within, i32. lia. Qed.
Lemma ok_U8 z : cell_ok (U8 z) = true <-> u8 z.
Proof. unfold cell_ok, within, u8. lia. Qed.
Lemma ok_one_I16 z : cells_ok [I16 z] <-> i16 z.
Proof. rewrite cells_ok_cons, ok_I16. pose proof cells_ok_nil. tauto. Qed.
Lemma ok_one_I32 z : cells_ok [I32 z] <-> i32 z.
Proof. rewrite cells_ok_cons, ok_I32. pose proof cells_ok_nil. tauto. Qed.
Lemma ok_one_U8 z : cells_ok [U8 z] <-> u8 z.
Proof. rewrite cells_ok_cons, ok_U8. pose proof cells_ok_nil. tauto. Qed.
Lemma ok_map_I32 l : cells_ok (map I32 l) <-> Forall i32 l.
Proof.
  induction l as [|a l IH]; cbn [map].
  - split; intros _; [constructor|exact cells_ok_nil].
  - rewrite cells_ok_cons, ok_I32, IH. split; [intros [A B]; constructor; assumption|intros F; inversion F; auto].
Qed.
Lemma restrictions_iff v l : i16 (count l) ->
  ((i16 (match l with r :: _ => count (TerrainRestriction_passable_buildable_dmg_multiplier r) | [] => 0 end) /\
    cells_ok (flat_map (TerrainRestriction_layout v) l) /\
    Forall (fun r => count (TerrainRestriction_passable_buildable_dmg_multiplier r)
       = match l with r :: _ => count (TerrainRestriction_passable_buildable_dmg_multiplier r) | [] => 0 end) l)
   <-> exists n, 0 <= n <= 32767 /\
    Forall (keeps TerrainRestriction_to_bytes (TerrainRestriction_from_bytes_with_count n) v) l).
Proof.
  intros _. split.
  - intros (B & C & F). set (n := match l with [] => 0 | r :: _ => _ end) in *. exists n.
    assert (N : 0 <= n) by (unfold n; destruct l; [lia|unfold count; lia]).
    split; [unfold i16 in B; lia|]. apply (keeps_list (C06_TerrainRestriction n N)). split; [exact C|exact F].
  - intros (n & N & F). apply (keeps_list (C06_TerrainRestriction n (proj1 N))) in F. destruct F as [C F]. unfold terrains in F.
    split; [|split; [exact C|]].
    + destruct l as [|r l]; [unfold i16; lia|]. inversion F as [|? ? E _]; subst. unfold i16. lia.
    + destruct l as [|r l]; [constructor|]. inversion F as [|? ? E _]; subst. exact F.
Qed.

Lemma survives_body x v : v <> UNDEFINED -> version_is v x ->
  (survives x <-> (length (DatFile_float_ptr_terrain_tables x) = length (DatFile_terrain_restrictions x) /\
     length (DatFile_terrain_pass_graphic_pointers x) = length (DatFile_terrain_restrictions x)) /\
     cells_ok (DatFile_body v x) /\ DatFile_body_shape v x).
Proof.
  intros N V. unfold version_is in V. unfold survives. rewrite <- wf_iff_survives. unfold DatFile_wf, DatFile_layout, DatFile_shape.
  rewrite V, (file_version_value v N), ?V. rewrite cells_ok_guard, cells_ok_app, cells_ok_cons.
  assert (P : cell_ok (Padded 8 (version_value v)) = true) by (destruct v; [congruence|..]; vm_compute; reflexivity).
  pose proof cells_ok_nil. unfold count. rewrite andb_true_iff, !Z.eqb_eq, !Nat2Z.inj_iff. tauto.
Qed.
Lemma trivial_list {A} {tb : A -> Version -> res bytes} {fb : rd A} {lay} (L : codec_laws tb fb lay (fun _ _ => True)) v l :
  Forall (keeps tb fb v) l <-> cells_ok (flat_map (lay v) l).
Proof. rewrite (keeps_list L). split; [intros [H _]; exact H|intros H; split; [exact H|apply always_Forall; auto]]. Qed.

(** ** A file survives iff its parts do *)
Theorem C44_file : forall v x, v <> UNDEFINED -> version_is v x -> (survives x <-> parts_ok v x).
Proof.
  intros v x N V. rewrite (survives_body x v N V). unfold parts_ok, restrictions_ok, DatFile_body, DatFile_body_shape, terrains_used.
  rewrite (trivial_list (C06_PlayerColour : codec_laws _ _ _ (fun _ _ => True))).
  rewrite (trivial_list (C06_Sound : codec_laws _ _ _ (fun _ _ => True))).
  rewrite (keeps_slots C06_Graphic), (keeps_wf C06_TerrainBlock), (keeps_wf C06_RandomMaps).
  rewrite (trivial_list (C06_Effect : codec_laws _ _ _ (fun _ _ => True))).
  rewrite (keeps_list C06_UnitHeaders), (keeps_list C06_Civ), (keeps_list C06_Tech), (keeps_wf C06_TechTree). unfold wf.
  change ([I32 (DatFile_time_slice x); I32 (DatFile_unit_kill_rate x); I32 (DatFile_unit_kill_total x);
      I32 (DatFile_unit_hit_point_rate x); I32 (DatFile_unit_hit_point_total x);
      I32 (DatFile_razing_kill_rate x); I32 (DatFile_razing_kill_total x)]) with
    (map I32 [DatFile_time_slice x; DatFile_unit_kill_rate x; DatFile_unit_kill_total x; DatFile_unit_hit_point_rate x;
     DatFile_unit_hit_point_total x; DatFile_razing_kill_rate x; DatFile_razing_kill_total x]).
  rewrite !cells_ok_app, !cells_ok_cons, !ok_I16, !ok_I32, !ok_map_I32.
  pose proof (restrictions_iff v (DatFile_terrain_restrictions x)) as R.
  pose proof (ok_flags (DatFile_graphics x)) as OF. pose proof cells_ok_nil as Nil. tauto.
Qed.
(** Whatever survives has a version string that is known, and not "UNDEFINED" (it is too long). *)
Theorem C44_version : forall x, survives x -> exists v, v <> UNDEFINED /\ version_is v x.
Proof.
  intros x S. apply wf_iff_survives in S. destruct S as [C S]. unfold DatFile_layout, DatFile_shape, version_is in *.
  destruct (file_version (DatFile_version x)) as [v|] eqn:E; [|destruct S]. exists v.
  unfold file_version in E. apply find_some in E. destruct E as [_ E].
  destruct (list_eq_dec Z.eq_dec (version_value v) (DatFile_version x)) as [W|]; [|discriminate E].
  split; [|symmetry; exact W]. intros ->. rewrite <- W in C. apply cells_ok_guard in C. destruct C as [_ C].
  apply cells_ok_app in C. destruct C as [C _]. vm_compute in C. discriminate C.
Qed.

(** ** Replacing one list of the file *)
Ltac file_lists :=
  intros v x l N V S; apply (C44_file _ _ N V) in S;
  match goal with |- survives (?w l x) <-> _ => rewrite (C44_file v (w l x) N) by (destruct x; exact V) end;
  destruct x; unfold parts_ok in *; cbn in *; tauto.
Theorem C44_player_colours : forall v x l, v <> UNDEFINED -> version_is v x -> survives x ->
  (survives (with_DatFile_player_colours l x) <-> i16 (count l) /\ Forall (keeps PlayerColour_to_bytes PlayerColour_from_bytes v) l).
Proof. file_lists. Qed.
Theorem C44_sounds : forall v x l, v <> UNDEFINED -> version_is v x -> survives x ->
  (survives (with_DatFile_sounds l x) <-> i16 (count l) /\ Forall (keeps Sound_to_bytes Sound_from_bytes v) l).
Proof. file_lists. Qed.
Theorem C44_graphics : forall v x l, v <> UNDEFINED -> version_is v x -> survives x ->
  (survives (with_DatFile_graphics l x) <-> i16 (count l) /\ Forall (slot (keeps Graphic_to_bytes Graphic_from_bytes v)) l).
Proof. file_lists. Qed.
Theorem C44_effects : forall v x l, v <> UNDEFINED -> version_is v x -> survives x ->
  (survives (with_DatFile_effects l x) <-> i32 (count l) /\ Forall (keeps Effect_to_bytes Effect_from_bytes v) l).
Proof. file_lists. Qed.
Theorem C44_unit_headers : forall v x l, v <> UNDEFINED -> version_is v x -> survives x ->
  (survives (with_DatFile_unit_headers l x) <-> i32 (count l) /\ Forall (keeps UnitHeaders_to_bytes UnitHeaders_from_bytes v) l).
Proof. file_lists. Qed.
Theorem C44_civs : forall v x l, v <> UNDEFINED -> version_is v x -> survives x ->
  (survives (with_DatFile_civs l x) <-> i16 (count l) /\ Forall (keeps Civ_to_bytes Civ_from_bytes v) l).
Proof. file_lists. Qed.
Theorem C44_techs : forall v x l, v <> UNDEFINED -> version_is v x -> survives x ->
  (survives (with_DatFile_techs l x) <-> i16 (count l) /\ Forall (keeps Tech_to_bytes Tech_from_bytes v) l).
Proof. file_lists. Qed.
Theorem C44_terrain_block : forall v x b, v <> UNDEFINED -> version_is v x -> survives x ->
  (survives (with_DatFile_terrain_block b x) <-> keeps TerrainBlock_to_bytes TerrainBlock_from_bytes v b).
Proof. file_lists. Qed.
Theorem C44_random_maps : forall v x b, v <> UNDEFINED -> version_is v x -> survives x ->
  (survives (with_DatFile_random_maps b x) <-> keeps RandomMaps_to_bytes RandomMaps_from_bytes v b).
Proof. file_lists. Qed.
Theorem C44_tech_tree : forall v x b, v <> UNDEFINED -> version_is v x -> survives x ->
  (survives (with_DatFile_tech_tree b x) <-> keeps TechTree_to_bytes TechTree_from_bytes v b).
Proof. file_lists. Qed.
(** The three lists of the terrain restrictions have to be replaced together. *)
Theorem C44_terrain_restrictions : forall v x ps qs l, v <> UNDEFINED -> version_is v x -> survives x ->
  (survives (with_DatFile_terrain_restrictions l (with_DatFile_terrain_pass_graphic_pointers qs (with_DatFile_float_ptr_terrain_tables ps x)))
   <-> restrictions_ok v ps qs l).
Proof.
  intros v x ps qs l N V S. apply (C44_file _ _ N V) in S.
  rewrite (C44_file v _ N) by (destruct x; exact V). destruct x; unfold parts_ok in *; cbn in *; tauto.
Qed.

(** ** Rearranging *)
(** From [l] pick any elements, in any order, as often as wanted. *)
Lemma Forall_pick {A} (P : A -> Prop) l m : incl m l -> Forall P l -> Forall P m.
Proof. rewrite !Forall_forall. auto. Qed.
(** The lists of two files of one version can be mixed: pick any records of the one or the
    other, in any order, as often as wanted, as long as the count can be written. *)
Definition mixed {A} (l a b : list A) : Prop := forall r, In r l -> In r a \/ In r b.
Lemma Forall_mixed {A} (P : A -> Prop) l a b : mixed l a b -> Forall P a -> Forall P b -> Forall P l.
Proof. rewrite !Forall_forall. intros M F G r H. destruct (M r H); auto. Qed.
Theorem C44_mix : forall v x y cs ss gs es us civs ts, v <> UNDEFINED -> version_is v x -> version_is v y -> survives x -> survives y ->
  mixed cs (DatFile_player_colours x) (DatFile_player_colours y) -> i16 (count cs) ->
  mixed ss (DatFile_sounds x) (DatFile_sounds y) -> i16 (count ss) ->
  mixed gs (DatFile_graphics x) (DatFile_graphics y) -> i16 (count gs) ->
  mixed es (DatFile_effects x) (DatFile_effects y) -> i32 (count es) ->
  mixed us (DatFile_unit_headers x) (DatFile_unit_headers y) -> i32 (count us) ->
  mixed civs (DatFile_civs x) (DatFile_civs y) -> i16 (count civs) ->
  mixed ts (DatFile_techs x) (DatFile_techs y) -> i16 (count ts) ->
  survives (with_DatFile_player_colours cs (with_DatFile_sounds ss (with_DatFile_graphics gs (with_DatFile_effects es
    (with_DatFile_unit_headers us (with_DatFile_civs civs (with_DatFile_techs ts
    (with_DatFile_terrain_block (DatFile_terrain_block y) (with_DatFile_random_maps (DatFile_random_maps y) (with_DatFile_tech_tree (DatFile_tech_tree y) x)))))))))).
Proof.
  intros v x y cs ss gs es us civs ts N V V' S S' Mc Cc Ms Cs Mg Cg Me Ce Mu Cu Mv Cv Mt Ct.
  apply (C44_file _ _ N V) in S. apply (C44_file _ _ N V') in S'.
  apply (C44_file v _ N); [destruct x; exact V|].
  unfold parts_ok in S, S'.
  destruct S as (R1 & R2 & R3 & R4 & R5 & R6 & R7 & R8 & R9 & R10 & R11 & R12).
  destruct S' as (Q1 & Q2 & Q3 & Q4 & Q5 & Q6 & Q7 & Q8 & Q9 & Q10 & Q11 & Q12).
  pose proof (Forall_mixed _ _ _ _ Mc (proj2 R2) (proj2 Q2)). pose proof (Forall_mixed _ _ _ _ Ms (proj2 R3) (proj2 Q3)).
  pose proof (Forall_mixed _ _ _ _ Mg (proj2 R4) (proj2 Q4)). pose proof (Forall_mixed _ _ _ _ Me (proj2 R7) (proj2 Q7)).
  pose proof (Forall_mixed _ _ _ _ Mu (proj2 R8) (proj2 Q8)). pose proof (Forall_mixed _ _ _ _ Mv (proj2 R9) (proj2 Q9)).
  pose proof (Forall_mixed _ _ _ _ Mt (proj2 R10) (proj2 Q10)).
  clear - Cc Cs Cg Ce Cu Cv Ct R1 R11 Q5 Q6 Q12 H H0 H1 H2 H3 H4 H5. destruct x. unfold parts_ok; cbn in *. tauto.
Qed.

(** ** Replacing a list inside a record *)
Ltac record_list CL EL CLay CSh ESh :=
  intros v x l; intros;
  repeat match goal with H : keeps _ _ _ _ |- _ => apply (keeps_wf CL) in H; revert H end;
  first [rewrite (keeps_list EL)|rewrite (keeps_slots EL)]; rewrite !(keeps_wf CL); unfold wf, CLay, CSh, Creatable_core_shape;
  try match goal with H : since 88 ?v = true |- _ => rewrite H end;
  try match goal with |- context [Forall (ESh v) l] => assert (TRIV : (forall e, ESh v e) -> Forall (ESh v) l) by (apply always_Forall) end;
  try (assert (TRIV' : forall e, ESh v e) by (intros e; exact I));
  try (pose proof (ok_flags l));
  destruct x; cbn -[cells_ok cell_ok flat_map slots flags count map app Unit_layout Unit_shape TechTreeAge_shape
     BuildingConnection_shape UnitConnection_shape ResearchConnection_shape Unit_sections_layout Unit_sections_shape Unit_hot_key_shape since Z.max Z.eqb exactly];
  rewrite ?cells_ok_app;
  repeat (rewrite cells_ok_cons); rewrite ?ok_I16, ?ok_U8;
  pose proof cells_ok_nil; assert (true = false -> False) by discriminate; try tauto.
Theorem C44_Sound_items : forall v x l, keeps Sound_to_bytes Sound_from_bytes v x ->
  (keeps Sound_to_bytes Sound_from_bytes v (with_Sound_items l x) <-> i16 (count l) /\ Forall (keeps SoundItem_to_bytes SoundItem_from_bytes v) l).
Proof. record_list C06_Sound C06_SoundItem Sound_layout Sound_shape SoundItem_shape. Qed.
Theorem C44_Effect_effect_commands : forall v x l, keeps Effect_to_bytes Effect_from_bytes v x ->
  (keeps Effect_to_bytes Effect_from_bytes v (with_Effect_effect_commands l x) <-> i16 (count l) /\ Forall (keeps EffectCommand_to_bytes EffectCommand_from_bytes v) l).
Proof. record_list C06_Effect C06_EffectCommand Effect_layout Effect_shape EffectCommand_shape. Qed.
Theorem C44_Graphic_deltas : forall v x l, keeps Graphic_to_bytes Graphic_from_bytes v x ->
  (keeps Graphic_to_bytes Graphic_from_bytes v (with_Graphic_deltas l x) <-> i16 (count l) /\ Forall (keeps GraphicDelta_to_bytes GraphicDelta_from_bytes v) l).
Proof. record_list C06_Graphic C06_GraphicDelta Graphic_layout Graphic_shape GraphicDelta_shape. Qed.
Theorem C44_Bird_tasks : forall v x l, keeps Bird_to_bytes Bird_from_bytes v x ->
  (keeps Bird_to_bytes Bird_from_bytes v (with_Bird_tasks l x) <-> i16 (count l) /\ Forall (keeps Task_to_bytes Task_from_bytes v) l).
Proof. record_list C06_Bird C06_Task Bird_layout Bird_shape Task_shape. Qed.
Theorem C44_Type50_attacks : forall v x l, keeps Type50_to_bytes Type50_from_bytes v x ->
  (keeps Type50_to_bytes Type50_from_bytes v (with_Type50_attacks l x) <-> i16 (count l) /\ Forall (keeps AttackOrArmor_to_bytes AttackOrArmor_from_bytes v) l).
Proof. record_list C06_Type50 C06_AttackOrArmor Type50_layout Type50_shape AttackOrArmor_shape. Qed.
Theorem C44_Type50_armours : forall v x l, keeps Type50_to_bytes Type50_from_bytes v x ->
  (keeps Type50_to_bytes Type50_from_bytes v (with_Type50_armours l x) <-> i16 (count l) /\ Forall (keeps AttackOrArmor_to_bytes AttackOrArmor_from_bytes v) l).
Proof. record_list C06_Type50 C06_AttackOrArmor Type50_layout Type50_shape AttackOrArmor_shape. Qed.
Theorem C44_Unit_damage_graphics : forall v x l, keeps Unit_to_bytes Unit_from_bytes v x ->
  (keeps Unit_to_bytes Unit_from_bytes v (with_Unit_damage_graphics l x) <-> u8 (count l) /\ Forall (keeps DamageGraphic_to_bytes DamageGraphic_from_bytes v) l).
Proof. record_list C06_Unit C06_DamageGraphic Unit_layout Unit_shape DamageGraphic_shape. Qed.
Theorem C44_Civ_units : forall v x l, keeps Civ_to_bytes Civ_from_bytes v x ->
  (keeps Civ_to_bytes Civ_from_bytes v (with_Civ_units l x) <-> i16 (count l) /\ Forall (slot (keeps Unit_to_bytes Unit_from_bytes v)) l).
Proof. record_list C06_Civ C06_Unit Civ_layout Civ_shape Unit_shape. Qed.
Theorem C44_Tech_research_locations : forall v x l, since 88 v = true -> keeps Tech_to_bytes Tech_from_bytes v x ->
  (keeps Tech_to_bytes Tech_from_bytes v (with_Tech_research_locations l x) <-> i16 (count l) /\ Forall (keeps ResearchLocation_to_bytes ResearchLocation_from_bytes v) l).
Proof. record_list C06_Tech C06_ResearchLocation Tech_layout Tech_shape ResearchLocation_shape. Qed.
Theorem C44_Creatable_train_locations : forall v x l, since 88 v = true -> keeps Creatable_to_bytes Creatable_from_bytes v x ->
  (keeps Creatable_to_bytes Creatable_from_bytes v (with_Creatable_train_locations l x) <-> i16 (count l) /\ Forall (keeps TrainLocation_to_bytes TrainLocation_from_bytes v) l).
Proof. record_list C06_Creatable C06_TrainLocation Creatable_layout Creatable_shape TrainLocation_shape. Qed.
Theorem C44_TechTree_tech_tree_ages : forall v x l, keeps TechTree_to_bytes TechTree_from_bytes v x ->
  (keeps TechTree_to_bytes TechTree_from_bytes v (with_TechTree_tech_tree_ages l x) <-> u8 (count l) /\ Forall (keeps TechTreeAge_to_bytes TechTreeAge_from_bytes v) l).
Proof. record_list C06_TechTree C06_TechTreeAge TechTree_layout TechTree_shape TechTreeAge_shape. Qed.
Theorem C44_TechTree_building_connections : forall v x l, keeps TechTree_to_bytes TechTree_from_bytes v x ->
  (keeps TechTree_to_bytes TechTree_from_bytes v (with_TechTree_building_connections l x) <-> u8 (count l) /\ Forall (keeps BuildingConnection_to_bytes BuildingConnection_from_bytes v) l).
Proof. record_list C06_TechTree C06_BuildingConnection TechTree_layout TechTree_shape BuildingConnection_shape. Qed.
Theorem C44_TechTree_unit_connections : forall v x l, keeps TechTree_to_bytes TechTree_from_bytes v x ->
  (keeps TechTree_to_bytes TechTree_from_bytes v (with_TechTree_unit_connections l x) <-> u8 (count l) /\ Forall (keeps UnitConnection_to_bytes UnitConnection_from_bytes v) l).
Proof. record_list C06_TechTree C06_UnitConnection TechTree_layout TechTree_shape UnitConnection_shape. Qed.
Theorem C44_TechTree_research_connections : forall v x l, keeps TechTree_to_bytes TechTree_from_bytes v x ->
  (keeps TechTree_to_bytes TechTree_from_bytes v (with_TechTree_research_connections l x) <-> u8 (count l) /\ Forall (keeps ResearchConnection_to_bytes ResearchConnection_from_bytes v) l).
Proof. record_list C06_TechTree C06_ResearchConnection TechTree_layout TechTree_shape ResearchConnection_shape. Qed.
(** The task list of a unit header, if the unit exists. *)
Theorem C44_UnitHeaders_task_list : forall v x l, UnitHeaders_exists_ x <> 0 -> keeps UnitHeaders_to_bytes UnitHeaders_from_bytes v x ->
  (keeps UnitHeaders_to_bytes UnitHeaders_from_bytes v (with_UnitHeaders_task_list (Some l) x)
   <-> i16 (count l) /\ Forall (keeps Task_to_bytes Task_from_bytes v) l).
Proof.
  intros v x l E K. rewrite (keeps_list C06_Task). apply (keeps_wf C06_UnitHeaders) in K. rewrite (keeps_wf C06_UnitHeaders).
  destruct K as [K _]. unfold wf, UnitHeaders_layout, UnitHeaders_shape in *. destruct x as [e t].
  cbn -[cells_ok cell_ok flat_map count app] in *. apply cells_ok_app in K. destruct K as [K _].
  apply Z.eqb_neq in E as E'. rewrite E', !cells_ok_app, ok_one_I16. tauto.
Qed.

(** ** Concrete cases *)
(** The sample file of any version survives; so it does with its civilizations repeated and
    its graphics thrown away. *)
Lemma sample_survives v : v <> UNDEFINED -> survives (sample v).
Proof. intros N. apply wf_iff_survives, sample_wf, N. Qed.
Lemma sample_version v : version_is v (sample v).
Proof. destruct v; reflexivity. Qed.
Example C44_case_parts : forall v, v <> UNDEFINED -> parts_ok v (sample v).
Proof. intros v N. apply (C44_file v _ N (sample_version v)). apply sample_survives, N. Qed.
Example C44_case_mix : forall v, v <> UNDEFINED ->
  survives (with_DatFile_civs (DatFile_civs (sample v) ++ DatFile_civs (sample v)) (with_DatFile_graphics [] (sample v))) /\
  DatFile_civs (sample v) <> [] /\ DatFile_graphics (sample v) <> [].
Proof.
  intros v N. split; [|split; destruct v; discriminate].
  assert (S : survives (with_DatFile_graphics [] (sample v))).
  { apply (C44_graphics v _ _ N (sample_version v) (sample_survives v N)). split; [vm_compute; split; discriminate|constructor]. }
  apply (C44_civs v _ _ N); [destruct v; reflexivity|exact S|].
  pose proof (C44_case_parts v N) as P. unfold parts_ok in P. decompose [and] P. split.
  - destruct v; vm_compute; intuition discriminate.
  - apply Forall_app. split; assumption.
Qed.
(** Taking away a terrain restriction, and not its pointers, is refused. *)
Example C44_case_restrictions : forall v x, v <> UNDEFINED -> version_is v x -> survives x ->
  DatFile_terrain_restrictions x <> [] -> ~ survives (with_DatFile_terrain_restrictions [] x).
Proof.
  intros v x N V S E H. apply (C44_file v _ N V) in S. apply (C44_file v) in H; [|exact N|destruct x; exact V].
  destruct S as ((L & _) & _). destruct H as ((L' & _) & _). destruct x; cbn in *. rewrite L in L'. destruct DatFile_terrain_restrictions; [congruence|discriminate L'].
Qed.
(** Inside records: the sample effect loses its commands, the sample civilization its units. *)
Example C44_case_inner : forall v,
  keeps Effect_to_bytes Effect_from_bytes v (with_Effect_effect_commands [] (sample_Effect v)) /\
  keeps Civ_to_bytes Civ_from_bytes v (with_Civ_units [None; None] (sample_Civ v)).
Proof.
  intros v. split.
  - apply C44_Effect_effect_commands; [apply (keeps_wf C06_Effect), Effect_case|]. split; [vm_compute; split; discriminate|constructor].
  - apply C44_Civ_units; [apply (keeps_wf C06_Civ), Civ_case|]. split; [vm_compute; split; discriminate|]. repeat constructor.
Qed.

Definition all_of_this_file := (C44_file, C44_version, C44_player_colours, C44_sounds, C44_graphics, C44_effects, C44_unit_headers, C44_civs, C44_techs, C44_terrain_block, C44_random_maps, C44_tech_tree, C44_terrain_restrictions, C44_mix, C44_Sound_items, C44_Effect_effect_commands, C44_Graphic_deltas, C44_Bird_tasks, C44_Type50_attacks, C44_Type50_armours, C44_Unit_damage_graphics, C44_Civ_units, C44_Tech_research_locations, C44_Creatable_train_locations, C44_TechTree_tech_tree_ages, C44_TechTree_building_connections, C44_TechTree_unit_connections, C44_TechTree_research_connections, C44_UnitHeaders_task_list).
Print Assumptions all_of_this_file.
