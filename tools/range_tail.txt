Theorem C24_UnitHeaders : forall v x bs tasks, UnitHeaders_to_bytes x v = Ok bs -> UnitHeaders_exists_ x <> 0 ->
  UnitHeaders_task_list x = Some tasks -> (length tasks <= Z.to_nat 32767)%nat.
Proof.
  intros v x bs tasks E N T. apply (count_i16 C23_UnitHeaders E). unfold UnitHeaders_layout. rewrite T.
  replace (UnitHeaders_exists_ x =? 0) with false by (symmetry; apply Z.eqb_neq, N). cbn [In app]. tauto.
Qed.

(** ** The whole file *)
Lemma file_cells x w bs : DatFile_to_bytes x w = Ok bs -> exists v, file_version (DatFile_version x) = Some v /\
  DatFile_flat_layout x = [Padded 8 (DatFile_version x)] ++ DatFile_flat_body v x.
Proof.
  intros E. pose proof (C07_DatFile_flat x w) as H. rewrite E in H. cbn [returned] in H. unfold DatFile_flat_layout in *.
  destruct (file_version (DatFile_version x)) as [v|]; [|discriminate H]. exists v. split; [reflexivity|].
  unfold guard in *. destruct (_ && _); [reflexivity|discriminate H].
Qed.
Theorem C23_DatFile : range_checked DatFile_to_bytes (fun _ => DatFile_flat_layout).
Proof. apply table_range. intros w x _. apply C07_DatFile_flat. Qed.
(** A few values by name, as a reader of the README meets them: a saved file holds only values
    that fit ... *)
Theorem C23_file_values : forall x w bs, DatFile_to_bytes x w = Ok bs ->
  (forall t c, In t (DatFile_techs x) -> In c (Tech_resource_costs t) ->
     -32768 <= ResearchResourceCost_type c <= 32767 /\ -32768 <= ResearchResourceCost_amount c <= 32767
     /\ 0 <= ResearchResourceCost_flag c <= 255) /\
  (forall c u, In c (DatFile_civs x) -> In (Some u) (Civ_units c) ->
     -128 <= Unit_type u <= 127 /\ -32768 <= Unit_copy_id u <= 32767 /\ -32768 <= Unit_base_id u <= 32767
     /\ 0 <= Unit_convert_terrain u <= 255) /\
  (forall z, In z [DatFile_time_slice x; DatFile_unit_kill_rate x; DatFile_unit_kill_total x; DatFile_unit_hit_point_rate x;
                   DatFile_unit_hit_point_total x; DatFile_razing_kill_rate x; DatFile_razing_kill_total x] ->
     -2147483648 <= z <= 2147483647).
Proof.
  intros x w bs E. destruct (file_cells x w bs E) as (v & V & L).
  assert (R : forall c, In c (DatFile_flat_body v x) -> in_range c).
  { intros c Hc. apply (range_in C23_DatFile E). rewrite L. apply in_or_app. right. exact Hc. }
  clear L. unfold DatFile_flat_body in R. split; [|split].
  - intros t c Ht Hc. assert (K : forall k, In k (ResearchResourceCost_layout v c) -> in_range k).
    { intros k Hk. apply R. do 20 (apply in_or_app; right). apply in_or_app; left. apply in_flat_map. exists t. split; [exact Ht|].
      unfold Tech_layout. destruct (since 88 v); apply in_or_app; right; apply in_or_app; left; apply in_flat_map; exists c; auto. }
    unfold ResearchResourceCost_layout in K. split; [|split].
    + apply (K (I16 _)). left; reflexivity.
    + apply (K (I16 _)). right; left; reflexivity.
    + apply (K (U8 _)). right; right; left; reflexivity.
  - intros c u Hc Hu. assert (K : forall k, In k (Unit_flat_layout v u) -> in_range k).
    { intros k Hk. apply R. do 18 (apply in_or_app; right). apply in_or_app; left. apply in_flat_map. exists c. split; [exact Hc|].
      unfold Civ_flat_layout. do 4 (apply in_or_app; right). unfold slots. apply in_flat_map. exists (Some u). auto. }
    unfold Unit_flat_layout in K.
    assert (K4 : forall k, In k [I16 (Unit_selection_sound u); I16 (Unit_dying_sound u); I32 (Unit_wwise_train_sound_id u);
      I32 (Unit_wwise_damage_sound_id u); I32 (Unit_wwise_selection_sound_id u);
      I32 (Unit_wwise_dying_sound_id u); U8 (Unit_old_attack_reaction u);
      U8 (Unit_convert_terrain u); Text (Unit_name u); I16 (Unit_copy_id u); I16 (Unit_base_id u)] -> in_range k).
    { intros k Hk. apply K. do 4 (apply in_or_app; right). apply in_or_app; left. exact Hk. }
    split; [|split; [|split]].
    + apply (K (I8 _)). apply in_or_app; left. unfold Unit_items, Unit_values. left; reflexivity.
    + apply (K4 (I16 _)). cbn [In]. tauto.
    + apply (K4 (I16 _)). cbn [In]. tauto.
    + apply (K4 (U8 _)). cbn [In]. tauto.
  - intros z Hz. apply (R (I32 z)). do 21 (apply in_or_app; right). apply in_or_app; left. cbn [In] in *.
    intuition (subst; auto 10).
Qed.
(** ... so that setting the amount of a research cost to a value outside 16 bits is an error. *)
Theorem C23_cost_too_large : forall x t c w, In t (DatFile_techs x) -> In c (Tech_resource_costs t) ->
  ~ (-32768 <= ResearchResourceCost_amount c <= 32767) -> exists e, DatFile_to_bytes x w = Err e.
Proof.
  intros x t c w Ht Hc N. destruct (DatFile_to_bytes x w) as [bs|e] eqn:E; [|eauto]. exfalso. apply N.
  apply (C23_file_values x w bs E) with t; assumption.
Qed.

(** No list of a saved file is longer than its count field can say. *)
Theorem C24_DatFile : forall x w bs, DatFile_to_bytes x w = Ok bs ->
  (length (DatFile_terrain_restrictions x) <= Z.to_nat 32767)%nat /\
  (length (DatFile_player_colours x) <= Z.to_nat 32767)%nat /\
  (length (DatFile_sounds x) <= Z.to_nat 32767)%nat /\
  (length (DatFile_graphics x) <= Z.to_nat 32767)%nat /\
  (length (DatFile_effects x) <= Z.to_nat 2147483647)%nat /\
  (length (DatFile_unit_headers x) <= Z.to_nat 2147483647)%nat /\
  (length (DatFile_civs x) <= Z.to_nat 32767)%nat /\
  (length (DatFile_techs x) <= Z.to_nat 32767)%nat /\
  (forall r rest, DatFile_terrain_restrictions x = r :: rest ->
     (length (TerrainRestriction_passable_buildable_dmg_multiplier r) <= Z.to_nat 32767)%nat).
Proof.
  intros x w bs E. destruct (file_cells x w bs E) as (v & V & L).
  assert (R : forall c, In c (DatFile_flat_body v x) -> in_range c).
  { intros c Hc. apply (range_in C23_DatFile E). rewrite L. apply in_or_app. right. exact Hc. }
  clear L. unfold DatFile_flat_body in R.
  assert (K16 : forall A (l : list A), in_range (I16 (count l)) -> (length l <= Z.to_nat 32767)%nat).
  { intros A l H. cbn in H. unfold count in H. lia. }
  assert (K32 : forall A (l : list A), in_range (I32 (count l)) -> (length l <= Z.to_nat 2147483647)%nat).
  { intros A l H. cbn in H. unfold count in H. lia. }
  split; [apply K16, R; left; reflexivity|].
  split; [apply K16, R; do 4 (apply in_or_app; right); left; reflexivity|].
  split; [apply K16, R; do 6 (apply in_or_app; right); left; reflexivity|].
  split; [apply K16, R; do 8 (apply in_or_app; right); left; reflexivity|].
  split; [apply K32, R; do 13 (apply in_or_app; right); left; reflexivity|].
  split; [apply K32, R; do 15 (apply in_or_app; right); left; reflexivity|].
  split; [apply K16, R; do 17 (apply in_or_app; right); left; reflexivity|].
  split; [apply K16, R; do 19 (apply in_or_app; right); left; reflexivity|].
  intros r rest Hr. apply K16. replace (count (TerrainRestriction_passable_buildable_dmg_multiplier r)) with (terrains_used x).
  - apply R. right. left. reflexivity.
  - unfold terrains_used. rewrite Hr. reflexivity.
Qed.
(** The records of a saved file obey the bounds above: for example no civilisation of a saved
    file has more than 32767 unit slots, and no unit more than 255 damage graphics. *)
Theorem C24_file_records : forall x w bs, DatFile_to_bytes x w = Ok bs ->
  (forall s, In s (DatFile_sounds x) -> (length (Sound_items s) <= Z.to_nat 32767)%nat) /\
  (forall g, In (Some g) (DatFile_graphics x) -> (length (Graphic_deltas g) <= Z.to_nat 32767)%nat) /\
  (forall e, In e (DatFile_effects x) -> (length (Effect_effect_commands e) <= Z.to_nat 32767)%nat) /\
  (forall c, In c (DatFile_civs x) -> (length (Civ_units c) <= Z.to_nat 32767)%nat /\ (length (Civ_resources c) <= Z.to_nat 32767)%nat /\
     forall u, In (Some u) (Civ_units c) -> (length (Unit_damage_graphics u) <= Z.to_nat 255)%nat) /\
  (length (TechTree_tech_tree_ages (DatFile_tech_tree x)) <= Z.to_nat 255)%nat.
Proof.
  intros x w bs E. destruct (C35_records x w bs E) as (v & _ & _ & _ & S & G & _ & _ & Ef & _ & Cv & _ & T & _).
  assert (P : forall A (tb : A -> Version -> res bytes) l a, encoded tb v l bs -> In a l -> exists b, tb a v = Ok b).
  { intros A tb l a (parts & F & _) Ha. clear - F Ha. induction F as [|y p l parts Hy F IH]; [destruct Ha|].
    destruct Ha as [->|Ha]; [eauto|apply IH, Ha]. }
  split; [|split; [|split; [|split]]].
  - intros s Hs. destruct (P _ _ _ _ S Hs) as (b & Hb). exact (C24_Sound v s b Hb).
  - intros g Hg. assert (Hg' : In g (flat_map opt_list (DatFile_graphics x))) by (apply in_flat_map; exists (Some g); cbn; auto).
    destruct (P _ _ _ _ G Hg') as (b & Hb). exact (C24_Graphic v g b Hb).
  - intros e He. destruct (P _ _ _ _ Ef He) as (b & Hb). exact (C24_Effect v e b Hb).
  - intros c Hc. destruct (P _ _ _ _ Cv Hc) as (b & Hb). destruct (C24_Civ v c b Hb) as (R1 & R2). split; [exact R2|]. split; [exact R1|].
    intros u Hu. destruct (C22_save_civ c v b Hb) as (pre & us & _ & W).
    assert (EU : encoded Unit_to_bytes v (flat_map opt_list (Civ_units c)) us).
    { apply slots_encoded. exists us. split; [exact W|apply contains_refl]. }
    destruct EU as (parts & F & _). assert (Hu' : In u (flat_map opt_list (Civ_units c))) by (apply in_flat_map; exists (Some u); cbn; auto).
    assert (X : exists b', Unit_to_bytes u v = Ok b').
    { clear - F Hu'. induction F as [|y p l parts Hy F IH]; [destruct Hu'|]. destruct Hu' as [->|Hu']; [eauto|apply IH, Hu']. }
    destruct X as (b' & Hb'). exact (C24_Unit v u b' Hb').
  - destruct (P _ _ _ _ T (or_introl eq_refl)) as (b & Hb). exact (proj1 (C24_TechTree v _ b Hb)).
Qed.

Example C23_case : forall v, v <> UNDEFINED -> exists bs, DatFile_to_bytes (sample v) UNDEFINED = Ok bs.
Proof. intros v H. destruct (dat_round_trip_bytes (sample v) (sample_wf v H)) as (bs & E & _). exists bs. exact E. Qed.
Example C23_case_cost : ResearchResourceCost_to_bytes {| ResearchResourceCost_type := 0; ResearchResourceCost_amount := 32768;
   ResearchResourceCost_flag := 0 |} VER_84 = Err OverflowError.
Proof. reflexivity. Qed.
Example C24_case : UnitConnection_to_bytes (with_UnitConnection_units (repeat 1 256) (sample_UnitConnection VER_84)) VER_84 = Err OverflowError
  /\ exists bs, UnitConnection_to_bytes (with_UnitConnection_units (repeat 1 255) (sample_UnitConnection VER_84)) VER_84 = Ok bs.
Proof. split; [vm_compute; reflexivity|]. eexists. vm_compute. reflexivity. Qed.
Definition all_of_this_file := (NAMES, C24_UnitHeaders, C23_DatFile, C23_file_values, C23_cost_too_large, C24_DatFile, C24_file_records).
Print Assumptions all_of_this_file.
