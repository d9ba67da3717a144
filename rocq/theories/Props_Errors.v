(** * C25 (consistency assertions), C39 (which exceptions), C40 (bytes behind the end). *)
From Verif Require Import Base PyInt PyFloat PyStr PyStruct DataTypes Versions Common Wire Layout Shape Spec Update Stored Faults.
From Verif Require Import M_Sound M_PlayerColour M_Effect M_TerrainRestriction M_Graphic
  M_TerrainBlock M_RandomMaps M_Task M_UnitHeaders M_Unit M_Civ M_Tech M_TechTree M_DatFile.
From Verif Require Import Codec P_More P_DatFile Theory Raise RaiseR Sample Props_Slots.
From Coq Require Import String ZifyBool.
Open Scope Z_scope.
Local Open Scope list_scope.
Local Notation length := List.length.

(** ** C25 *)
Theorem C25_restriction : forall x v, TerrainRestriction_to_bytes x v = Err AssertionError <->
  length (TerrainRestriction_passable_buildable_dmg_multiplier x) <> length (TerrainRestriction_terrain_pass_graphics x).
Proof.
  intros x v. split.
  - intros E. assert (H : raises (fun e => e = AssertionError -> uneven_restriction x) (TerrainRestriction_to_bytes x v)).
    { apply TerrainRestriction_raises; [discriminate|discriminate|auto]. }
    rewrite E in H. exact (H eq_refl).
  - intros H. unfold TerrainRestriction_to_bytes, py_assert.
    replace (_ =? _) with false; [reflexivity|]. unfold len. symmetry. apply Z.eqb_neq. lia.
Qed.
Theorem C25_random_maps : forall x v, RandomMaps_to_bytes x v = Err AssertionError <->
  length (RandomMaps_map_info_1 x) <> length (RandomMaps_map_info_2 x).
Proof.
  intros x v. split.
  - intros E. assert (H : raises (fun e => e = AssertionError -> uneven_maps x) (RandomMaps_to_bytes x v)).
    { apply RandomMaps_raises; [discriminate|discriminate|auto]. }
    rewrite E in H. exact (H eq_refl).
  - intros H. unfold RandomMaps_to_bytes, py_assert.
    replace (_ =? _) with false; [reflexivity|]. unfold len. symmetry. apply Z.eqb_neq. lia.
Qed.
(** The pointer tables are checked before anything is written. *)
Theorem C25_tables : forall x w, In (DatFile_version x) (map version_value all_versions) ->
  length (DatFile_float_ptr_terrain_tables x) <> length (DatFile_terrain_restrictions x) \/
  length (DatFile_terrain_pass_graphic_pointers x) <> length (DatFile_terrain_restrictions x) ->
  DatFile_to_bytes x w = Err AssertionError.
Proof.
  intros x w Hv H. unfold DatFile_to_bytes, version_lookup.
  destruct (find (fun v => str_eqb (version_value v) (DatFile_version x)) all_versions) as [v|] eqn:F.
  - cbn [rbind]. cbv zeta. unfold py_assert.
    replace (_ && _) with false; [reflexivity|]. unfold len. lia.
  - exfalso. apply in_map_iff in Hv as (v & E & I). apply (find_none _ _ F) in I. unfold str_eqb in I. rewrite E in I.
    rewrite (proj2 (str_compare_eq _ _) eq_refl) in I. discriminate.
Qed.
(** There is no other reason for an AssertionError ... *)
Theorem C25_only : forall x w, DatFile_to_bytes x w = Err AssertionError ->
  uneven_tables x \/ (exists r, In r (DatFile_terrain_restrictions x) /\ uneven_restriction r) \/ uneven_maps (DatFile_random_maps x).
Proof.
  intros x w E.
  assert (H : raises (fun e => e = AssertionError -> uneven_tables x \/ (exists r, In r (DatFile_terrain_restrictions x) /\ uneven_restriction r) \/ uneven_maps (DatFile_random_maps x)) (DatFile_to_bytes x w)).
  { apply DatFile_raises; try discriminate. auto. }
  rewrite E in H. exact (H eq_refl).
Qed.
Lemma Forall2_in {A B} {R : A -> B -> Prop} {l p x} : Forall2 R l p -> In x l -> exists y, R x y.
Proof. induction 1; [contradiction|]. intros [->|Hi]; [eauto|auto]. Qed.
(** ... and none of the inconsistencies is ever written. *)
Theorem C25_never_written : forall x w bs, DatFile_to_bytes x w = Ok bs ->
  length (DatFile_float_ptr_terrain_tables x) = length (DatFile_terrain_restrictions x) /\
  length (DatFile_terrain_pass_graphic_pointers x) = length (DatFile_terrain_restrictions x) /\
  (forall r, In r (DatFile_terrain_restrictions x) ->
     length (TerrainRestriction_passable_buildable_dmg_multiplier r) = length (TerrainRestriction_terrain_pass_graphics r)) /\
  length (RandomMaps_map_info_1 (DatFile_random_maps x)) = length (RandomMaps_map_info_2 (DatFile_random_maps x)).
Proof.
  intros x w bs E. destruct (C35_records x w bs E) as (v & V & R & _ & _ & _ & _ & M & _).
  assert (T : length (DatFile_float_ptr_terrain_tables x) = length (DatFile_terrain_restrictions x) /\
              length (DatFile_terrain_pass_graphic_pointers x) = length (DatFile_terrain_restrictions x)).
  { unfold DatFile_to_bytes in E. rewrite version_lookup_spec, V in E. cbn [rbind] in E. cbv zeta in E.
    unfold py_assert, len in E. destruct (_ && _) eqn:A; [|discriminate]. lia. }
  destruct T as [T1 T2]. split; [exact T1|]. split; [exact T2|]. split.
  - intros r Hr. destruct R as (parts & F & _). destruct (Nat.eq_dec (length (TerrainRestriction_passable_buildable_dmg_multiplier r)) (length (TerrainRestriction_terrain_pass_graphics r))) as [|N]; [assumption|].
    apply C25_restriction with (v := v) in N. destruct (Forall2_in F Hr) as (p & Hp). congruence.
  - destruct M as (parts & F & _). inversion F as [|? ? ? ? H1]; subst. destruct (Nat.eq_dec (length (RandomMaps_map_info_1 (DatFile_random_maps x))) (length (RandomMaps_map_info_2 (DatFile_random_maps x)))) as [|N]; [assumption|].
    apply C25_random_maps with (v := v) in N. congruence.
Qed.
Example C25_case : forall w, DatFile_to_bytes (with_DatFile_float_ptr_terrain_tables [] (sample VER_84)) w = Err AssertionError.
Proof. intros w. apply C25_tables; [vm_compute; tauto|]. left. vm_compute. discriminate. Qed.

(** ** C39 *)
(** Saving raises one of six exceptions. *)
Theorem C39_save : forall x w e, DatFile_to_bytes x w = Err e ->
  In e [OverflowError; StructError; ValueError; AssertionError; UnicodeEncodeError; IndexError].
Proof.
  intros x w e E. assert (H : raises (fun e => In e [OverflowError; StructError; ValueError; AssertionError; UnicodeEncodeError; IndexError]) (DatFile_to_bytes x w)).
  { apply DatFile_raises; intros; repeat (first [left; reflexivity | right]). }
  rewrite E in H. exact H.
Qed.
(** ValueError exactly for a version string that is not enumerated. *)
Theorem C39_save_value : forall x w, DatFile_to_bytes x w = Err ValueError <-> ~ In (DatFile_version x) (map version_value all_versions).
Proof.
  intros x w. split; [|apply C35_save_unknown]. intros E I.
  assert (H : raises (fun e => e = ValueError -> file_version (DatFile_version x) = None) (DatFile_to_bytes x w)).
  { apply DatFile_raises; try discriminate. auto. }
  rewrite E in H. specialize (H eq_refl). apply in_map_iff in I as (v & Ev & Iv).
  unfold file_version in H. apply (find_none _ _ H) in Iv. destruct (list_eq_dec Z.eq_dec _ _); congruence.
Qed.
(** UnicodeEncodeError only for a string with a lone surrogate. *)
Theorem C39_save_unicode : forall x w, DatFile_to_bytes x w = Err UnicodeEncodeError ->
  exists s, In s (DatFile_strings x) /\ not_text s.
Proof.
  intros x w E. assert (H : raises (fun e => e = UnicodeEncodeError -> exists s, In s (DatFile_strings x) /\ not_text s) (DatFile_to_bytes x w)).
  { apply DatFile_raises; try discriminate. eauto. }
  rewrite E in H. exact (H eq_refl).
Qed.
(** IndexError only for a unit without train location, saved for a version before 8.8. *)
Theorem C39_save_index : forall x w, DatFile_to_bytes x w = Err IndexError ->
  exists v u, file_version (DatFile_version x) = Some v /\ In u (units_of x) /\ unit_trains_nowhere v u.
Proof.
  intros x w E. assert (H : raises (fun e => e = IndexError -> exists v u, file_version (DatFile_version x) = Some v /\ In u (units_of x) /\ unit_trains_nowhere v u) (DatFile_to_bytes x w)).
  { apply DatFile_raises; try discriminate. intros v u; eauto. }
  rewrite E in H. exact (H eq_refl).
Qed.
(** OverflowError and struct.error only for a value or tuple that has no place in its field: an
    object with none of the four defects above, all of whose cells are representable, is saved
    (C07, C23). *)

(** Loading raises one of four exceptions. *)
Theorem C39_load : forall bs e, from_bytes bs = Err e -> In e [StructError; AssertionError; UnicodeDecodeError; ValueError].
Proof.
  intros bs e E. unfold from_bytes in E.
  assert (H : Rd (fun e => In e [StructError; AssertionError; UnicodeDecodeError; ValueError]) DatFile_from_bytes) by (apply Rd_DatFile; cbn; tauto).
  specialize (H (new_handler bs)). destruct (DatFile_from_bytes (new_handler bs)) as [[x h]|]; [discriminate|]. injection E as <-. exact H.
Qed.
Lemma from_bytes_header bs : exists ls, from_bytes bs =
  match String_from_bytes (firstn 8 bs) with
  | Err e => Err e
  | Ok s => match version_lookup s with
            | Err e => Err e
            | Ok v => match read_body s (mkHandler bs 8 v ls) with Ok (x, _) => Ok x | Err e => Err e end
            end
  end.
Proof.
  exists (if Nat.ltb (length (firstn 8 bs)) 8 then [ShortRead] else []).
  unfold from_bytes. rewrite from_bytes_split.
  unfold read_string, consume_range, consume_slice, new_handler, bind at 1 2 3 4 5, lift, note, ret.
  cbn [h_content h_offset h_version h_losses]. unfold slice. cbn [skipn].
  destruct (String_from_bytes (firstn 8 bs)) as [s|e]; [|reflexivity].
  unfold bind. destruct (version_lookup s) as [v|e]; [|reflexivity]. unfold set_version.
  destruct (Nat.ltb _ _); reflexivity.
Qed.
(** ValueError exactly for a header that is text but not a version. *)
Theorem C39_load_value : forall bs, from_bytes bs = Err ValueError <->
  exists s, String_from_bytes (firstn 8 bs) = Ok s /\ ~ In s (map version_value all_versions).
Proof.
  intros bs. split; [|intros (s & E & N); exact (C35_load_unknown bs s E N)].
  destruct (from_bytes_header bs) as (ls & ->).
  destruct (String_from_bytes (firstn 8 bs)) as [s|e] eqn:S.
  - intros E. exists s. split; [reflexivity|]. intros I. destruct (version_lookup s) as [v|e] eqn:V.
    + pose proof (Rd_body (S := fun e => e <> ValueError) s ltac:(discriminate) ltac:(discriminate) ltac:(discriminate) (mkHandler bs 8 v ls)) as H.
      destruct (read_body s _) as [[y h']|]; [discriminate|]. apply H. congruence.
    + unfold version_lookup in V. destruct (find _ all_versions) eqn:F; [discriminate|].
      apply in_map_iff in I as (v & <- & I). apply (find_none _ _ F) in I. unfold str_eqb in I.
      rewrite (proj2 (str_compare_eq _ _) eq_refl) in I. discriminate.
  - intros E. unfold String_from_bytes, bytes_decode in S. destruct (utf8_decode _); congruence.
Qed.
(** Tech trees, random maps, player colours and effect commands are made of integers only: reading
    them never raises, whatever is there. *)
Definition never_raises {A} (m : rd A) : Prop := forall h, exists x h', m h = Ok (x, h').
Lemma Rd_never {A} (m : rd A) : Rd (fun _ => False) m -> never_raises m.
Proof. intros H h. specialize (H h). destruct (m h) as [[x h']|]; [eauto|contradiction]. Qed.
Theorem C39_integer_records : never_raises TechTree_from_bytes /\ never_raises RandomMaps_from_bytes /\
  never_raises PlayerColour_from_bytes.
Proof. split; [|split]; apply Rd_never; eauto with rddb. Qed.
Example C39_case : from_bytes [] = Err ValueError.
Proof. reflexivity. Qed.

(** ** C40 *)
(** What is behind the bytes consumed, or was recorded before, makes no difference. *)
Definition looks_no_further {A} (m : rd A) : Prop := forall h x h', m h = Ok (x, h') ->
  (h_offset h <= h_offset h')%nat /\
  forall c2 ls, (h_offset h' <= length (h_content h))%nat -> firstn (h_offset h') c2 = firstn (h_offset h') (h_content h) ->
    exists ls', m (mkHandler c2 (h_offset h) (h_version h) ls) = Ok (x, mkHandler c2 (h_offset h') (h_version h') ls').
Lemma Rd_looks {A} (m : rd A) : Rd (fun _ => True) m -> looks_no_further m.
Proof.
  intros H h x h' E. specialize (H h). rewrite E in H. destruct H as (_ & O & new & _ & R). split; [exact O|].
  intros c2 ls L Ag. exists (new ++ ls). apply R. right. split; assumption.
Qed.
Theorem C40_records :
  looks_no_further Sound_from_bytes /\ looks_no_further PlayerColour_from_bytes /\ looks_no_further Effect_from_bytes /\
  (forall n, looks_no_further (TerrainRestriction_from_bytes_with_count n)) /\ looks_no_further Graphic_from_bytes /\
  looks_no_further TerrainBlock_from_bytes /\ looks_no_further RandomMaps_from_bytes /\ looks_no_further UnitHeaders_from_bytes /\
  looks_no_further Unit_from_bytes /\ looks_no_further Civ_from_bytes /\ looks_no_further Tech_from_bytes /\ looks_no_further TechTree_from_bytes.
Proof.
  repeat match goal with |- _ /\ _ => split end; try (intros n); apply Rd_looks; eauto with rddb.
Qed.
Theorem C40_file : looks_no_further DatFile_from_bytes.
Proof. apply Rd_looks, Rd_DatFile; exact I. Qed.
(** Trailing garbage: a file that loads without reading past its end still loads, as the same
    object, when anything is appended. *)
Theorem C40_append : forall bs x h junk, DatFile_from_bytes (new_handler bs) = Ok (x, h) -> (h_offset h <= length bs)%nat ->
  from_bytes (bs ++ junk) = Ok x.
Proof.
  intros bs x h junk E L. destruct (C40_file _ _ _ E) as [_ R].
  destruct (R (bs ++ junk) [] L) as (ls & F).
  { cbn [new_handler h_content]. rewrite firstn_app. replace (h_offset h - length bs)%nat with O by lia. rewrite firstn_O, app_nil_r. reflexivity. }
  unfold from_bytes. change (new_handler (bs ++ junk)) with (mkHandler (bs ++ junk) 0 UNDEFINED []).
  cbn [new_handler h_offset h_version] in F. rewrite F. reflexivity.
Qed.
(** ... and cutting off what was not read makes no difference either. *)
Theorem C40_cut : forall bs x h, DatFile_from_bytes (new_handler bs) = Ok (x, h) -> (h_offset h <= length bs)%nat ->
  from_bytes (firstn (h_offset h) bs) = Ok x.
Proof.
  intros bs x h E L. destruct (C40_file _ _ _ E) as [_ R].
  destruct (R (firstn (h_offset h) bs) [] L) as (ls & F).
  { cbn [new_handler h_content]. rewrite firstn_firstn, Nat.min_id. reflexivity. }
  unfold from_bytes. change (new_handler (firstn (h_offset h) bs)) with (mkHandler (firstn (h_offset h) bs) 0 UNDEFINED []).
  cbn [new_handler h_offset h_version] in F. rewrite F. reflexivity.
Qed.
Example C40_case : exists bs, to_bytes (sample VER_88) = Ok bs /\ forall junk, from_bytes (bs ++ junk) = Ok (sample VER_88).
Proof.
  destruct (dat_round_trip_bytes (sample VER_88)) as (bs & E & _ & h & F & O & _); [apply sample_wf; discriminate|].
  exists bs. split; [exact E|]. intros junk. eapply C40_append; [exact F|]. rewrite O. apply le_n.
Qed.
Definition all_of_errors := (C25_restriction, C25_random_maps, C25_tables, C25_only, C25_never_written, C39_save, C39_save_value,
  C39_save_unicode, C39_save_index, C39_load, C39_load_value, C39_integer_records, C40_records, C40_file, C40_append, C40_cut).
Print Assumptions all_of_errors.
