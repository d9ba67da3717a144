(** * C18, C19: saving a data file as another version.

    [DatFile_retagged v x] is [x] after [x.version = ..]; [DatFile_converted v x] (Convert.v)
    says field by field what comes back. *)
From Verif Require Import Base PyInt PyFloat PyStr PyStruct DataTypes Versions Common Wire Layout Shape Spec Update Convert.
From Verif Require Import M_Task M_UnitHeaders M_Unit M_Civ M_Tech M_DatFile.
From Verif Require Import Theory ConvertP ConvertE Sample.
Open Scope Z_scope.
Local Open Scope list_scope.

(** From any version to any version: if every unit has three drop sites when the target is
    before 7.8, and every creatable section a train location when it is before 8.8, saving
    succeeds and loading gives the converted object. *)
Theorem C18_convert : forall v x, v <> UNDEFINED -> DatFile_wf x ->
  each_unit (drop_sites_fit v) x -> each_unit (train_location_fits v) x ->
  exists bs, to_bytes (DatFile_retagged v x) = Ok bs /\ from_bytes bs = Ok (DatFile_converted v x).
Proof. intros v x N W D T. apply convert_bytes; [exact N|apply fits_each; assumption|exact W]. Qed.

(** The special case of the property: 8.4 to 8.8 always works. *)
Lemma since_88_84 : since 78 VER_88 = true /\ since 88 VER_88 = true /\ since 84 VER_88 = true.
Proof. repeat split. Qed.
Theorem C18_upgrade_to_88 : forall x, DatFile_wf x ->
  exists bs, to_bytes (DatFile_retagged VER_88 x) = Ok bs /\ from_bytes bs = Ok (DatFile_converted VER_88 x).
Proof.
  intros x W. apply C18_convert; [discriminate|exact W| |].
  - intros c u _ _. unfold drop_sites_fit. destruct (Unit_bird u); [discriminate|exact I].
  - intros c u _ _. unfold train_location_fits. destruct (Unit_creatable u); [discriminate|exact I].
Qed.
(** What that conversion changes: the version and the hot keys of the units without a
    creatable section. *)
Definition hot_key_16000 (u : Unit) : Unit :=
  match Unit_creatable u with None => with_Unit_hot_key 16000 u | Some _ => u end.
Theorem C18_upgrade_changes : forall x, DatFile_converted VER_88 x =
  with_DatFile_version (version_value VER_88)
   (with_DatFile_civs (map (fun c => with_Civ_units (map (option_map hot_key_16000) (Civ_units c)) c) (DatFile_civs x)) x).
Proof.
  intros x. unfold DatFile_converted. f_equal.
  assert (T : forall l, map (Task_converted VER_88) l = l) by (intros l; rewrite <- (map_id l) at 2; apply map_ext; reflexivity).
  assert (H : map (UnitHeaders_converted VER_88) (DatFile_unit_headers x) = DatFile_unit_headers x).
  { rewrite <- (map_id (DatFile_unit_headers x)) at 2. apply map_ext. intros [e [l|]]; unfold UnitHeaders_converted; cbn; [rewrite T|]; reflexivity. }
  assert (U : forall u, Unit_converted VER_88 u = hot_key_16000 u).
  { intros u. rewrite Unit_conv_eq. unfold hot_key_16000. change (since 88 VER_88) with true. cbv iota.
    assert (B : option_map (Bird_converted VER_88) (Unit_bird u) = Unit_bird u).
    { destruct (Unit_bird u) as [b|]; [|reflexivity]. cbn. unfold Bird_converted. rewrite T. destruct b; reflexivity. }
    assert (C : option_map (Creatable_converted VER_88) (Unit_creatable u) = Unit_creatable u) by (destruct (Unit_creatable u); reflexivity).
    assert (F : option_map (Type50_converted VER_88) (Unit_type_50 u) = Unit_type_50 u) by (destruct (Unit_type_50 u); reflexivity).
    rewrite B, C, F. destruct (Unit_creatable u) eqn:E; destruct u; cbn in *; subst; reflexivity. }
  assert (C : map (Civ_converted VER_88) (DatFile_civs x) =
    map (fun c => with_Civ_units (map (option_map hot_key_16000) (Civ_units c)) c) (DatFile_civs x)).
  { apply map_ext. intros c. unfold Civ_converted. f_equal. apply map_ext. intros [u|]; cbn; [rewrite U|]; reflexivity. }
  assert (K : map (Tech_converted VER_88) (DatFile_techs x) = DatFile_techs x).
  { rewrite <- (map_id (DatFile_techs x)) at 2. apply map_ext. reflexivity. }
  rewrite H, C, K. destruct x; reflexivity.
Qed.
(** Converting to the version a file has already changes nothing. *)
Theorem C18_same_version : forall v x, v <> UNDEFINED -> DatFile_wf x -> DatFile_version x = version_value v ->
  DatFile_retagged v x = x /\ (each_unit (drop_sites_fit v) x -> each_unit (train_location_fits v) x -> DatFile_converted v x = x).
Proof.
  intros v x N W E. assert (R : DatFile_retagged v x = x) by (unfold DatFile_retagged; rewrite <- E; destruct x; reflexivity).
  split; [exact R|]. intros D T. destruct (C18_convert v x N W D T) as (bs & Eb & F). rewrite R in Eb.
  destruct (proj1 (wf_iff_survives x) W) as (bs' & Eb' & F'). congruence.
Qed.

(** C19.  Before 8.8, saving raises IndexError exactly if a unit has a creatable section
    without train location, and raises nothing else. *)
Theorem C19_index_error : forall v x, v <> UNDEFINED -> since 88 v = false -> DatFile_wf x ->
  (to_bytes (DatFile_retagged v x) = Err IndexError <->
   exists c u k, In c (DatFile_civs x) /\ In (Some u) (Civ_units c) /\ Unit_creatable u = Some k /\ Creatable_train_locations k = [])
  /\ forall e, to_bytes (DatFile_retagged v x) = Err e -> e = IndexError.
Proof.
  intros v x N V W. split; [split|].
  - intros E. destruct (each_unit_dec v x) as [T|X]; [|exact X]. exfalso.
    destruct (convert_ok v x N W T) as (bs & Eb). congruence.
  - intros (c & u & k & Hc & Hu & Hk & Hl). exact (DatFile_no_location v x c u k N V W Hc Hu Hk Hl).
  - intros e E. pose proof (DatFile_only v x N V W) as O. rewrite E in O. exact O.
Qed.

(** What saving as 8.4 keeps: the first train location of each creatable section and the
    first research location of each tech (or a placeholder); every task comes back with
    [enabled] -1; everything else is kept. *)
Definition task_84 (t : Task) : Task := with_Task_enabled (-1) t.
Definition unit_84 (u : Unit) : Unit :=
  with_Unit_bird (option_map (fun b => with_Bird_tasks (map task_84 (Bird_tasks b)) b) (Unit_bird u))
  (with_Unit_creatable (option_map (fun c => with_Creatable_train_locations (firstn 1 (Creatable_train_locations c)) c) (Unit_creatable u)) u).
Definition tech_84 (t : Tech) : Tech :=
  with_Tech_research_locations [hd no_research_location (Tech_research_locations t)] t.
Definition dat_84 (x : DatFile) : DatFile :=
  with_DatFile_version (version_value VER_84)
  (with_DatFile_unit_headers (map (fun h => with_UnitHeaders_task_list (option_map (map task_84) (UnitHeaders_task_list h)) h) (DatFile_unit_headers x))
  (with_DatFile_civs (map (fun c => with_Civ_units (map (option_map unit_84) (Civ_units c)) c) (DatFile_civs x))
  (with_DatFile_techs (map tech_84 (DatFile_techs x)) x))).
Definition every_creatable_has_location (x : DatFile) : Prop :=
  forall c u k, In c (DatFile_civs x) -> In (Some u) (Civ_units c) -> Unit_creatable u = Some k -> Creatable_train_locations k <> [].
Lemma dat_84_eq x : dat_84 x = DatFile_converted VER_84 x.
Proof.
  unfold dat_84, DatFile_converted.
  assert (C : map (fun c => with_Civ_units (map (option_map unit_84) (Civ_units c)) c) (DatFile_civs x) = map (Civ_converted VER_84) (DatFile_civs x)).
  { apply map_ext. intros c. unfold Civ_converted. f_equal. apply map_ext. intros [u|]; [|reflexivity]. cbn [option_map]. f_equal.
    rewrite Unit_conv_eq. unfold unit_84. change (since 88 VER_84) with false. cbv iota.
    assert (F : option_map (Type50_converted VER_84) (Unit_type_50 u) = Unit_type_50 u) by (destruct (Unit_type_50 u); reflexivity).
    rewrite F. destruct u; reflexivity. }
  rewrite C. reflexivity.
Qed.
Lemma fits_84 x : every_creatable_has_location x -> each_unit (drop_sites_fit VER_84) x /\ each_unit (train_location_fits VER_84) x.
Proof.
  intros L. split.
  - intros c u _ _. unfold drop_sites_fit. destruct (Unit_bird u); [discriminate|exact I].
  - intros c u Hc Hu. unfold train_location_fits. destruct (Unit_creatable u) as [k|] eqn:Ek; [|exact I]. intros _. exact (L c u k Hc Hu Ek).
Qed.
Theorem C19_downgrade_to_84 : forall x, DatFile_wf x -> every_creatable_has_location x ->
  exists bs, to_bytes (DatFile_retagged VER_84 x) = Ok bs /\ from_bytes bs = Ok (dat_84 x).
Proof.
  intros x W L. rewrite dat_84_eq. destruct (fits_84 x L). apply C18_convert; [discriminate|assumption..].
Qed.
(** Upgrading an 8.4 file to 8.8 and the result back to 8.4 restores the file, except for the
    hot keys of the units without creatable section. *)
Definition hot_keys_16000 (x : DatFile) : DatFile :=
  with_DatFile_civs (map (fun c => with_Civ_units (map (option_map hot_key_16000) (Civ_units c)) c) (DatFile_civs x)) x.
Lemma locations_84 x : DatFile_wf x -> DatFile_version x = version_value VER_84 -> every_creatable_has_location x.
Proof.
  intros [_ S] E c u k Hc Hu Hk. unfold DatFile_shape in S. rewrite E, (file_version_value VER_84) in S by discriminate.
  destruct S as (_ & _ & _ & _ & _ & S & _). rewrite Forall_forall in S. specialize (S c Hc). unfold Civ_shape in S. rewrite Forall_forall in S.
  specialize (S _ Hu). cbn [on_some] in S. destruct S as (_ & _ & _ & _ & _ & _ & _ & S & _). rewrite Hk in S. cbn [on_some] in S.
  destruct S as (_ & _ & S & _). specialize (S eq_refl). intros Z. rewrite Z in S. discriminate.
Qed.
Theorem C19_up_and_down : forall x, DatFile_wf x -> DatFile_version x = version_value VER_84 ->
  exists up y bs, to_bytes (DatFile_retagged VER_88 x) = Ok up /\ from_bytes up = Ok y /\
    to_bytes (DatFile_retagged VER_84 y) = Ok bs /\ from_bytes bs = Ok (hot_keys_16000 x).
Proof.
  intros x W V. pose proof (locations_84 x W V) as L. destruct (C18_upgrade_to_88 x W) as (up & E & F). exists up, (DatFile_converted VER_88 x).
  pose proof (from_bytes_wf up _ F) as W'. destruct (C19_downgrade_to_84 _ W') as (bs & E' & F').
  - rewrite C18_upgrade_changes. intros c u k Hc Hu Hk.
    replace (DatFile_civs _) with (map (fun c => with_Civ_units (map (option_map hot_key_16000) (Civ_units c)) c) (DatFile_civs x)) in Hc by (destruct x; reflexivity).
    apply in_map_iff in Hc. destruct Hc as (c' & <- & Hc). replace (Civ_units _) with (map (option_map hot_key_16000) (Civ_units c')) in Hu by (destruct c'; reflexivity).
    apply in_map_iff in Hu. destruct Hu as ([u'|] & Eu & Hu); [|discriminate]. cbn in Eu. injection Eu as <-.
    apply (L c' u' k Hc Hu). rewrite <- Hk. unfold hot_key_16000. destruct (Unit_creatable u') eqn:Eq; [symmetry; exact Eq|]. destruct u'; symmetry; exact Eq.
  - exists bs. split; [exact E|]. split; [exact F|]. split; [exact E'|]. rewrite F'. f_equal.
    destruct (fits_84 x L) as [D T]. pose proof (proj2 (C18_same_version VER_84 x ltac:(discriminate) W V) D T) as I. rewrite <- dat_84_eq in I.
    transitivity (hot_keys_16000 (dat_84 x)); [|rewrite I; reflexivity]. rewrite C18_upgrade_changes. unfold dat_84, hot_keys_16000.
    assert (C : forall l, map (fun c => with_Civ_units (map (option_map unit_84) (Civ_units c)) c) (map (fun c => with_Civ_units (map (option_map hot_key_16000) (Civ_units c)) c) l)
      = map (fun c => with_Civ_units (map (option_map hot_key_16000) (Civ_units c)) c) (map (fun c => with_Civ_units (map (option_map unit_84) (Civ_units c)) c) l)).
    { intros l. rewrite !map_map. apply map_ext. intros [? ? ? ? ? ? us]. cbn [with_Civ_units M_Civ.Civ_units]. f_equal. rewrite !map_map. apply map_ext.
      intros [u|]; [|reflexivity]. cbn [option_map]. f_equal. unfold hot_key_16000, unit_84. destruct u. destruct Unit_creatable; reflexivity. }
    destruct x. cbn [with_DatFile_version with_DatFile_civs with_DatFile_unit_headers with_DatFile_techs M_DatFile.DatFile_civs M_DatFile.DatFile_unit_headers M_DatFile.DatFile_techs].
    rewrite C. reflexivity.
Qed.

(** The hypotheses are met: the sample files of every version can be saved as every version
    from 7.8 on; one with a unit without train location cannot. *)
Example C18_case : forall u v, u <> UNDEFINED -> v <> UNDEFINED -> since 78 v = true ->
  DatFile_wf (sample u) /\ each_unit (drop_sites_fit v) (sample u) /\ each_unit (train_location_fits v) (sample u).
Proof.
  intros u v Nu Nv V. split; [apply sample_wf, Nu|]. split.
  - intros c x _ _. unfold drop_sites_fit. destruct (Unit_bird x); [congruence|exact I].
  - intros c x Hc Hx. assert (Ec : c = sample_Civ u) by (cbn in Hc; destruct Hc as [<-|[<-|[]]]; reflexivity). subst c.
    cbn in Hx. repeat destruct Hx as [Hx|Hx]; try discriminate; try (injection Hx as <-; unfold train_location_fits; vm_compute; try exact I; discriminate). destruct Hx.
Qed.
Definition no_location_unit : Unit :=
  with_Unit_hot_key 16000 (with_Unit_creatable (Some (with_Creatable_train_locations [] (sample_Creatable VER_88))) (sample_Unit VER_88 70)).
Definition no_location_sample : DatFile :=
  with_DatFile_civs [with_Civ_units [None; Some no_location_unit] (sample_Civ VER_88)] (sample VER_88).
Example C19_case : DatFile_wf no_location_sample /\ exists c u k,
  In c (DatFile_civs no_location_sample) /\ In (Some u) (Civ_units c) /\ Unit_creatable u = Some k /\ Creatable_train_locations k = [].
Proof.
  split.
  - apply (with_civs_wf VER_88); [apply sample_wf; discriminate|apply sample_version; discriminate| |reflexivity].
    constructor; [|constructor]. split; [vm_compute; reflexivity|]. unfold Civ_shape. cbn [with_Civ_units sample_Civ Civ_units].
    constructor; [exact I|]. constructor; [|constructor]. cbn [on_some].
    destruct (sample_Unit_shape VER_88 70) as (H1 & H2 & H3 & H4 & H5 & H6 & H7 & H8 & H9).
    split; [exact H1|]. split; [exact H2|]. split; [exact H3|]. split; [exact H4|]. split; [reflexivity|]. split; [exact H6|]. split; [exact H7|].
    split; [|exact H9]. split; [reflexivity|]. split; [reflexivity|]. split; discriminate.
  - exists (with_Civ_units [None; Some no_location_unit] (sample_Civ VER_88)), no_location_unit, (with_Creatable_train_locations [] (sample_Creatable VER_88)).
    repeat split; [left; reflexivity|right; left; reflexivity].
Qed.
Example C19_case_ok : forall u, u <> UNDEFINED -> DatFile_wf (sample u) /\ every_creatable_has_location (sample u).
Proof.
  intros u N. split; [apply sample_wf, N|]. intros c x k Hc Hx Hk.
  destruct (C18_case u VER_84 N ltac:(discriminate) eq_refl) as (_ & _ & T). specialize (T c x Hc Hx). unfold train_location_fits in T. rewrite Hk in T. exact (T eq_refl).
Qed.

Definition all_of_this_file := (C18_convert, C18_upgrade_to_88, C18_upgrade_changes, C18_same_version,
  C19_index_error, C19_downgrade_to_84, C19_up_and_down).
Print Assumptions all_of_this_file.
