#!/usr/bin/env python3
"""Writes the repetitive per-class part of Props_Size.v."""
import re
s=open('/verif/rocq/theories/Size.v').read()
names=[a for a in re.findall(r'Definition (\w+)_size \(v : Version\)',s) if a!='DatFile']
out=r'''(** * C08: how many bytes a record takes; C07 without any condition.

    The formulas are in Size.v, the tables in Layout.v and Flat.v. *)
From Verif Require Import Base PyInt PyFloat PyStr PyStruct DataTypes Versions Common Wire Layout Shape Spec Flat Size.
From Verif Require Import M_Sound M_PlayerColour M_Effect M_TerrainRestriction M_Graphic
  M_TerrainBlock M_RandomMaps M_Task M_UnitHeaders M_Unit M_Civ M_Tech M_TechTree M_DatFile.
From Verif Require Import Codec CodecP CodecF CodecC P_Simple P_More P_Unit P_UnitR P_Civ P_DatFile Theory FlatP SizeP Sample.
From Verif Require Import Props_Classes.
Open Scope Z_scope.
Local Open Scope list_scope.
Local Notation length := List.length.

(** Whatever is written for a record has the size of the formula. *)
Definition sized {A} (tb : A -> Version -> res bytes) (size : Version -> A -> nat) : Prop :=
  forall x v bs, tb x v = Ok bs -> length bs = size v x.

'''
for n in names:
    if n=='TerrainRestriction': pf='intros x v bs. exact (Lay_size _ _ _ bs (TerrainRestriction_lay v x) (TerrainRestriction_esz v x)).'
    elif n in('Unit','Civ'): pf=f'intros x v bs. exact (Lay_size _ _ _ bs ({n}_flat_lay v x) ({n}_esz v x)).'
    else: pf=f'intros x v bs. exact (Lay_size _ _ _ bs (c_lay v x I) ({n}_esz v x)).'
    out+=f'Theorem C08_{n} : sized {n}_to_bytes {n}_size.\nProof. {pf} Qed.\n'
out+=r'''
(** A data file; the version is the one named by its header. *)
Theorem C08_DatFile : forall x bs, to_bytes x = Ok bs ->
  exists v, file_version (DatFile_version x) = Some v /\ length bs = DatFile_size v x.
Proof.
  intros x bs E. destruct (file_version (DatFile_version x)) as [v|] eqn:V.
  - exists v. split; [reflexivity|]. exact (Lay_size _ _ _ bs (DatFile_flat_lay x UNDEFINED) (DatFile_esz v x V) E).
  - pose proof (DatFile_flat_lay x UNDEFINED) as L. unfold Lay, DatFile_flat_layout in L. rewrite V in L.
    unfold to_bytes in E. rewrite E in L. discriminate.
Qed.
(** A load that loses nothing reads exactly that many bytes. *)
Theorem C08_DatFile_read : forall bs x h, DatFile_from_bytes (new_handler bs) = Ok (x, h) -> h_losses h = [] ->
  exists v, file_version (DatFile_version x) = Some v /\ h_offset h = DatFile_size v x.
Proof.
  intros bs x h E L. destruct (proj1 (dat_exact bs x h E) L) as (out & T & O & _).
  destruct (C08_DatFile x out T) as (v & V & S). exists v. split; [exact V|]. congruence.
Qed.

(** C07, for units, civs and data files whose tuples may have any length: the writer returns
    exactly the bytes of the flattened table, and raises iff a cell is not representable. *)
Theorem C07_Unit_flat : follows_table Unit_to_bytes Unit_flat_layout always.
Proof. intros v x _. exact (Unit_flat_lay v x). Qed.
Theorem C07_Civ_flat : follows_table Civ_to_bytes Civ_flat_layout always.
Proof. intros v x _. exact (Civ_flat_lay v x). Qed.
Theorem C07_DatFile_flat : forall x w, returned (DatFile_to_bytes x w) = encode (DatFile_flat_layout x).
Proof. intros x w. exact (DatFile_flat_lay x w). Qed.
(** When all tuples have the length of the format, the flattened table and the table of
    Layout.v have the same bytes. *)
Theorem C07_DatFile_flat_agrees : forall x,
  (Forall (fun c => Forall (on_some (fun u => count (Unit_placement_side_terrain u) = 2
     /\ count (Unit_placement_terrain u) = 2 /\ count (Unit_clearance_size u) = 2)) (Civ_units c)) (DatFile_civs x)) ->
  encode (DatFile_flat_layout x) = encode (DatFile_layout x).
Proof. intros x H. rewrite <- (C07_DatFile_flat x UNDEFINED). apply (to_bytes_table x UNDEFINED H). Qed.

'''
ths=[f'C08_{n}' for n in names+['DatFile','DatFile_read']]+[f'C07_{n}' for n in ('Unit_flat','Civ_flat','DatFile_flat','DatFile_flat_agrees')]
out+='Definition all_of_this_file := ('+', '.join(ths)+').\nPrint Assumptions all_of_this_file.\n'
out+=r'''
(** The sample data file is written, so the theorems apply to it. *)
Example C08_case : forall v, v <> UNDEFINED -> exists bs, to_bytes (sample v) = Ok bs /\ length bs = DatFile_size v (sample v).
Proof.
  intros v H. destruct (dat_round_trip_bytes (sample v) (sample_wf v H)) as (bs & E & _). exists bs. split; [exact E|].
  destruct (C08_DatFile _ _ E) as (w & W & S). rewrite (sample_version v H) in W. injection W as <-. exact S.
Qed.
(** A task: 67 bytes before 8.8, 69 from then on. *)
Example C08_case_task : Task_size VER_78 (sample_Task VER_78) = 67%nat /\ Task_size VER_88 (sample_Task VER_88) = 69%nat.
Proof. split; vm_compute; reflexivity. Qed.
'''
open('/verif/rocq/theories/Props_Size.v','w').write(out)
