"""Drafts theories/Props_Classes.v: C06 and C07, one theorem per record class."""
import re, os
os.chdir('/verif/rocq/theories')
src = ''.join(open(f).read() for f in ['P_Simple.v', 'P_More.v', 'P_Unit.v', 'P_UnitR.v', 'P_Civ.v'])
ar = dict(re.findall(r'Instance (\w+)_codec : Codec \w+ \w+ \w+ \w+ (\w+)\.', src))
order = []
for m in "Sound PlayerColour Effect TerrainRestriction Graphic TerrainBlock RandomMaps Task UnitHeaders Unit Civ Tech TechTree".split():
    order += re.findall(r'Record (\w+) : Set', open(f'M_{m}.v').read())
out = ['''(** * C06, C07: every record class on its own.

    [round_trips], [stable], [re_encodes], [prefix_free], [only_moves] and [follows_table]
    are defined in Spec.v; the tables in Layout.v, the shapes in Shape.v. *)
From Verif Require Import Base PyInt PyFloat PyStr PyStruct DataTypes Versions Common Wire Layout Shape Spec.
From Verif Require Import M_Sound M_PlayerColour M_Effect M_TerrainRestriction M_Graphic
  M_TerrainBlock M_RandomMaps M_Task M_UnitHeaders M_Unit M_Civ M_Tech M_TechTree M_DatFile.
From Verif Require Import Codec CodecP CodecF CodecC P_Simple P_More P_Unit P_UnitR P_Civ Theory Sample.
Open Scope Z_scope.
Local Open Scope list_scope.

(** What holds of every record class [X]: writer, reader, table, shape. *)
Definition codec_laws {A} (tb : A -> Version -> res bytes) (fb : rd A)
    (lay : Version -> A -> list cell) (shape : Version -> A -> Prop) : Prop :=
  round_trips tb fb lay shape /\\ stable tb fb lay shape /\\ re_encodes tb fb
  /\\ prefix_free tb lay shape /\\ only_moves fb.
(** No condition. *)
Definition always {A} (x : A) : Prop := True.

Section Laws.
  Context {A : Type} {tb : A -> Version -> res bytes} {fb : rd A} {lay : Version -> A -> list cell}
    {shape : Version -> A -> Prop} {arity : A -> Prop} (C : Codec tb fb lay shape arity).
  Lemma laws : codec_laws tb fb lay shape.
  Proof.
    split; [exact codec_round_trip|]. split; [exact codec_stable|]. split; [exact codec_re_encodes|].
    split; [exact codec_prefix_free|]. exact codec_only_moves.
  Qed.
End Laws.
''']
for r in order:
    if r == 'TerrainRestriction': continue
    assert r in ar, r
    a = ar[r]
    cond = {'any': 'always', 'Unit_arity': 'Unit_arity', 'Civ_arity': 'Civ_tuples'}[a]
    if r == 'Civ':
        out.append('''(** The tuples of a unit that are flattened into one struct.pack call have two elements (Shape.v). *)
Definition Civ_tuples (x : Civ) : Prop := Forall (on_some Unit_arity) (Civ_units x).''')
    t = {'Unit': ' 70'}.get(r, '')
    out.append(f'''(** ** {r} *)
Theorem C06_{r} : codec_laws {r}_to_bytes {r}_from_bytes {r}_layout {r}_shape.
Proof. exact (laws {r}_codec). Qed.
Theorem C07_{r} : follows_table {r}_to_bytes {r}_layout {cond}.
Proof. exact codec_table. Qed.
Example {r}_case : forall v, wf {r}_layout {r}_shape v (sample_{r} v{t}).
Proof. intros v. split; [{"apply sample_" + r + "_ok" if r in ("Terrain", "TerrainBlock", "Civ") else "destruct v; vm_compute; reflexivity"}|apply sample_{r}_shape]. Qed.''')
out.append('''(** ** TerrainRestriction: the reader is told the number of terrains. *)
Definition terrains (n : Z) (v : Version) (x : TerrainRestriction) : Prop :=
  count (TerrainRestriction_passable_buildable_dmg_multiplier x) = n.
Theorem C06_TerrainRestriction : forall n, 0 <= n ->
  codec_laws TerrainRestriction_to_bytes (TerrainRestriction_from_bytes_with_count n)
    TerrainRestriction_layout (terrains n).
Proof.
  intros n Hn. apply (@laws _ _ _ _ _ any). split; intros.
  - exact I.
  - apply TerrainRestriction_lay.
  - apply TerrainRestriction_parses; [exact Hn|]. unfold TerrainRestriction_count, terrains in *. lia.
  - unfold Reads. eapply Fwd_weaken; [apply TerrainRestriction_reads|]. cbv beta.
    intros P x cs (H & Hc & Hn'). unfold TerrainRestriction_count, terrains in *.
    split; [intros p; apply H, p|]. split; [exact Hc|]. lia.
Qed.
Theorem C07_TerrainRestriction : follows_table TerrainRestriction_to_bytes TerrainRestriction_layout always.
Proof. intros v x _. apply TerrainRestriction_lay. Qed.
Example TerrainRestriction_case : forall v, wf TerrainRestriction_layout (terrains 2) v (sample_TerrainRestriction v).
Proof. intros v. split; destruct v; vm_compute; reflexivity. Qed.''')
import re
names = re.findall(r'^Theorem (\w+)', '\n'.join(out), re.M)
out.append('(** All of them at once. *)\nDefinition all_of_this_file := (' + ', '.join(names) + ').\nPrint Assumptions all_of_this_file.')
open('Props_Classes.v', 'w').write('\n'.join(out) + '\n')
