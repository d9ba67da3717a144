"""Generates PyRK1.v .. PyRK4.v: for each class, its from_bytes methods in the text of the library
(Source.v) do what the typed model's readers (M_*.v) do."""
OUT = '../rocq/theories/'
HEAD = '''(** * The readers of the classes, as written: {title}

    Generated by tools/gen_readers.py. For each class: the method found under the name, that it can
    be handed to the array readers, and that running its text is running the typed reader. *)
From Verif Require Import Base PyInt PyFloat PyStr PyStruct DataTypes Versions Common Py Source PyRep PyPure PyW PyR PyRE PyRH PyRA PyRL PyRC PyRP PyRS PyRT Deep.
From Verif Require Import {mods}.
From Coq Require Import String Ascii Lia.
Open Scope Z_scope.
Local Open Scope list_scope.
'''

# the one attribute whose type depends on the version: int 0 before 8.4 (PyR.v, [level])
ERA = {'_78': 'New', '_84': 'Old', '_88': 'Old'}
DISPATCH = '''Proof.
  enter_ Creatable_m src_Creatable_from_bytes Creatable_from_bytes. pose proof (at_fits _ _ _ (i_at _ _ _ _ _ I)) as F. unfold fits in F.
  assert (G : version_ge (h_version hd) VER_88 = true -> version_ge (h_version hd) VER_84 = true) by (destruct (h_version hd); intros X; try reflexivity; discriminate X).
  repeat flow_.
  - assert (the_era <> Old) by (intros X; rewrite X in F; rewrite G in F by reflexivity; discriminate F). flow_.
  - assert (the_era <> Old) by (intros X; rewrite X in F; discriminate F). flow_.
  - assert (the_era <> New) by (intros X; rewrite X in F; discriminate F). flow_.
Qed.'''
def sub(c, k, s='', arg=None):
    era = ERA[s] if c == 'Creatable' and s else None
    a = f' {arg}' if arg else ''
    pos = f'[PInt {arg}]' if arg else '[]'
    rd = f'({c}_from_bytes{s} {arg})' if arg else f'{c}_from_bytes{s}'
    n = '' if arg else s
    return f'''Lemma {c}{n}_m : find_method source "{c}" "from_bytes{s}" = Some src_{c}_from_bytes{s}. Proof. look. Qed.
Lemma {c}{n}_k : reader "{c}" "from_bytes{s}". Proof. reader_ {c}{n}_m. Qed.
Lemma {c}{n}_r {{ee : Era}}{a} : {f"the_era <> {era} -> " if era else ""}reads {k} "{c}" "from_bytes{s}" {pos} {rd} {c}_deep.
{DISPATCH if c == "Creatable" and not s else f"Proof. {'intros NE. ' if era else ''}class_ {c}{n}_m src_{c}_from_bytes{s} {c}_from_bytes{s}. Qed."}
#[export] Hint Resolve {c}{n}_k {c}{n}_r : readers.
'''

def out(n, title, mods, parts):
    with open(f'{OUT}PyRK{n}.v', 'w') as f:
        f.write(HEAD.format(title=title, mods=mods) + ''.join(parts))

out(1, 'sounds, colours, effects, graphics, terrains, maps',
    'M_Sound M_PlayerColour M_Effect M_TerrainRestriction M_Graphic M_TerrainBlock M_RandomMaps',
    [sub('SoundItem', 5), sub('Sound', 7), sub('PlayerColour', 5), sub('EffectCommand', 5), sub('Effect', 7),
     sub('TerrainPassGraphic', 5), sub('TerrainRestriction', 7, '_with_count', 'count'),
     sub('GraphicDelta', 5), sub('GraphicAngleSound', 5), sub('Graphic', 7),
     sub('FrameData', 5), sub('Terrain', 7), sub('TileSize', 5), sub('TerrainBlock', 9),
     sub('MapUnit', 5), sub('MapTerrain', 5), sub('MapLand', 5), sub('MapElevation', 5), sub('MapInfo', 7), sub('RandomMaps', 9)])
out(2, 'technologies and the technology tree', 'M_Tech M_TechTree',
    [sub('ResearchResourceCost', 5), sub('ResearchLocation', 5), sub('Tech', 8, '_84'), sub('Tech', 8, '_88'), sub('Tech', 9),
     sub('Common', 5), sub('TechTreeAge', 7), sub('BuildingConnection', 7), sub('UnitConnection', 7), sub('ResearchConnection', 7),
     sub('TechTree', 9)])
out(3, 'tasks and the smaller parts of a unit', 'M_Task M_UnitHeaders M_Unit',
    [sub('Task', 5, '_84'), sub('Task', 5, '_88'), sub('Task', 6), sub('UnitHeaders', 8),
     sub('ResourceStorage', 5), sub('DamageGraphic', 5), sub('DeadFish', 5), sub('Bird', 8), sub('AttackOrArmor', 5),
     sub('Type50', 7), sub('Projectile', 5)])
out(4, 'what can be trained, and buildings', 'M_Unit',
    [sub('ResourceCost', 5), sub('TrainLocation', 5, '_84'), sub('TrainLocation', 5, '_88'), sub('TrainLocation', 6),
     sub('Creatable', 8, '_78'), sub('Creatable', 8, '_84'), sub('Creatable', 8, '_88'), sub('Creatable', 9),
     sub('BuildingAnnex', 5), sub('Building', 7)])
