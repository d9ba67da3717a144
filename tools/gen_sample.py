"""Drafts theories/Sample.v: one non-trivial concrete instance of every record class, as a
function of the file version, for the non-vacuity examples."""
import re, glob, os
os.chdir('/verif/rocq/theories')
order = "Sound PlayerColour Effect TerrainRestriction Graphic TerrainBlock RandomMaps Task UnitHeaders Unit Civ Tech TechTree DatFile".split()
recs = []
for m in order:
    t = open(f'M_{m}.v').read()
    for r in re.finditer(r'Record (\w+) : Set := mk\w+ \{(.*?)\}\.', t, re.S):
        fs = [tuple(x.strip() for x in f.split(' : ')) for f in r.group(2).split(';')]
        recs.append((r.group(1), fs))
names = {r for r, _ in recs}
FL = ['4609434218613702656', '4602678819172646912', '13837309855095848960', '0', '4607182418800017408', '4576918229175238656']
cnt = 0
def z():
    global cnt
    cnt = (cnt * 7 + 11) % 101
    return str(cnt)
def f():
    global cnt
    cnt += 1
    return f'(f64_of_bits {FL[cnt % len(FL)]})'
def zl(n): return '[' + '; '.join(z() for _ in range(n)) + ']'
def fl(n): return '[' + '; '.join(f() for _ in range(n)) + ']'
def pick(v, d, n=84): return f'(if since {n} v then {v} else {d})'
fixed = {
 'Graphic_coordinates': lambda: zl(4), 'Terrain_colors': lambda: zl(3), 'Terrain_cliff_colors': lambda: zl(2),
 'Terrain_frame_data': lambda: 'repeat (sample_FrameData v) 19', 'Terrain_terrain_dimensions': lambda: zl(2),
 'Terrain_terrain_unit_masked_density': lambda: f'repeat {z()} 30', 'Terrain_terrain_unit_id': lambda: f'repeat {z()} 30',
 'Terrain_terrain_unit_density': lambda: f'repeat {z()} 30', 'Terrain_terrain_unit_centering': lambda: f'repeat {z()} 30',
 'TerrainBlock_tile_sizes': lambda: 'repeat (sample_TileSize v) 19', 'TerrainBlock_terrains': lambda: 'repeat (sample_Terrain v) 200',
 'Graphic_angle_sounds_used': lambda: '1', 'Graphic_angle_count': lambda: '2',
 'MapInfo_map_lands_size': lambda: '2', 'MapInfo_map_terrains_size': lambda: '2', 'MapInfo_map_units_size': lambda: '2', 'MapInfo_map_elevations_size': lambda: '2',
 'Task_enabled': lambda: pick('1', '-1', 88), 'UnitHeaders_exists_': lambda: '1',
 'Bird_drop_sites': lambda: f'(if since 78 v then [{z()}; {z()}] else [{z()}; {z()}; -1])',
 'Type50_graphic_displacement': lambda: fl(3),
 'Type50_damage_reflection': lambda: pick(f(), 'f64_zero'), 'Type50_friendly_fire_damage': lambda: pick(f(), 'f64_one'),
 'Type50_interrupt_frame': lambda: pick(z(), '-1'), 'Type50_garrison_firepower': lambda: pick(f(), 'f64_zero'), 'Type50_attack_graphic_2': lambda: pick(z(), '-1'),
 'TrainLocation_hot_key_id': lambda: pick('16725', '16000', 88),
 'Creatable_resource_costs': lambda: 'repeat (sample_ResourceCost v) 3', 'Creatable_projectile_spawning_area': lambda: fl(3),
 'Creatable_train_locations': lambda: 'sample_TrainLocation v :: (if since 88 v then [sample_TrainLocation v] else [])',
 'Creatable_idle_attack_graphic': lambda: pick(z(), '-1'), 'Creatable_charge_target': lambda: pick(z(), '0'),
 'Creatable_charge_projectile_unit': lambda: pick(z(), '-1'), 'Creatable_attack_priority': lambda: pick(z(), '0'),
 'Creatable_invulnerability_level': lambda: pick(f(), 'f64_zero'), 'Creatable_button_icon_id': lambda: pick(z(), '-1'),
 'Creatable_button_short_tooltip_id': lambda: pick(z(), '-1'), 'Creatable_button_extended_tooltip_id': lambda: pick(z(), '-1'),
 'Creatable_button_hotkey_action': lambda: pick(z(), '-1'),
 'Building_annexes': lambda: 'repeat (sample_BuildingAnnex v) 4', 'Building_looting_table': lambda: zl(6),
 'Unit_standing_graphic': lambda: zl(2), 'Unit_placement_side_terrain': lambda: zl(2), 'Unit_placement_terrain': lambda: zl(2),
 'Unit_clearance_size': lambda: fl(2), 'Unit_resource_storages': lambda: 'repeat (sample_ResourceStorage v) 3',
 'Tech_required_techs': lambda: zl(6), 'Tech_resource_costs': lambda: 'repeat (sample_ResearchResourceCost v) 3',
 'Tech_research_locations': lambda: 'sample_ResearchLocation v :: (if since 88 v then [sample_ResearchLocation v] else [])',
 'Common_unit_research': lambda: zl(10), 'Common_mode': lambda: zl(10),
 'TechTreeAge_buildings_per_zone': lambda: zl(10), 'TechTreeAge_group_length_per_zone': lambda: zl(10),
 'BuildingConnection_units_techs_total': lambda: zl(5), 'BuildingConnection_units_techs_first': lambda: zl(5),
 'Unit_type': lambda: 't', 'Unit_hot_key': lambda: 'if has_creatable t then 16725 else 16000',
 'DatFile_version': lambda: 'version_value v',
 'DatFile_float_ptr_terrain_tables': lambda: zl(2), 'DatFile_terrain_pass_graphic_pointers': lambda: zl(2),
 'TerrainRestriction_passable_buildable_dmg_multiplier': lambda: fl(2),
 'DatFile_graphics': lambda: '[Some (sample_Graphic v); None; Some (sample_Graphic v)]',
 'Civ_units': lambda: '[Some (sample_Unit v 70); None; Some (sample_Unit v 10); Some (sample_Unit v 80); Some (sample_Unit v 60); Some (sample_Unit v 90)]',
 'DatFile_unit_headers': lambda: '[sample_UnitHeaders v; {| UnitHeaders_exists_ := 0; UnitHeaders_task_list := None |}]',
}
# 8.4: hot key of unit and train location are the unit's; for < 8.8 TrainLocation default 16000 as own record
out = ['''(** * A non-trivial concrete instance of every record class, for each file version.

    Used only to show that the hypotheses of the theorems are met (drafted by
    tools/gen_sample.py). *)
From Verif Require Import Base PyInt PyFloat PyStr PyStruct DataTypes Versions Common Wire Layout Shape Spec.
From Verif Require Import M_Sound M_PlayerColour M_Effect M_TerrainRestriction M_Graphic
  M_TerrainBlock M_RandomMaps M_Task M_UnitHeaders M_Unit M_Civ M_Tech M_TechTree M_DatFile.
Open Scope Z_scope.
Local Open Scope list_scope.
''']
def val(cls, fn, ty):
    if fn in fixed: return fixed[fn]()
    if cls == 'Unit' and ty.startswith('option'):
        sec = fn[len('Unit_'):]
        inner = ty.split()[1]
        c = '(f64_of_bits %s)' % FL[1] if inner == 'f64' else (f'sample_unit_creatable v' if inner == 'Creatable' else f'sample_{inner} v')
        return f'if has_{sec} t then Some ({c}) else None'
    if ty == 'Z': return z()
    if ty == 'f64': return f()
    if ty == 'pystr': return '[72; 233; 8364; 128512; 33]' if 'name' in fn else '[97; 98]'
    if ty == 'list Z': return zl(3)
    if ty == 'list f64': return fl(2)
    m = re.fullmatch(r'list (\w+)', ty)
    if m and m.group(1) in names: return f'[sample_{m.group(1)} v; sample_{m.group(1)} v]'
    m = re.fullmatch(r'option \(list (\w+)\)', ty)
    if m: return f'Some [sample_{m.group(1)} v; sample_{m.group(1)} v]'
    if ty in names: return f'sample_{ty} v'
    raise Exception((cls, fn, ty))
import textwrap
for r, fs in recs:
    extra = ' (t : Z)' if r == 'Unit' else ''
    if r == 'Unit':
        out.append('''(** Inside a unit before 8.8 the train location carries the hot key of the unit. *)
Definition sample_unit_creatable (v : Version) : Creatable :=
  let c := sample_Creatable v in
  let l := sample_TrainLocation v in
  let l := {| TrainLocation_train_time := TrainLocation_train_time l; TrainLocation_unit_id := TrainLocation_unit_id l;
              TrainLocation_button_id := TrainLocation_button_id l; TrainLocation_hot_key_id := 16725 |} in
  {| ''' + ';\n     '.join(f'{fn} := ' + (f'l :: (if since 88 v then [l] else [])' if fn == 'Creatable_train_locations' else f'{fn} c') for fn, _ in dict(recs)['Creatable']) + ' |}.')
    body = ';\n     '.join(f'{fn} := {val(r, fn, ty)}' for fn, ty in fs)
    out.append(f'Definition sample_{r} (v : Version){extra} : {r} :=\n  {{| {body} |}}.')
out.append('''
(** They are well formed. *)
Lemma Forall_repeat {A} (P : A -> Prop) x n : P x -> Forall P (repeat x n).
Proof. intros H. induction n; constructor; assumption. Qed.
Ltac shape_solve :=
  repeat first
    [ assumption | exact I | reflexivity | discriminate | intros; discriminate
    | apply Forall_repeat | progress intros | apply conj | constructor ].
''')
for r, fs in recs:
    if r == 'DatFile': continue
    subs = [x for x, _ in recs if any(re.search(r'\b%s\b' % x, ty) for _, ty in fs) and x != r]
    uses = ''.join(f' pose proof (sample_{x}_shape v).' for x in subs if x not in ('Unit', 'Creatable', 'TerrainRestriction'))
    if r == 'Unit':
        out.append('''Lemma sample_Unit_shape v t : Unit_shape v (sample_Unit v t).
Proof.
  unfold Unit_shape. pose proof (sample_Bird_shape v). pose proof (sample_Type50_shape v). pose proof (sample_Building_shape v).
  pose proof (proj1 (sample_Creatable_shape v)) as Hc.
  assert (Hu : Creatable_core_shape v (sample_unit_creatable v)) by (destruct v; exact Hc).
  unfold sample_Unit; cbn [Unit_standing_graphic Unit_resource_storages Unit_bird Unit_type_50 Unit_creatable Unit_building Unit_type].
  split; [reflexivity|]. split; [repeat split|]. split; [reflexivity|]. split; [|split; [|split; [|split; [|split]]]].
  - unfold Unit_sections_shape. cbn [Unit_type Unit_speed Unit_dead_fish Unit_bird Unit_type_50 Unit_projectile Unit_creatable Unit_building].
    repeat match goal with |- context[if ?b then Some _ else None] => destruct b end; repeat split.
  - unfold Unit_hot_key_shape, train_hot_key. cbn [Unit_hot_key Unit_creatable].
    destruct (has_creatable t), v; cbn; intros; try reflexivity; congruence.
  - destruct (has_bird t); [assumption|exact I].
  - destruct (has_type_50 t); [assumption|exact I].
  - destruct (has_creatable t); [assumption|exact I].
  - destruct (has_building t); [assumption|exact I].
Qed.''')
    elif r == 'Civ':
        out.append('''Lemma sample_Civ_shape v : Civ_shape v (sample_Civ v).
Proof. unfold Civ_shape. cbn [sample_Civ Civ_units]. repeat (apply Forall_cons; [cbn [on_some]; try exact I; apply sample_Unit_shape|]). apply Forall_nil. Qed.''')
    else:
        out.append(f'Lemma sample_{r}_shape v : {r}_shape v (sample_{r} v).\nProof.{uses} unfold {r}_shape' + (', Creatable_core_shape' if r=='Creatable' else '') + '; destruct v; shape_solve. Qed.')
out.append('''
Definition sample (v : Version) : DatFile := sample_DatFile v.
Lemma sample_shape v : v <> UNDEFINED -> DatFile_shape (sample v).
Proof.
  intros N. unfold DatFile_shape.
  replace (file_version (DatFile_version (sample v))) with (Some v) by (destruct v; vm_compute; congruence).
  unfold DatFile_body_shape. cbn [sample sample_DatFile DatFile_terrain_restrictions DatFile_graphics DatFile_terrain_block
    DatFile_random_maps DatFile_unit_headers DatFile_civs DatFile_techs DatFile_tech_tree].
  split; [repeat constructor|]. split; [repeat (apply Forall_cons; [cbn [on_some]; try exact I; apply sample_Graphic_shape|]); apply Forall_nil|].
  split; [apply sample_TerrainBlock_shape|]. split; [apply sample_RandomMaps_shape|].
  split; [constructor; [apply sample_UnitHeaders_shape|constructor; [reflexivity|constructor]]|].
  split; [repeat (apply Forall_cons; [apply sample_Civ_shape|]); apply Forall_nil|].
  split; [repeat (apply Forall_cons; [apply sample_Tech_shape|]); apply Forall_nil|]. apply sample_TechTree_shape.
Qed.
Lemma sample_wf v : v <> UNDEFINED -> DatFile_wf (sample v).
Proof.
  intros N. split; [|apply sample_shape, N]. destruct v; [congruence|..]; vm_compute; reflexivity.
Qed.
''')
open('Sample.v', 'w').write('\n'.join(out) + '\n')
