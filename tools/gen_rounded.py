#!/usr/bin/env python3
"""Floats.v: objects with every float changed; FloatsP.v: their tables; Rounded.v and Props_Rounded.v: rounding."""
import re
from gen_update import records, B
recs=list(records())
names={r for r,_ in recs}
fl={}
def strip(t):
    t=t.strip()
    while t.startswith('(') and t.endswith(')'): t=t[1:-1].strip()
    return t
def fn(t):
    """rounding function for a type, or None if it holds no floats"""
    t=strip(t)
    if t=='f64': return 'g'
    if t in('Z','pystr'): return None
    if t in names: return f'({t}_floats g)' if fl[t] else None
    m=re.match(r'(list|option)\s+(.*)',t,re.S)
    i=fn(m.group(2))
    if i is None: return None
    return f'({"map" if m.group(1)=="list" else "option_map"} {i})'
out=['''(** * Specification: an object with the function [g] applied to every float.

    Generated by tools/gen_rounded.py from the record declarations; classes without floats have
    no definition here. *)
From Verif Require Import Base PyFloat PyStr.
From Verif Require Import M_Sound M_PlayerColour M_Effect M_TerrainRestriction M_Graphic
  M_TerrainBlock M_RandomMaps M_Task M_UnitHeaders M_Unit M_Civ M_Tech M_TechTree M_DatFile.
Open Scope Z_scope.
Local Open Scope list_scope.
''']
rnd='''(** * Specification: an object with every float rounded to a binary32 value.

    [nearest] is the binary64 value of the binary32 word that [x] is cast to; that it is the
    nearest one, ties to even, is C41_nearest. *)
From Verif Require Import Base PyFloat M_DatFile Floats.

Definition nearest (x : f64) : f64 := f64_of_f32 (f32_of_f64 x).
Definition DatFile_rounded (x : DatFile) : DatFile := DatFile_floats nearest x.
'''
p=[open('rounded_head.txt').read()]
lay=open(B+'Layout.v').read()
shp=open(B+'Shape.v').read()
for r,fs in recs:
    fl[r]=any(fn(t) for _,t in fs)
    if fl[r]:
        out.append(f'Definition {r}_floats (g : f64 -> f64) (x : {r}) : {r} :=')
        out.append('  {| '+';\n     '.join(f'{r}_{f} := '+(f'{fn(t)} ({r}_{f} x)' if fn(t) else f'{r}_{f} x') for f,t in fs)+' |}.')
    mod=next(f for f in ['Sound','PlayerColour','Effect','TerrainRestriction','Graphic','TerrainBlock','RandomMaps','Task','UnitHeaders','Unit','Civ','Tech','TechTree','DatFile'] if f'Record {r} :' in open(B+f'M_{f}.v').read())
    projs=' '.join(f'M_{mod}.{r}_{f}' for f,_ in fs)
    rd=f'({r}_floats g x)' if fl[r] else 'x'
    if r=='DatFile': continue
    pat=' as [e [l|]]' if r=='UnitHeaders' else ''
    case={'UnitHeaders':'destruct (e =? 0); ','Creatable':'destruct Creatable_train_locations as [|l ls], (since 88 v); '}.get(r,'')
    extra={'Unit':', Unit_sections_layout'}.get(r,'')
    p.append(f'''Lemma {r}_norm g v x : map (cell_map g) ({r}_layout v x) = {r}_layout v {rd}.
Proof. {f'unfold {r}_floats. ' if fl[r] else ''}destruct x{pat}; unfold {r}_layout{extra}; cbn [{projs} option_map]; {case}norms. Qed.''')
    if r=='Unit':
        p.append('Lemma Unit_norm_o g v o : map (cell_map g) (opt_cells (Unit_layout v) o) = opt_cells (Unit_layout v) (option_map (Unit_floats g) o).\nProof. destruct o; cbn [opt_cells option_map]; [apply Unit_norm|reflexivity]. Qed.')
    p.append(f'Global Hint Rewrite {r}_norm : norm_cells.')
    f=f'({r}_floats g)' if fl[r] else None
    g=f'(map {f} l)' if f else 'l'
    go=f'(option_map {f} l)' if f else 'l'
    gs=f'(map (option_map {f}) l)' if f else 'l'
    p.append(f'''Lemma {r}_norms g v l : map (cell_map g) (flat_map ({r}_layout v) l) = flat_map ({r}_layout v) {g}.
Proof. {'apply flat_norm' if f else 'apply flat_norm_id'}. intros x. apply {r}_norm. Qed.
Lemma {r}_norm_slots g v l : map (cell_map g) (slots ({r}_layout v) l) = slots ({r}_layout v) {gs}.
Proof. {'apply slots_norm' if f else 'apply slots_norm_id'}. intros x. apply {r}_norm. Qed.
Lemma {r}_norm_stored g v c l : map (cell_map g) (stored c ({r}_layout v) l) = stored c ({r}_layout v) {go}.
Proof. {'apply stored_norm' if f else 'apply stored_norm_id'}. intros x. apply {r}_norm. Qed.
Global Hint Rewrite {r}_norms {r}_norm_slots {r}_norm_stored : norm_cells.''')
for r,fs in recs:
    if r=='DatFile': continue
    case={'UnitHeaders':'destruct (UnitHeaders_exists_ x =? 0); [reflexivity|]; destruct (UnitHeaders_task_list x); ','Creatable':'destruct (Creatable_train_locations x); '}.get(r,'')
    extra={'Unit':', Unit_sections_layout'}.get(r,'')
    p.append(f'''Lemma {r}_np v x : forallb unpadded ({r}_layout v x) = true.
Proof. unfold {r}_layout{extra}; {case}nps. Qed.
Lemma {r}_nps v l : forallb unpadded (flat_map ({r}_layout v) l) = true.
Proof. apply np_flat, {r}_np. Qed.
Lemma {r}_np_slots v l : forallb unpadded (slots ({r}_layout v) l) = true.
Proof. apply np_slots, {r}_np. Qed.
Lemma {r}_np_stored v c l : forallb unpadded (stored c ({r}_layout v) l) = true.
Proof. apply np_stored, {r}_np. Qed.
Global Hint Rewrite {r}_np {r}_nps {r}_np_slots {r}_np_stored : np_cells.''')
projD=' '.join(f'M_DatFile.DatFile_{f}' for f,_ in dict(recs)['DatFile'])
t=open('rounded_tail.txt').read().replace('PROJS',projD)
p.append(open('floats_tail.txt').read().replace('PROJS',projD))
open(B+'Floats.v','w').write('\n'.join(out)+'\n')
open(B+'Rounded.v','w').write(rnd)
open(B+'FloatsP.v','w').write('\n'.join(p)+'\n')
open(B+'Props_Rounded.v','w').write(t)
print([r for r in fl if fl[r]])
