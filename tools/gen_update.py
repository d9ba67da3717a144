#!/usr/bin/env python3
"""Update.v: assignment to one attribute, for every attribute of every record class."""
import re
B='/verif/rocq/theories/'
ORDER=['Sound','PlayerColour','Effect','TerrainRestriction','Graphic','TerrainBlock','RandomMaps','Task','UnitHeaders','Unit','Civ','Tech','TechTree','DatFile']
def records():
    for f in ORDER:
        s=open(B+f'M_{f}.v').read()
        for m in re.finditer(r'Record (\w+) : Set := mk\1 \{(.*?)\}\.',s,re.S):
            fs=[(a.strip()[len(m.group(1))+1:],b.strip()) for a,b in (x.split(':',1) for x in re.sub(r'\(\*.*?\*\)','',m.group(2),flags=re.S).split(';'))]
            yield m.group(1),fs
if __name__=='__main__':
    out=['''(** * Assigning one attribute of an object: [x.f = z] in Python, as a function.

    Generated by tools/gen_update.py from the record declarations.  Every assignment is
    followed by what makes it one: the attribute then has that value, and assigning the value
    it already has changes nothing; the other arguments of the constructor are passed on. *)
From Verif Require Import Base PyFloat PyStr.
From Verif Require Import M_Sound M_PlayerColour M_Effect M_TerrainRestriction M_Graphic
  M_TerrainBlock M_RandomMaps M_Task M_UnitHeaders M_Unit M_Civ M_Tech M_TechTree M_DatFile.
Open Scope Z_scope.
Local Open Scope list_scope.
''']
    for r,fs in records():
        vs=[f'a{i}' for i in range(len(fs))]
        out.append(f'(** ** {r} *)')
        for i,(f,t) in enumerate(fs):
            pat=' '.join(v if j!=i else '_' for j,v in enumerate(vs))
            con=' '.join(v if j!=i else 'z' for j,v in enumerate(vs))
            out.append(f'Definition with_{r}_{f} (z : {t}) (x : {r}) : {r} :=\n  match x with mk{r} {pat} => mk{r} {con} end.')
        out.append(f'Lemma {r}_assign (x : {r}) :')
        out.append('  '+' /\\\n  '.join(f'(forall z, {r}_{f} (with_{r}_{f} z x) = z) /\\ with_{r}_{f} ({r}_{f} x) x = x' for f,_ in fs)+'.')
        out.append('Proof. destruct x; repeat split. Qed.')
    out.append('')
    open(B+'Update.v','w').write('\n'.join(out))
