#!/usr/bin/env python3
"""Deep.v: the records of the typed model as Python objects (class, field names, contents)."""
import ast, glob, re, os
from gen_update import records, B
py={}
for f in sorted(glob.glob('/repo/src/genieutils/*.py')):
    for n in ast.parse(open(f).read()).body:
        if isinstance(n,ast.ClassDef):
            fs=[(s.target.id,s.lineno,ast.unparse(s.annotation)) for s in n.body if isinstance(s,ast.AnnAssign)]
            py[n.name]=(os.path.basename(f),fs)
recs=list(records())
names={r for r,_ in recs}
def strip(t):
    t=t.strip()
    while t.startswith('(') and t.endswith(')'): t=t[1:-1].strip()
    return t
def fn(t,a):
    t=strip(t)
    if t in('Z','f64','pystr'): return {'Z':'DInt','f64':'DFloat','pystr':'DStr'}[t]
    if t in names: return f'{t}_deep'
    m=re.match(r'(list|option)\s+(.*)',t,re.S)
    i=fn(m.group(2),'')
    if m.group(1)=='list':
        return f'(fun l => {"DTuple" if a.startswith("tuple") else "DList"} (map {i} l))'
    return f'(emb_opt {i})'
# unit.py:551 sets the int 0 where the other versions have a float
INT_ZERO={'(Creatable_invulnerability_level x)'}
def deep(t,e,a):
    t=strip(t)
    if e in INT_ZERO: assert t=='f64'; return f'DNum {e}'
    m=re.match(r'list\s+(.*)',t,re.S)
    if m: return f'{"DTuple" if a.startswith("tuple") else "DList"} (map {fn(m.group(1),"")} {e})'
    return f'{fn(t,a)} {e}'
RES={'exists_':'exists'}
o=['''(** * The records of the typed model as Python objects

    Generated by tools/gen_deep.py from the dataclass declarations in /repo: the class, and the
    fields in the order of declaration with their contents. *)
From Verif Require Import Base PyInt PyFloat PyStr Versions Py PyRep.
From Verif Require Import M_Sound M_PlayerColour M_Effect M_TerrainRestriction M_Graphic
  M_TerrainBlock M_RandomMaps M_Task M_UnitHeaders M_Unit M_Civ M_Tech M_TechTree M_DatFile.
From Coq Require Import String.
Open Scope Z_scope.
Local Open Scope list_scope.
Local Open Scope string_scope.

''']
for r,fs in recs:
    file,pf=py[r]
    assert [RES.get(f,f) for f,_ in fs]==[n for n,_,_ in pf]
    o.append(f'(** {file}:{pf[0][1]}-{pf[-1][1]} *)')
    o.append(f'Definition {r}_deep (x : {r}) : deep := DObj "{r}" [')
    o.append(';\n'.join(f'  ("{RES.get(f,f)}", {deep(t,f"({r}_{f} x)",a)})' for (f,t),(_,_,a) in zip(fs,pf))+'].\n')
open(B+'Deep.v','w').write('\n'.join(o))
