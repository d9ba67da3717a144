#!/usr/bin/env python3
"""Props_Local.v: C31, one theorem per class (its own fields) and one per class (its parts)."""
import re
from gen_update import records, B
lay=open(B+'Layout.v').read()
lay=re.sub(r'\(\*\*.*?\*\)','',lay,flags=re.S)
body={}
for m in re.finditer(r'^Definition (\w+)_(layout|body) \(v : Version\) \(x : \w+\) : list cell :=(.*?)\.\n(?=\n|Definition|\Z)',lay,re.M|re.S): body[m.group(1)]=m.group(3)
body['Unit']+= re.search(r'Definition Unit_sections_layout.*?:=(.*?)\.\n\n',lay,re.S).group(1)
def gate(b,pos):
    """since-gate around position: find innermost enclosing '(if since N v'."""
    best=None
    for m in re.finditer(r'\(if since (\d+) v',b):
        # matching paren
        d=0;i=m.start()
        while True:
            if b[i]=='(':d+=1
            if b[i]==')':
                d-=1
                if d==0:break
            i+=1
        if m.start()<pos<i:
            seg=b[m.start():i]
            e=m.start()+seg.index('else')
            best=(m.group(1),'true' if pos<e else 'false')
    return best
SKIP={('Unit','type'),('UnitHeaders','exists_'),('DatFile','version')}
tys={'Z':'Z','f64':'f64','pystr':'pystr'}
out=[];names=[];unk=[]
for r,fs in records():
    b=body.get(r)
    if b is None: unk.append((r,'NOBODY')); continue
    lname={'Civ':'Civ_flat_layout','DatFile':'(fun v x => DatFile_flat_layout x)'}.get(r,f'{r}_layout')
    vs=[f'a{i}' for i in range(len(fs))]
    projs=' '.join(f'{r}_{f}' for f,_ in fs)
    own=[];parts=[]
    for i,(f,t) in enumerate(fs):
        if (r,f) in SKIP: continue
        fld=re.escape(f'({r}_{f} x)')
        m=re.search(r'(?<!map )\b(U8|I8|U16|I16|U32|I32|F32|F32s|Text) '+fld,b)
        g=None
        if m:
            g=gate(b,m.start())
            hyp=f'since {g[0]} v = {g[1]} -> ' if g else ''
            own.append((f,hyp,f'({hyp}stays_local {r}_to_bytes v (fun t => with_{r}_{f} t x) {m.group(1)})',None)); continue
        m=re.search(r'\bmap (U8|I8|U16|I16|U32|I32|F32|F32s|Text) '+fld,b)
        if m:
            own.append((f,'',f'(forall i, (i < length ({r}_{f} x))%nat -> stays_local {r}_to_bytes v (fun t => with_{r}_{f} (set_nth i t ({r}_{f} x)) x) {m.group(1)})','list')); continue
        m=re.search(r'flat_map \((\w+)_layout v\) '+fld,b)
        if m:
            g=gate(b,m.start())
            if r=='Tech' and f=='research_locations': g=('88','true')
            hyp=f'since {g[0]} v = {g[1]} -> ' if g else ''
            parts.append((f,hyp,m.group(1),f'(forall i T (g : T -> {m.group(1)}) mk, (i < length ({r}_{f} x))%nat -> {hyp}stays_local {m.group(1)}_to_bytes VV g mk ->\n     stays_local {r}_to_bytes v (fun t => with_{r}_{f} (set_nth i (g t) ({r}_{f} x)) x) mk)')); continue
        m=re.search(r'slots \((\w+)_layout v\) '+fld,b)
        if m:
            parts.append((f,'',m.group(1),f'(forall i T (g : T -> {m.group(1)}) mk, (i < length ({r}_{f} x))%nat -> stays_local {m.group(1)}_to_bytes VV g mk ->\n     stays_local {r}_to_bytes v (fun t => with_{r}_{f} (set_nth i (Some (g t)) ({r}_{f} x)) x) mk)')); continue
        m=re.search(r'stored \((has_\w+) \(Unit_type x\)\) \((\w+)_layout v\) '+fld,b)
        if m:
            parts.append((f,'',m.group(2),f'(forall T (g : T -> {m.group(2)}) mk, {m.group(1)} (Unit_type x) = true -> stays_local {m.group(2)}_to_bytes VV g mk ->\n     stays_local {r}_to_bytes v (fun t => with_{r}_{f} (Some (g t)) x) mk)')); continue
        m=re.search(r'\b(\w+)_layout v '+fld,b)
        if m:
            parts.append((f,'',m.group(1),f'(forall T (g : T -> {m.group(1)}) mk, stays_local {m.group(1)}_to_bytes VV g mk ->\n     stays_local {r}_to_bytes v (fun t => with_{r}_{f} (g t) x) mk)')); continue
        unk.append((r,f,t))
    pre='forall v x, '
    if r=='Unit': pre_own='forall v x, Unit_arity x -> '
    else: pre_own=pre
    des=f'destruct x as [{" ".join(vs)}]'
    des=f'open_{r} x'
    def cbn(f): return f'norm_{r}'
    out.append(f'Ltac norm_{r} := cbn [{" ".join(f"with_{r}_{f}" for f,_ in fs)} {projs}] in *.')
    out.append(f'Ltac open_{r} x := destruct x as [{" ".join(vs)}].')
    table={'Civ':'C07_Civ_flat','DatFile':'C07_DatFile_table'}.get(r,f'C07_{r}')
    unf={'Civ':'Civ_flat_layout','DatFile':'DatFile_flat_layout, DatFile_flat_body, terrains_used'}.get(r,f'{r}_layout')
    if own:
        out.append(f'Theorem C31_{r} : {pre_own}\n  '+' /\\\n  '.join(s for _,_,s,_ in own)+'.')
        pf=[]
        for f,hyp,s,k in own:
            intro=('intros V; ' if hyp else '')+('intros i Hi; ' if k else '')
            rw='rewrite V; ' if hyp else ''
            if r=='DatFile': rw='destruct (file_version a0) as [ver|]; [|apply local_none]; '
            if r=='Unit':
                pf.append(f'{intro}{des}; {cbn(f)}; apply (by_table_if C07_Unit); [intros t; unfold Unit_arity in *; {cbn(f)}; rewrite ?count_set_nth by exact Hi; exact HA|]; unfold Unit_layout, Unit_sections_layout; {cbn(f)}; {rw}loc')
            else:
                pf.append(f'{intro}apply (by_table {table}); {des}; unfold {unf}; {cbn(f)}; {rw}loc')
        ha=' HA' if r=='Unit' else ''
        out.append(f'Proof.\n  intros v x{ha}. '+' '.join(f'split; [{q}|].' for q in pf[:-1])+f' {pf[-1]}.\nQed.')
        names.append(f'C31_{r}')
    if parts:
        vv='v'
        pre=f'forall v x, '
        if r=='DatFile': pre='forall v x ver, file_version (DatFile_version x) = Some ver -> '; vv='ver'
        st=[p.replace('VV',vv) for *_,p in parts]
        if r=='DatFile':
            st=[s.replace('-> stays_local TerrainRestriction_to_bytes','-> forall n, (forall t, length (TerrainRestriction_passable_buildable_dmg_multiplier (g t)) = n) ->\n     stays_local TerrainRestriction_to_bytes') for s in st]
        out.append(f'Theorem C31_{r}_parts : {pre}\n  '+' /\\\n  '.join(st)+'.')
        pf=[]
        tab2={'Unit':'C07_Unit_flat'}.get(r,table); unf2={'Unit':'Unit_flat_layout, Unit_sections_layout'}.get(r,unf)
        for f,hyp,sub,p in parts:
            subtab={'Unit':'C07_Unit_flat','Civ':'C07_Civ_flat'}.get(sub,f'C07_{sub}')
            extra=''
            if 'forall i' in p: extra+=' Hi'
            if 'has_' in p or hyp: extra+=' V'
            if r=='DatFile' and sub=='TerrainRestriction': extra+=' n Q'
            intro=f'intros {"i " if "forall i" in p else ""}T g mk{extra} G; apply (to_table {subtab}) in G'
            rw='rewrite V; ' if ('has_' in p or hyp) else ''
            if r=='DatFile': rw='rewrite HV; '+('' if sub!='TerrainRestriction' else 'eapply local_ext; [intros t; rewrite (first_count i g n a3 Q); reflexivity|]; ')
            des2=des
            vals=f'eapply local_ext; [intros t; rewrite Unit_values_{f}; reflexivity|]; ' if r=='Unit' else ''
            if r=='Unit':
                pf.append(f'{intro}; apply (by_table {tab2}); unfold {unf2}, Unit_values; {des2}; {cbn(f)}; {rw}loc')
            else:
                pf.append(f'{intro}; apply (by_table {tab2}); {des2}; unfold {unf2}; {cbn(f)}; {rw}loc')
        hv=' ver HV' if r=='DatFile' else ''
        out.append(f'Proof.\n  intros v x{hv}. '+' '.join(f'split; [{q}|].' for q in pf[:-1])+f' {pf[-1]}.\nQed.')
        names.append(f'C31_{r}_parts')
print(unk)
head=open('/verif/tools/local_head.txt').read(); tail=open('/verif/tools/local_tail.txt').read()
open(B+'Props_Local.v','w').write(head+'\n'.join(out)+'\n'+tail.replace('NAMES',', '.join(names)))
