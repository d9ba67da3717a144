# prints the per-class lemmas of RaiseR.v (tail)
import re,os
os.chdir('/verif/rocq/theories')
order="Sound PlayerColour Effect TerrainRestriction Graphic TerrainBlock RandomMaps Task UnitHeaders Unit Civ Tech TechTree".split()
defs={}
seq=[]
for m in order:
    t=open(f'M_{m}.v').read()
    for r in re.finditer(r'^Definition (\w+_from_bytes\w*)( \([^:]*: Z\))? : rd .*?:=\n(.*?)\.\n\n',t+'\n\n',re.M|re.S):
        defs[r.group(1)]=(r.group(2) or '',r.group(3)); seq.append(r.group(1))
# order by dependencies
done=[];
def visit(d):
    if d in done: return
    for e in re.findall(r'\b(\w+_from_bytes\w*)',defs[d][1]):
        if e in defs and e!=d: visit(e)
    done.append(d)
for d in seq: visit(d)
need={}
for d in done:
    b=defs[d][1]; n=set()
    if 'read_float' in b or 'read_struct' in b: n.add('F')
    if 'read_debug_string' in b: n.add('T')
    for e in re.findall(r'\b(\w+_from_bytes\w*)',b):
        if e in need: n|=need[e]
    need[d]=n
out=[]
for d in done:
    hy='';intro=''
    if 'F' in need[d]: hy+='S StructError -> '; intro+=' HS'
    if 'T' in need[d]: hy+='S AssertionError -> S UnicodeDecodeError -> '; intro+=' HA HD'
    arg=' n' if defs[d][0] else ''
    pf=f'intros{intro}. ' if intro else ''
    tac='es'
    if d=='Unit_from_bytes_84': tac='es; (apply Rd_lift; match goal with |- context [match ?o with Some _ => _ | None => _ end] => destruct o as [c|]; [|exact I] end; cbv zeta; destruct c as [? []]; cbn; exact I)'
    if d=='Unit_from_bytes_88': tac='es; (apply Rd_lift; match goal with |- context [match ?o with Some _ => _ | None => _ end] => destruct o as [c|]; [|exact I] end; destruct (Creatable_train_locations c); exact I)'
    out.append(f'Lemma Rd_{d} {{S : exn -> Prop}}{arg} : {hy}Rd S ({d}{arg}).\nProof. {pf}unfold {d}. {tac}. Qed.\n#[global] Hint Resolve Rd_{d} : rddb.')
print('\n'.join(out))
