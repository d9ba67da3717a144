import re
P='/verif/rocq/theories/'
pc=open(P+'Props_Classes.v').read()
cls=re.findall(r'^Theorem C07_(\w+) : follows_table (\w+) (\w+) (\w+)\.',pc,re.M)
out=[]
for c,tb,lay,ar in cls:
    if c in('Unit','Civ'):
        out.append(f'Theorem C23_{c} : range_checked {c}_to_bytes {c}_flat_layout.\nProof. apply table_range, C07_{c}_flat. Qed.')
    else:
        out.append(f'Theorem C23_{c} : range_checked {c}_to_bytes {c}_layout.\nProof. apply table_range, C07_{c}. Qed.')
names=[f'C23_{c}' for c,*_ in cls]
lay=open(P+'Layout.v').read()
body={}
for m in re.finditer(r'^Definition (\w+)_layout .*?:=(.*?)\.\n\n',lay,re.M|re.S): body[m.group(1)]=m.group(2)
cn=[]
cond={'Bird_drop_sites':'since 78 v = true -> ','Creatable_train_locations':'since 88 v = true -> ','Tech_research_locations':'since 88 v = true -> '}
MAX={'U8':'255','I16':'32767','I32':'2147483647','U32':'4294967295'}
for c,tb,l,ar in cls:
    cells=re.findall(r'([UI]\d+) \(count \((\w+) x\)\)',body.get(c,''))
    if not cells: continue
    concl=' /\\\n  '.join((f'({cond[f]}(length ({f} x) <= Z.to_nat {MAX[k]})%nat)' if f in cond else f'(length ({f} x) <= Z.to_nat {MAX[k]})%nat') for k,f in cells)
    layname=f'{c}_flat_layout' if c in('Unit','Civ') else f'{c}_layout'
    pr=[]
    for k,f in cells:
        intro='intros V; ' if f in cond else ''
        rw='rewrite ?V; ' if f in cond else ''
        pr.append(f'{intro}apply (count_{k.lower()} C23_{c} E); unfold {layname}; {rw}in_cells')
    pf=('repeat split; ' if len(pr)>1 else '')
    if len(pr)>1:
        pf=' '.join(f'split; [{p}|].' for p in pr[:-1])+f' {pr[-1]}.'
    else: pf=pr[0]+'.'
    if c=='RandomMaps':
        pf='''apply (count_u32 C23_RandomMaps E). pose proof (C07_RandomMaps v x I) as H. rewrite E in H. cbn [returned] in H.
  unfold RandomMaps_layout, guard in *. destruct (_ =? _); [cbn [In app]; tauto|discriminate H].'''
    cn.append(f'Theorem C24_{c} : forall v x bs, {c}_to_bytes x v = Ok bs ->\n  {concl}.\nProof. intros v x bs E. {pf} Qed.')
    names.append(f'C24_{c}')
head=open('/verif/tools/range_head.txt').read()
tail=open('/verif/tools/range_tail.txt').read()
open(P+'Props_Range.v','w').write(head+'\n'.join(out)+'\n\n(** ** C24 *)\n'+'\n'.join(cn)+'\n'+tail.replace('NAMES',', '.join(names)))
