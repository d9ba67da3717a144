#!/usr/bin/env python3
"""Dump.v (dataclasses.asdict per class) and Props_Dump.v (C34)."""
import ast, glob, re, os
from gen_update import records, B
py={}
for f in sorted(glob.glob('/repo/src/genieutils/*.py')):
    for n in ast.parse(open(f).read()).body:
        if isinstance(n,ast.ClassDef):
            fs=[(s.target.id,s.lineno) for s in n.body if isinstance(s,ast.AnnAssign)]
            py[n.name]=(os.path.basename(f),fs)
recs=list(records())
names={r for r,_ in recs}
def dump(t,e):
    t=t.strip()
    while t.startswith('(') and t.endswith(')'): t=t[1:-1].strip()
    if t=='Z': return f'TInt {e}'
    if t=='f64': return f'TFloat {e}'
    if t=='pystr': return f'TText {e}'
    if t in names: return f'{t}_asdict {e}'
    m=re.match(r'(list|option)\s+(.*)',t,re.S)
    assert m,t
    inner=fn(m.group(2))
    return f'{"TList (map" if m.group(1)=="list" else "of_option"} {inner} {e}'+(')' if m.group(1)=='list' else '')
def fn(t):
    t=t.strip()
    while t.startswith('(') and t.endswith(')'): t=t[1:-1].strip()
    if t in('Z','f64','pystr'): return {'Z':'TInt','f64':'TFloat','pystr':'TText'}[t]
    if t in names: return f'{t}_asdict'
    m=re.match(r'(list|option)\s+(.*)',t,re.S)
    i=fn(m.group(2))
    return f'(fun l => TList (map {i} l))' if m.group(1)=='list' else f'(of_option {i})'
o=['''(** * What [dat-to-json] prints: [dataclasses.asdict] of a loaded file (/repo/src/genieutils/scripts.py:10-19).

    Generated by tools/gen_dump.py from the dataclass declarations in /repo.  [asdict] makes a
    dictionary of the fields of a dataclass in the order of declaration, goes into lists and
    tuples and copies everything else.  The text that [json.dumps] makes of the tree is in Json.v.
    Simplification: argument parsing is not modelled. *)
From Verif Require Import Base PyFloat PyStr Versions FS Spec.
From Verif Require Import M_Sound M_PlayerColour M_Effect M_TerrainRestriction M_Graphic
  M_TerrainBlock M_RandomMaps M_Task M_UnitHeaders M_Unit M_Civ M_Tech M_TechTree M_DatFile.
From Coq Require Import String.
Open Scope Z_scope.
Local Open Scope list_scope.
Local Open Scope string_scope.

Inductive tree : Type :=
| TNull
| TInt (z : Z)
| TFloat (x : f64)
| TText (s : pystr)
| TList (l : list tree)
| TDict (l : list (string * tree)).
(** [None] stays [None] (null in JSON). *)
Definition of_option {A} (f : A -> tree) (o : option A) : tree := match o with Some a => f a | None => TNull end.
''']
p=['''(** * C34: the JSON dump is complete.  Generated by tools/gen_dump.py. *)
From Verif Require Import Base PyInt PyFloat PyStr Versions Wire Layout Shape Spec FS Dump.
From Verif Require Import M_Sound M_PlayerColour M_Effect M_TerrainRestriction M_Graphic
  M_TerrainBlock M_RandomMaps M_Task M_UnitHeaders M_Unit M_Civ M_Tech M_TechTree M_DatFile.
From Verif Require Import Common Theory Sample DumpL Props_Dat Props_FS.
From Coq Require Import String.
Open Scope Z_scope.
Local Open Scope list_scope.
Local Open Scope string_scope.

Definition keys (t : tree) : list string := match t with TDict l => map fst l | _ => [] end.
Definition get (k : string) (t : tree) : option tree :=
  match t with TDict l => option_map snd (find (fun e => String.eqb (fst e) k) l) | _ => None end.
Definition injective {A} (f : A -> tree) : Prop := forall x y, f x = f y -> x = y.
(** A dump of a non-optional value is never null. *)
Definition solid {A} (f : A -> tree) : Prop := forall x, f x <> TNull.
Lemma inj_int : injective TInt. Proof. intros x y [= ->]. reflexivity. Qed.
Lemma inj_float : injective TFloat. Proof. intros x y E. congruence. Qed.
Lemma inj_text : injective TText. Proof. intros x y E. congruence. Qed.
Lemma inj_map {A} {f : A -> tree} : injective f -> forall l m, map f l = map f m -> l = m.
Proof.
  intros H l. induction l as [|a l IH]; intros [|b m] E; try discriminate; [reflexivity|]. cbn [map] in E.
  assert (E1 : f a = f b) by congruence. assert (E2 : map f l = map f m) by congruence. apply H in E1. apply IH in E2. congruence.
Qed.
Lemma inj_list {A} {f : A -> tree} : injective f -> injective (fun l => TList (map f l)).
Proof. intros H l m E. apply (inj_map H). congruence. Qed.
Lemma inj_option {A} {f : A -> tree} : solid f -> injective f -> injective (of_option f).
Proof.
  intros S H [a|] [b|] E; cbn [of_option] in E; [apply H in E; congruence| | |reflexivity].
  - destruct (S a E).
  - destruct (S b (eq_sym E)).
Qed.
Lemma solid_int : solid TInt. Proof. discriminate. Qed.
Lemma solid_float : solid TFloat. Proof. discriminate. Qed.
Lemma solid_text : solid TText. Proof. discriminate. Qed.
Lemma solid_list {A} {f : A -> tree} : solid (fun l => TList (map f l)). Proof. discriminate. Qed.
Create HintDb dump.
#[local] Hint Resolve inj_int inj_float inj_text inj_list inj_option solid_int solid_float solid_text solid_list : dump.
''']
RES={'exists_':'exists'}
allnames=[]
for r,fs in recs:
    file,pf=py[r]
    assert [RES.get(f,f) for f,_ in fs]==[n for n,_ in pf],(r,[f for f,_ in fs],[n for n,_ in pf])
    o.append(f'(** {file}:{pf[0][1]}-{pf[-1][1]} *)')
    o.append(f'Definition {r}_asdict (x : {r}) : tree := TDict [')
    o.append(';\n'.join(f'  ("{RES.get(f,f)}", {dump(t,f"({r}_{f} x)")})' for f,t in fs)+'].\n')
    p.append(f'Theorem C34_{r}_fields : forall x,\n  keys ({r}_asdict x) = ['+'; '.join(f'"{n}"' for n,_ in pf)+'] /\\\n  '+
      ' /\\\n  '.join(f'get "{RES.get(f,f)}" ({r}_asdict x) = Some ({dump(t,f"({r}_{f} x)")})' for f,t in fs)+'.')
    p.append('Proof. intros x. repeat match goal with |- _ /\\ _ => split end; reflexivity. Qed.')
    p.append(f'Theorem C34_{r} : injective {r}_asdict.')
    p.append(f'Proof.\n  intros x y E.')
    # componentwise
    for i,(f,t) in enumerate(fs):
        p.append(f'  assert (F{i} : {r}_{f} x = {r}_{f} y) by (apply (f_equal (get "{RES.get(f,f)}")) in E; apply (f_equal (fun o => match o with Some t => t | None => TNull end)) in E; refine ((_ : injective {fn(t)}) _ _ E); eauto with dump).')
    p.append(f'  clear E. destruct x, y. cbn in '+', '.join(f'F{i}' for i in range(len(fs)))+'. subst. reflexivity.\nQed.')
    p.append(f'Lemma solid_{r} : solid {r}_asdict. Proof. discriminate. Qed.\n#[local] Hint Resolve C34_{r} solid_{r} : dump.\n')
    allnames+= [f'C34_{r}_fields',f'C34_{r}']
o.append('''(** Before 8.4 the reader sets [invulnerability_level = 0] (unit.py:551): an int, for which the record of
    the model has the float 0.0 (they are equal in Python, but printed differently). *)
Fixpoint int_levels (t : tree) : tree :=
  match t with
  | TList l => TList (map int_levels l)
  | TDict l => TDict (map (fun kt => if String.eqb (fst kt) "invulnerability_level" then (fst kt, TInt 0) else (fst kt, int_levels (snd kt))) l)
  | t => t
  end.
(** [dataclasses.asdict] of a file as it was loaded. *)
Definition shown (x : DatFile) : tree :=
  match version_lookup (DatFile_version x) with
  | Ok v => if version_ge v VER_84 then DatFile_asdict x else int_levels (DatFile_asdict x)
  | Err _ => DatFile_asdict x
  end.
(** scripts.py:18-19: [DatFile.parse(args.filename)], then the dump. *)
Definition dat_to_json (inflate : bytes -> res bytes) (f : fs) (p : path) : res tree :=
  rbind (parse inflate f p) (fun x => Ok (shown x)).
''')
p.append(open('/verif/tools/dump_tail.txt').read().replace('NAMES',', '.join(allnames)))
open(B+'Dump.v','w').write('\n'.join(o))
open(B+'Props_Dump.v','w').write('\n'.join(p))
