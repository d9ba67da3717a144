#!/usr/bin/env python3
"""CliS.v: for each class, the dump of an object (Deep.v) is the tree of Dump.v, and how deep it is.
Usage: gen_cli.py > CliS.v"""
import re
from gen_update import records
recs=list(records()); names={r for r,_ in recs}
deep={}
def strip(t):
    t=t.strip()
    while t.startswith('(') and t.endswith(')'): t=t[1:-1].strip()
    return t
def d(t):
    t=strip(t)
    if t in('Z','f64','pystr'): return 1
    if t in names: return deep[t]
    m=re.match(r'(list|option)\s+(.*)',t,re.S); assert m,t
    return d(m.group(2))+(1 if m.group(1)=='list' else 0)
def S(k):
    return 'n' if k==0 else '(S '*k+'n'+')'*k
print('''(** * The dump of each kind of object: Deep.v, Dump.v and the class declarations of Source.v agree.
    Generated by tools/gen_cli.py. *)
From Verif Require Import Base PyFloat PyStr Py Source PyRep Deep Dump CliL.
From Verif Require Import M_Sound M_PlayerColour M_Effect M_TerrainRestriction M_Graphic
  M_TerrainBlock M_RandomMaps M_Task M_UnitHeaders M_Unit M_Civ M_Tech M_TechTree M_DatFile.
From Coq Require Import String.
Open Scope Z_scope.
Local Open Scope list_scope.
Local Open Scope string_scope.

Ltac new_item := first [ apply y_int | apply y_float | apply y_str | exact (y_num false _ _) | apply says_opt; intros ?; new_item
  | apply y_list, F2_map; intros ?; new_item | apply y_tuple, F2_map; intros ?; new_item | auto with says nocore ].
Ltac old_item := first [ apply y_int | apply y_float | apply y_str | exact (y_num true _ _) | apply says_opt_old; intros ?; old_item
  | apply y_list; rewrite ?map_map; apply F2_map; intros ?; cbn [int_levels]; old_item | apply y_tuple; rewrite ?map_map; apply F2_map; intros ?; cbn [int_levels]; old_item | auto with says nocore ].
Ltac fields item := repeat first [ apply Forall2_nil | apply Forall2_cons; [split; [reflexivity|cbn [fst snd]; item]|] ].
Ltac class item := eapply y_obj; [vm_compute; reflexivity|reflexivity|reflexivity|vm_compute; reflexivity|].
Create HintDb says.
''')
for r,fs in recs:
    deep[r]=1+max(d(t) for _,t in fs)
    k=deep[r]
    print(f'''Lemma {r}_new n x : says false {S(k)} ({r}_deep x) ({r}_asdict x).
Proof. unfold {r}_deep, {r}_asdict. class new_item. fields new_item. Qed.
Lemma {r}_old n x : says true {S(k)} ({r}_deep x) (int_levels ({r}_asdict x)).
Proof.
  unfold {r}_deep, {r}_asdict. cbn [int_levels map fst snd String.eqb Ascii.eqb Bool.eqb].
  class old_item. fields old_item.
Qed.
#[local] Hint Resolve {r}_new {r}_old : says.
''')
