#!/usr/bin/env python3
"""Equal.v (dataclass __eq__ per class) and EqualP.v (equality through trees)."""
import re
from gen_dump import recs, py, B
names={r for r,_ in recs}
def strip(t):
    t=t.strip()
    while t.startswith('(') and t.endswith(')'): t=t[1:-1].strip()
    return t
def eq(t):
    t=strip(t)
    if t in('Z','f64','pystr'): return {'Z':'int_eq','f64':'float_eq','pystr':'str_eq'}[t]
    if t in names: return f'{t}_eq'
    m=re.match(r'(list|option)\s+(.*)',t,re.S)
    return f'({m.group(1)}_eq {eq(m.group(2))})'
o=['''(** * The comparison [==] of two objects: the [__eq__] that [@dataclass(slots=True)] generates.

    Generated by tools/gen_equal.py from the dataclass declarations in /repo.  The generated
    method compares the fields in the order of declaration as tuples: integers and texts by
    value, floats by IEEE 754 [==], lists item by item after their lengths, [None] with [None]
    only.  Simplifications: both operands have the field types that loading gives (a list against
    a tuple is unequal in Python); Python takes two references to one and the same object as
    equal without comparing, which matters for NaN only: [struct.unpack] makes a new float object
    each time, so two loads never share one.  [x == x] on one and the same Python object is True
    always and is not what is modelled here. *)
From Verif Require Import Base PyFloat PyStr.
From Verif Require Import M_Sound M_PlayerColour M_Effect M_TerrainRestriction M_Graphic
  M_TerrainBlock M_RandomMaps M_Task M_UnitHeaders M_Unit M_Civ M_Tech M_TechTree M_DatFile.
Open Scope Z_scope.
Local Open Scope list_scope.

(** [int == int] *)
Definition int_eq (a b : Z) : bool := a =? b.
(** [float == float]: a NaN is unequal to everything, the two zeros are equal, all else is equal
    only to itself. *)
Definition is_nan (x : f64) : bool := (f64_exp (f64_bits x) =? 2047) && negb (f64_man (f64_bits x) =? 0).
Definition is_zero (x : f64) : bool := (f64_exp (f64_bits x) =? 0) && (f64_man (f64_bits x) =? 0).
Definition float_eq (x y : f64) : bool :=
  negb (is_nan x) && negb (is_nan y) && (f64_eqb x y || (is_zero x && is_zero y)).
(** [tuple == tuple]: the results for the items *)
Definition tuple_eq (l : list bool) : bool := fold_right andb true l.
(** [str == str], [list == list], [Optional] *)
Fixpoint list_eq {A} (f : A -> A -> bool) (l m : list A) : bool :=
  match l, m with
  | [], [] => true
  | a :: l, b :: m => f a b && list_eq f l m
  | _, _ => false
  end.
Definition str_eq (a b : pystr) : bool := list_eq Z.eqb a b.
Definition option_eq {A} (f : A -> A -> bool) (a b : option A) : bool :=
  match a, b with Some a, Some b => f a b | None, None => true | _, _ => false end.
''']
p=['''(** * Equality of objects is equality of their trees.  Generated by tools/gen_equal.py. *)
From Verif Require Import Base PyFloat PyStr FS Spec Dump Floats Equal.
From Verif Require Import M_Sound M_PlayerColour M_Effect M_TerrainRestriction M_Graphic
  M_TerrainBlock M_RandomMaps M_Task M_UnitHeaders M_Unit M_Civ M_Tech M_TechTree M_DatFile.
From Coq Require Import String.
Open Scope Z_scope.
Local Open Scope list_scope.

Fixpoint same (t u : tree) {struct t} : bool :=
  match t, u with
  | TNull, TNull => true
  | TInt a, TInt b => int_eq a b
  | TFloat a, TFloat b => float_eq a b
  | TText a, TText b => str_eq a b
  | TList l, TList m => (fix go l m {struct l} := match l, m with [], [] => true | a :: l, b :: m => same a b && go l m | _, _ => false end) l m
  | TDict l, TDict m => (fix go (l m : list (string * tree)) {struct l} := match l, m with [], [] => true
      | (j, a) :: l, (k, b) :: m => String.eqb j k && (same a b && go l m) | _, _ => false end) l m
  | _, _ => false
  end.
Fixpoint tree_floats (g : f64 -> f64) (t : tree) : tree :=
  match t with
  | TFloat x => TFloat (g x)
  | TList l => TList (map (tree_floats g) l)
  | TDict l => TDict (map (fun kt => (fst kt, tree_floats g (snd kt))) l)
  | t => t
  end.
Definition cmp {A} (f : A -> tree) (e : A -> A -> bool) : Prop := (forall x y, same (f x) (f y) = e x y) /\\ (forall x, f x <> TNull).
Lemma cmp_int : cmp TInt int_eq. Proof. split; [reflexivity|discriminate]. Qed.
Lemma cmp_float : cmp TFloat float_eq. Proof. split; [reflexivity|discriminate]. Qed.
Lemma cmp_str : cmp TText str_eq. Proof. split; [reflexivity|discriminate]. Qed.
Lemma cmp_list {A} (f : A -> tree) e : (forall x y, same (f x) (f y) = e x y) -> cmp (fun l => TList (map f l)) (list_eq e).
Proof.
  intros H. split; [|discriminate]. intros x. induction x as [|a l IH]; intros [|b m]; try reflexivity.
  cbn [map list_eq]. change (same (TList (f a :: map f l)) (TList (f b :: map f m))) with (same (f a) (f b) && same (TList (map f l)) (TList (map f m))).
  rewrite H, IH. reflexivity.
Qed.
Lemma cmp_option {A} (f : A -> tree) e : cmp f e -> forall x y, same (of_option f x) (of_option f y) = option_eq e x y.
Proof.
  intros [H N] [x|] [y|]; cbn [of_option option_eq]; try reflexivity; [apply H| |].
  - specialize (N x). destruct (f x); try reflexivity. contradiction.
  - specialize (N y). destruct (f y); try reflexivity. contradiction.
Qed.
Definition moves {A} (g : f64 -> f64) (f : A -> tree) (h : A -> A) : Prop := forall x, tree_floats g (f x) = f (h x).
Definition keeps_ {A} (g : f64 -> f64) (f : A -> tree) : Prop := forall x, tree_floats g (f x) = f x.
Lemma moves_list {A} g (f : A -> tree) h : moves g f h -> moves g (fun l => TList (map f l)) (map h).
Proof. intros H l. cbn [tree_floats]. rewrite !map_map. f_equal. apply map_ext, H. Qed.
Lemma keeps_list_ {A} g (f : A -> tree) : keeps_ g f -> keeps_ g (fun l => TList (map f l)).
Proof. intros H l. cbn [tree_floats]. rewrite !map_map. f_equal. apply map_ext, H. Qed.
Lemma moves_option {A} g (f : A -> tree) h : moves g f h -> moves g (of_option f) (option_map h).
Proof. intros H [x|]; [apply H|reflexivity]. Qed.
Lemma keeps_option {A} g (f : A -> tree) : keeps_ g f -> keeps_ g (of_option f).
Proof. intros H [x|]; [apply H|reflexivity]. Qed.
Lemma keeps_int g : keeps_ g TInt. Proof. intros x. reflexivity. Qed.
Lemma keeps_text g : keeps_ g TText. Proof. intros x. reflexivity. Qed.
Lemma moves_float g : moves g TFloat g. Proof. intros x. reflexivity. Qed.
#[export] Hint Resolve keeps_int keeps_text moves_float keeps_list_ moves_list keeps_option moves_option : trees.
#[export] Hint Resolve cmp_int cmp_float cmp_str : trees.
Lemma dict_moves g l m : Forall2 (fun a b => fst a = fst b /\\ tree_floats g (snd a) = snd b) l m -> tree_floats g (TDict l) = TDict m.
Proof. intros H. cbn [tree_floats]. f_equal. induction H as [|[j a] [k b] l m [E F] H IH]; [reflexivity|]. cbn [map fst snd] in *. rewrite E, F, IH. reflexivity. Qed.
''']
def pr(t,a='x',b='y'):
    """proof term: forall x y, same (f x) (f y) = e x y"""
    t=strip(t)
    if t in('Z','f64','pystr'): return {'Z':'(proj1 cmp_int)','f64':'(proj1 cmp_float)','pystr':'(proj1 cmp_str)'}[t]
    if t in names: return f'(proj1 {t}_cmp)'
    m=re.match(r'(list|option)\s+(.*)',t,re.S)
    if m.group(1)=='list': return f'(proj1 (cmp_list _ _ {pr(m.group(2))}))'
    return f'(cmp_option _ _ {prc(m.group(2))})'
def prc(t):
    t=strip(t)
    if t in('Z','f64','pystr'): return {'Z':'cmp_int','f64':'cmp_float','pystr':'cmp_str'}[t]
    if t in names: return f'{t}_cmp'
    m=re.match(r'list\s+(.*)',t,re.S)
    return f'(cmp_list _ _ {pr(m.group(1))})'
fl={}
def has(t):
    t=strip(t)
    if t=='f64': return True
    if t in('Z','pystr'): return False
    if t in names: return fl[t]
    return has(re.match(r'(list|option)\s+(.*)',t,re.S).group(2))
def mv(t):
    t=strip(t)
    if t=='Z': return 'keeps_int'
    if t=='pystr': return 'keeps_text'
    if t=='f64': return 'moves_float'
    if t in names: return f'{t}_moves'
    m=re.match(r'(list|option)\s+(.*)',t,re.S)
    k='moves' if has(t) else 'keeps'
    i=mv(m.group(2))
    if m.group(1)=='option': return f'(fun g => {k}_option g _ {"_ " if k=="moves" else ""}({i} g))'
    return f'(fun g => {"moves_list" if k=="moves" else "keeps_list_"} g _ {"_ " if k=="moves" else ""}({i} g))'
for r,fs in recs:
    fl[r]=any(has(t) for _,t in fs)
    f,ls=py[r]
    o.append(f'(** {f}:{ls[0][1]}-{ls[-1][1]} *)')
    o.append(f'Definition {r}_eq (x y : {r}) : bool := tuple_eq [\n  '+';\n  '.join(f'{eq(t)[1:-1] if eq(t)[0]=="(" else eq(t)} ({r}_{n} x) ({r}_{n} y)' for n,t in fs)+'].')
    p.append(f'Lemma {r}_cmp : cmp {r}_asdict {r}_eq.\nProof.\n  split; [|discriminate]. intros x y.\n'+'\n'.join(f'  apply dict_step; [apply {pr(t)}|].' for n,t in fs)+'\n  reflexivity.\nQed.')
    h=f'({r}_floats g)' if fl[r] else None
    p.append(f'Lemma {r}_moves g : '+(f'moves g {r}_asdict {h}' if h else f'keeps_ g {r}_asdict')+'.')
    p.append(f'Proof.\n  intros x. apply dict_moves.\n'+'\n'.join(f'  constructor; [split; [reflexivity|exact ({mv(t)} g _)]|].' for n,t in fs)+'\n  constructor.\nQed.')
x='\n'.join(p)
x=x.replace('Definition moves {A}','''Lemma dict_step k a b l m e r : same a b = e -> same (TDict l) (TDict m) = tuple_eq r -> same (TDict ((k, a) :: l)) (TDict ((k, b) :: m)) = tuple_eq (e :: r).
Proof. intros E R. change (tuple_eq (e :: r)) with (e && tuple_eq r). rewrite <- E, <- R. cbn [same]. rewrite String.eqb_refl. reflexivity. Qed.
Definition moves {A}''',1)
open(B+'Equal.v','w').write('\n'.join(o)+'\n')
open(B+'EqualP.v','w').write(x+'\n')
