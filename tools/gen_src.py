#!/usr/bin/env python3
"""Source.v: the classes of /repo/src/genieutils as syntax trees of Py.v.

A plain rendering of Python's own [ast]; every node that Py.v does not have aborts.
DatFile.parse and DatFile.save are printed but not among the methods of the class (FS.v models files)."""
import ast, sys
SRC = '/repo/src/genieutils/'
OUT = sys.argv[1] if len(sys.argv) > 1 else '/verif/rocq/theories/'
MODULES = ['datatypes', 'versions', 'common', 'sound', 'playercolour', 'effect', 'terrainrestriction', 'graphic',
           'terrainblock', 'randommaps', 'task', 'unitheaders', 'unit', 'civ', 'tech', 'techtree', 'datfile']
EXN = {'NotImplementedError'}


def die(n): raise SystemExit(f'unsupported: {ast.dump(n)[:200]} line {getattr(n, "lineno", "?")}')
def q(s): return '"' + s.replace('"', '""') + '"'
def z(i): return str(i) if i >= 0 else f'({i})'
def lst(l, sep='; '): return '[' + sep.join(l) + ']'


def const(v):
    if v is None: return 'KNone'
    if v is True: return '(KBool true)'
    if v is False: return '(KBool false)'
    if isinstance(v, int): return f'(KInt {z(v)})'
    if isinstance(v, float): return '(KFloat ' + {0.0: 'f64_zero', 1.0: 'f64_one'}[v] + ')'
    if isinstance(v, str):
        assert all(32 <= ord(c) < 127 for c in v)
        return f'(KStr {q(v)})'
    if isinstance(v, bytes): return '(KBytes ' + lst(f'byte_of {b}' for b in v) + ')'
    raise SystemExit(repr(v))


CMP = {ast.Eq: 'CEq', ast.NotEq: 'CNe', ast.Lt: 'CLt', ast.LtE: 'CLe', ast.Gt: 'CGt', ast.GtE: 'CGe', ast.Is: 'CIs', ast.IsNot: 'CIsNot'}
BIN = {ast.Add: 'BAdd', ast.Sub: 'BSub', ast.Mult: 'BMul'}


def ex(e):
    if isinstance(e, ast.Constant): return f'(EConst {const(e.value)})'
    if isinstance(e, ast.Name): return f'(EName {q(e.id)})'
    if isinstance(e, ast.Attribute): return f'(EAttr {ex(e.value)} {q(e.attr)})'
    if isinstance(e, ast.Subscript):
        if isinstance(e.slice, ast.Slice):
            assert e.slice.step is None
            return f'(ESlice {ex(e.value)} {ex(e.slice.lower)} {ex(e.slice.upper)})'
        return f'(EIndex {ex(e.value)} {ex(e.slice)})'
    if isinstance(e, ast.Call):
        args = [ex(a) for a in e.args]
        for k in e.keywords:
            assert k.arg
            args.append(f'EKw {q(k.arg)} {ex(k.value)}')
        return f'(ECall {ex(e.func)} {lst(args)})'
    if isinstance(e, ast.Starred): return f'EStar {ex(e.value)}'
    if isinstance(e, ast.BinOp): return f'(EBin {BIN[type(e.op)]} {ex(e.left)} {ex(e.right)})'
    if isinstance(e, ast.UnaryOp):
        if isinstance(e.op, ast.Not): return f'(ENot {ex(e.operand)})'
        if isinstance(e.op, ast.USub): return f'(ENeg {ex(e.operand)})'
    if isinstance(e, ast.Compare):
        o = [CMP[type(x)] for x in e.ops]
        if len(o) == 1: return f'(ECmp {o[0]} {ex(e.left)} {ex(e.comparators[0])})'
        if len(o) == 2: return f'(EChain {o[0]} {ex(e.left)} {ex(e.comparators[0])} {o[1]} {ex(e.comparators[1])})'
    if isinstance(e, ast.BoolOp) and isinstance(e.op, ast.And) and len(e.values) == 2:
        return f'(EAnd {ex(e.values[0])} {ex(e.values[1])})'
    if isinstance(e, ast.IfExp): return f'(EIf {ex(e.test)} {ex(e.body)} {ex(e.orelse)})'
    if isinstance(e, ast.List): return f'(EList {lst([ex(x) for x in e.elts])})'
    if isinstance(e, ast.Tuple): return f'(ETuple {lst([ex(x) for x in e.elts])})'
    if isinstance(e, (ast.ListComp, ast.GeneratorExp)) and len(e.generators) == 1:
        g = e.generators[0]
        assert len(g.ifs) <= 1 and isinstance(g.target, ast.Name)
        c = f'(Some {ex(g.ifs[0])})' if g.ifs else 'None'
        return f'(EFor {ex(e.elt)} {q(g.target.id)} {ex(g.iter)} {c})'
    die(e)


def st(s, ind):
    if isinstance(s, ast.Assign) and len(s.targets) == 1:
        t = s.targets[0]
        if isinstance(t, ast.Name): return f'SAssign {q(t.id)} {ex(s.value)}'
        if isinstance(t, ast.Tuple): return f'SUnpack {lst([q(x.id) for x in t.elts])} {ex(s.value)}'
        if isinstance(t, ast.Attribute): return f'SSetAttr {ex(t.value)} {q(t.attr)} {ex(s.value)}'
    if isinstance(s, ast.AnnAssign) and isinstance(s.target, ast.Attribute):
        return f'SSetAttr {ex(s.target.value)} {q(s.target.attr)} {ex(s.value)}'
    if isinstance(s, ast.AugAssign) and isinstance(s.op, ast.Add): return f'SAdd {q(s.target.id)} {ex(s.value)}'
    if isinstance(s, ast.Return): return f'SReturn {ex(s.value)}'
    if isinstance(s, ast.Expr): return f'SExpr {ex(s.value)}'
    if isinstance(s, ast.Assert): return f'SAssert {ex(s.test)}'
    if isinstance(s, ast.Raise):
        assert s.exc.id in EXN
        return f'SRaise {s.exc.id}'
    if isinstance(s, ast.If): return f'SIf {ex(s.test)} {blk(s.body, ind)} {blk(s.orelse, ind)}'
    if isinstance(s, ast.For):
        assert not s.orelse
        return f'SFor {q(s.target.id)} {ex(s.iter)} {blk(s.body, ind)}'
    die(s)


def blk(l, ind):
    if not l: return '[]'
    i = ind + '  '
    return '[\n' + ';\n'.join(i + st(s, i) for s in l) + ']'


o = ['''(** * The source text of genieutils, as syntax trees.

    Generated by tools/gen_src.py from the Python [ast] of the files in /repo/src/genieutils, with no
    interpretation: types and docstrings are dropped, everything else is here.  [DatFile.parse] and
    [DatFile.save] are here but not among the methods of the class, for [Py.v] has no files (FS.v
    models them).  scripts.py is in SourceCli.v. *)
From Verif Require Import Base PyFloat Py.
From Coq Require Import String.
Open Scope Z_scope.
Open Scope string_scope.
Local Open Scope list_scope.
''']
classes, globs = [], []
for mod in MODULES:
    tree = ast.parse(open(SRC + mod + '.py').read())
    g = []
    for s in tree.body:
        if isinstance(s, (ast.Import, ast.ImportFrom)): continue
        if isinstance(s, ast.Assign):
            if ast.unparse(s.value).startswith('TypeVar('): continue
            g.append(f'({q(s.targets[0].id)}, {ex(s.value)})')
            continue
        assert isinstance(s, ast.ClassDef)
        c = s.name
        bases = [b.id for b in s.bases]
        deco = [ast.unparse(d) for d in s.decorator_list]
        sort = 'IntEnum' if 'IntEnum' in bases else 'Enum' if 'Enum' in bases else 'Plain'
        if deco:
            assert deco == ['dataclass(slots=True)']
            sort = 'Dataclass'
        fields, defaults, members, meths = [], [], [], []
        for f in s.body:
            if isinstance(f, ast.AnnAssign):
                fields.append(q(f.target.id))
                if f.value is not None: defaults.append(f'({q(f.target.id)}, {const(f.value.value)})')
            elif isinstance(f, ast.Assign):
                members.append(f'({q(f.targets[0].id)}, {const(f.value.value)})')
            elif isinstance(f, ast.FunctionDef):
                d = [x.id for x in f.decorator_list]
                kind = {(): 'Method', ('classmethod',): 'ClassMethod', ('staticmethod',): 'StaticMethod', ('property',): 'Property'}[tuple(d)]
                a = f.args
                assert not (a.vararg or a.kwarg or a.kwonlyargs or a.posonlyargs)
                ps = [x.arg for x in a.args]
                defs = [f'({q(p)}, {ex(v)})' for p, v in zip(ps[len(ps) - len(a.defaults):], a.defaults)]
                n = f'src_{c}_{f.name}'
                o.append(f'(** {mod}.py:{f.lineno}-{f.end_lineno} {c}.{f.name} *)')
                o.append(f'Definition {n} : func := mkFunc {kind} {q(mod)} {lst([q(p) for p in ps])} {lst(defs)} {blk(f.body, "")}.')
                if c == 'DatFile' and f.name in ('parse', 'save'): continue  # not run as methods
                meths.append(f'({q(f.name)}, {n})')
            else: die(f)
        o.append(f'(** {mod}.py:{s.lineno} class {c} *)')
        o.append(f'Definition src_{c} : class := mkClass {sort} {lst([q(b) for b in bases])}\n  {lst(fields)}\n  {lst(defaults)}\n  {lst(members)}\n  {lst(meths)}.\n')
        classes.append(f'({q(c)}, src_{c})')
    if g: globs.append(f'({q(mod)}, [' + ';\n    '.join(g) + '])')
o.append('Definition source : program := mkProgram\n  [' + ';\n   '.join(classes) + ']\n  [' + ';\n   '.join(globs) + '].')
# the python examples of the README
text = open('/repo/README.md').read().split('\n')
k = 0
while k < len(text):
    if text[k].strip() == '```python':
        e = k + 1
        while text[e].strip() != '```': e += 1
        b = [s for s in ast.parse('\n'.join(text[k + 1:e])).body if not isinstance(s, (ast.Import, ast.ImportFrom))]
        n = sum('Definition readme_' in x for x in o) + 1
        o.append(f'\n(** README.md:{k + 2}-{e} without its import *)\nDefinition readme_{n} : list stmt := {blk(b, "")}.')
        k = e
    k += 1
open(OUT + 'Source.v', 'w').write('\n'.join(o) + '\n')

# the command line tool
o = ["""(** * The source text of scripts.py (the command [dat-to-json] of pyproject.toml), as syntax trees.

    Generated by tools/gen_src.py from /repo/src/genieutils/scripts.py.  Left out: the imports and
    [if __name__ == '__main__': main()]. *)
From Verif Require Import Base PyFloat Py.
From Coq Require Import String.
Open Scope Z_scope.
Open Scope string_scope.
Local Open Scope list_scope.
"""]
for s in ast.parse(open(SRC + 'scripts.py').read()).body:
    if isinstance(s, (ast.Import, ast.ImportFrom)): continue
    if isinstance(s, ast.If):
        assert ast.unparse(s) == "if __name__ == '__main__':\n    main()", ast.unparse(s)
        continue
    assert isinstance(s, ast.FunctionDef) and not s.args.args and not s.decorator_list
    o.append(f'(** scripts.py:{s.lineno}-{s.end_lineno} {s.name} *)\nDefinition src_{s.name} : func := mkFunc StaticMethod "scripts" [] [] {blk(s.body, "")}.')
open(OUT + 'SourceCli.v', 'w').write('\n'.join(o) + '\n')
