#!/usr/bin/env python3
"""Transcribes the record classes of /repo/src/genieutils into Coq, statement by statement.

Reads the Python source as text (ast), never imports it.  The output files
rocq/theories/M_*.v are committed; this script is kept for reference.
Every Python statement form that is not listed below aborts the generation."""
import ast, os, sys

SRC = '/repo/src/genieutils'
OUT = sys.argv[1] if len(sys.argv) > 1 else '/verif/rocq/theories'
MODULES = [('sound', 'M_Sound', []), ('playercolour', 'M_PlayerColour', []), ('effect', 'M_Effect', []),
           ('terrainrestriction', 'M_TerrainRestriction', []), ('graphic', 'M_Graphic', []),
           ('terrainblock', 'M_TerrainBlock', []), ('randommaps', 'M_RandomMaps', []),
           ('task', 'M_Task', []), ('unitheaders', 'M_UnitHeaders', ['M_Task']),
           ('unit', 'M_Unit', ['M_Task']), ('civ', 'M_Civ', ['M_Task', 'M_Unit']),
           ('tech', 'M_Tech', []), ('techtree', 'M_TechTree', []),
           ('datfile', 'M_DatFile', ['M_Sound', 'M_PlayerColour', 'M_Effect', 'M_TerrainRestriction', 'M_Graphic',
                                     'M_TerrainBlock', 'M_RandomMaps', 'M_Task', 'M_UnitHeaders', 'M_Unit', 'M_Civ',
                                     'M_Tech', 'M_TechTree'])]
RESERVED = {'exists': 'exists_'}
FIELDS = {}      # class -> [(field, annotation ast)]
KNOWN = ['TILE_TYPE_COUNT', 'TERRAIN_COUNT', 'TERRAIN_UNITS_SIZE']


def nm(x): return RESERVED.get(x, x)


def die(node, why='unsupported'):
    raise SystemExit(f'{why}: {ast.unparse(node)} (line {getattr(node, "lineno", "?")})')


def coq_type(a):
    if isinstance(a, ast.Name):
        return {'int': 'Z', 'float': 'f64', 'str': 'pystr'}.get(a.id, a.id)
    if isinstance(a, ast.Subscript):
        elts = a.slice.elts if isinstance(a.slice, ast.Tuple) else [a.slice]
        ts = {coq_type(e) for e in elts}
        assert len(ts) == 1 and a.value.id in ('list', 'tuple')
        t = ts.pop()
        return f'list {t}' if ' ' not in t else f'list ({t})'
    if isinstance(a, ast.BinOp) and isinstance(a.op, ast.BitOr):
        assert isinstance(a.right, ast.Constant) and a.right.value is None
        t = coq_type(a.left)
        return f'option {t}' if ' ' not in t else f'option ({t})'
    die(a)


class Ctx:
    def __init__(self, cls, consts):
        self.cls, self.consts, self.opt, self.bytesvars, self.typ = cls, consts, set(), set(), {}
        self.bound = set()  # variables assigned before the current block
        self.n = 0

    def fresh(self, p='t'):
        self.n += 1
        return f'{p}{self.n}'


def field_type(cls, f):
    for n, a in FIELDS[cls]:
        if n == f: return a
    raise KeyError((cls, f))


def elem_type(a):
    elts = a.slice.elts if isinstance(a.slice, ast.Tuple) else [a.slice]
    return elts[0]


def kw(call):
    return {k.arg: k.value for k in call.keywords}


def boolean(node):
    assert isinstance(node, ast.Constant) and isinstance(node.value, bool)
    return 'true' if node.value else 'false'


# ---- pure integer/option expressions -------------------------------------------------
def pure(e, cx):
    """Non-raising expression (ints, lists, records)."""
    if isinstance(e, ast.Constant):
        if e.value is None: return 'None'
        if isinstance(e.value, int): return str(e.value) if e.value >= 0 else f'({e.value})'
        if isinstance(e.value, float): return {0.0: 'f64_zero', 1.0: 'f64_one'}[e.value]
        die(e)
    if isinstance(e, ast.UnaryOp) and isinstance(e.op, ast.USub):
        return f'(-{e.operand.value})'
    if isinstance(e, ast.Name):
        return nm(e.id)
    if isinstance(e, ast.Attribute):
        if isinstance(e.value, ast.Name) and e.value.id == 'self':
            return f'({cx.cls}_{nm(e.attr)} self)'
        if isinstance(e.value, ast.Name) and e.value.id == 'UnitType': return f'UnitType_{e.attr}'
        if isinstance(e.value, ast.Name) and e.value.id == 'Version': return e.attr
    if isinstance(e, ast.Call) and isinstance(e.func, ast.Name) and e.func.id == 'len':
        return f'(len {pure(e.args[0], cx)})'
    if isinstance(e, ast.List) and not e.elts: return '[]'
    if isinstance(e, ast.Tuple) or isinstance(e, ast.List):
        return '[' + '; '.join(pure(x, cx) for x in e.elts) + ']'
    if isinstance(e, ast.Call) and isinstance(e.func, ast.Name) and e.func.id in FIELDS:
        return record(e.func.id, [(k.arg, pure(k.value, cx)) for k in e.keywords])
    die(e)


def record(cls, kvs):
    assert sorted(k for k, _ in kvs) == sorted(f for f, _ in FIELDS[cls]), (cls, kvs)
    return '{| ' + ';\n     '.join(f'{cls}_{nm(k)} := {v}' for k, v in kvs) + ' |}'


def cond(e, cx):
    if isinstance(e, ast.Compare) and len(e.ops) == 1:
        l, op, r = e.left, e.ops[0], e.comparators[0]
        if isinstance(r, ast.Attribute) and isinstance(r.value, ast.Name) and r.value.id == 'Version':
            f = {ast.GtE: 'version_ge', ast.Gt: 'version_gt', ast.Lt: 'version_lt', ast.LtE: 'version_le'}[type(op)]
            ls = ast.unparse(l)
            assert ls in ('version', 'content.version')
            return f'{f} version {r.attr}'
        if isinstance(op, ast.NotEq): return f'negb ({pure(l, cx)} =? {pure(r, cx)})'
        if isinstance(op, ast.Eq): return f'{pure(l, cx)} =? {pure(r, cx)}'
        if isinstance(op, ast.GtE): return f'{pure(r, cx)} <=? {pure(l, cx)}'
    if isinstance(e, ast.Compare) and len(e.ops) == 2 and all(isinstance(o, ast.Eq) for o in e.ops):
        a, b, c = e.left, *e.comparators
        return f'({pure(a, cx)} =? {pure(b, cx)}) && ({pure(b, cx)} =? {pure(c, cx)})'
    if isinstance(e, ast.Name): return f'truthy {nm(e.id)}'
    if isinstance(e, ast.Attribute):
        t = field_type(cx.cls, e.attr)
        if coq_type(t).startswith('list'): return f'nonempty {pure(e, cx)}'
        assert coq_type(t) == 'Z'
        return f'truthy {pure(e, cx)}'
    if isinstance(e, ast.Call) and isinstance(e.func, ast.Name) and e.func.id == 'len':
        return f'truthy {pure(e, cx)}'
    die(e)


# ---- readers -------------------------------------------------------------------------
def cname(a):
    assert isinstance(a, ast.Name) and a.id in FIELDS, ast.unparse(a)
    return a.id


def rexpr(e, cx):
    """A read call on [content], or None."""
    if isinstance(e, ast.IfExp):
        return f'(if {cond(e.test, cx)} then {rexpr(e.body, cx)} else ret {pure(e.orelse, cx)})'
    if not (isinstance(e, ast.Call) and isinstance(e.func, ast.Attribute) and isinstance(e.func.value, ast.Name)):
        return None
    o, m = e.func.value.id, e.func.attr
    if o == 'cls':
        assert m.startswith('from_bytes')
        return f'{cx.cls}_{m}'
    if o != 'content': return None
    k = kw(e)
    if m in ('read_int_16', 'read_int_32'):
        assert not e.args and set(k) <= {'signed'}
        return f'{m} {boolean(k["signed"]) if k else "true"}'
    assert not k
    if m in ('read_class', 'read_class_array_3', 'read_class_array_4'):
        return f'{m} {cname(e.args[0])}_from_bytes'
    if m in ('read_class_array', 'read_class_array_with_pointers'):
        return f'{m} {cname(e.args[0])}_from_bytes ' + ' '.join(pure(a, cx) for a in e.args[1:])
    if m == 'read_class_array_with_param':
        return f'{m} {cname(e.args[0])}_from_bytes_with_count ' + ' '.join(pure(a, cx) for a in e.args[1:])
    return ' '.join([m] + [pure(a, cx) for a in e.args])


def assigned(stmts):
    out = []
    for s in stmts:
        if isinstance(s, ast.Assign):
            for t in s.targets:
                if isinstance(t, ast.Name) and t.id not in out: out.append(t.id)
        elif isinstance(s, ast.AugAssign):
            if s.target.id not in out: out.append(s.target.id)
        elif isinstance(s, ast.If):
            for x in assigned(s.body) + assigned(s.orelse):
                if x not in out: out.append(x)
        else:
            die(s)
    return out


def tup(vs):
    return nm(vs[0]) if len(vs) == 1 else '(' + ', '.join(map(nm, vs)) + ')'


SPECIAL_84 = '''if creatable:
    if not creatable.train_locations:
        creatable.train_locations = [TrainLocation(train_time=0, unit_id=-1, button_id=0, hot_key_id=16000)]
    creatable.train_locations[0].hot_key_id = hot_key'''
COQ_84 = '''creatable <- lift
  (match creatable with
   | Some c =>
       let c := if nonempty (Creatable_train_locations c) then c
                else set_Creatable_train_locations
                       [{| TrainLocation_train_time := 0; TrainLocation_unit_id := (-1);
                           TrainLocation_button_id := 0; TrainLocation_hot_key_id := 16000 |}] c in
       first <-- py_index (Creatable_train_locations c) 0 ;;;
       Ok (Some (set_Creatable_train_locations
                   (set_TrainLocation_hot_key_id hot_key first :: tl (Creatable_train_locations c)) c))
   | None => Ok None
   end) ;;
'''
SPECIAL_88 = '''if creatable and creatable.train_locations:
    hot_key = creatable.train_locations[0].hot_key_id'''
COQ_88 = '''hot_key <- lift
  (match creatable with
   | Some c =>
       if nonempty (Creatable_train_locations c)
       then first <-- py_index (Creatable_train_locations c) 0 ;;; Ok (TrainLocation_hot_key_id first)
       else Ok hot_key
   | None => Ok hot_key
   end) ;;
'''


def rstmts(stmts, cx, final, ind='  '):
    out = ''
    for i, s in enumerate(stmts):
        if isinstance(s, ast.Return):
            c = s.value
            r = rexpr(c, cx)
            if r is not None: return out + f'{ind}{r}'
            assert isinstance(c, ast.Call) and c.func.id == 'cls' and not c.args
            kvs = []
            for k in c.keywords:
                r = rexpr(k.value, cx)
                if r is not None:
                    out += f'{ind}{nm(k.arg)} <- {r} ;;\n'
                    kvs.append((k.arg, nm(k.arg)))
                else:
                    kvs.append((k.arg, pure(k.value, cx)))
            return out + f'{ind}ret {record(cx.cls, kvs)}'
        if isinstance(s, ast.Assign):
            t = s.targets[0]
            if isinstance(t, ast.Tuple):
                c = s.value
                assert ast.unparse(c.func) == 'struct.unpack'
                fmt = cx.consts[c.args[0].id]
                ln = c.args[1]
                assert ast.unparse(ln.func) == 'content.consume_range'
                chars = parse_fmt(c.args[0].id, cx)
                assert len(chars) == len(t.elts), 'arity'
                pats = []
                for ch, v in zip(chars, t.elts):
                    pats.append(('VFloat ' if ch == 'f' else 'VInt ') + nm(v.id))
                    cx.typ[v.id] = 'float' if ch == 'f' else 'int'
                out += f'{ind}vals <- read_struct {fmt_name(c.args[0].id, cx)} {fmt_name(ln.args[0].id, cx)} ;;\n'
                out += f'{ind}match vals with\n{ind}| [' + '; '.join(pats) + '] =>\n'
                rest = rstmts(stmts[i + 1:], cx, final, ind + '  ')
                return out + rest + f'\n{ind}| _ => raise ValueError\n{ind}end'
            if isinstance(t, ast.Attribute):
                assert ast.unparse(s) == 'content.version = Version(version)'
                out += f'{ind}parsed <- lift (version_lookup version) ;;\n{ind}_ <- set_version parsed ;;\n'
                continue
            r = rexpr(s.value, cx)
            if r is not None:
                if t.id in cx.opt:
                    out += f'{ind}{nm(t.id)} <- {r} ;;\n{ind}let {nm(t.id)} := Some {nm(t.id)} in\n'
                else:
                    out += f'{ind}{nm(t.id)} <- {r} ;;\n'
            else:
                v = s.value
                if isinstance(v, ast.Constant) and v.value is None:
                    cx.opt.add(t.id)
                    out += f'{ind}let {nm(t.id)} : {coq_type(field_type(cx.cls, t.id))} := None in\n'
                elif t.id == 'invulnerability_level':
                    out += f'{ind}let {t.id} := f64_zero in  (* Python int 0; 0 == 0.0 *)\n'
                else:
                    out += f'{ind}let {nm(t.id)} := {pure(v, cx)} in\n'
            continue
        if isinstance(s, ast.If):
            u = ast.unparse(s)
            if u == SPECIAL_84:
                out += ''.join(ind + l + '\n' for l in COQ_84.splitlines()); continue
            if u == SPECIAL_88:
                out += ''.join(ind + l + '\n' for l in COQ_88.splitlines()); continue
            if 'content.version' in ast.unparse(s.test):
                out += f'{ind}version <- get_version ;;\n'
            if isinstance(s.body[0], ast.Return):
                a = rstmts(s.body, cx, final, '')
                b = rstmts(s.orelse + stmts[i + 1:], cx, final, ind + '  ')
                return out + f'{ind}if {cond(s.test, cx)} then {a}\n{ind}else (\n{b})'
            assert not s.orelse
            vs = [v for v in assigned(s.body) if v in assigned(stmts[:i]) or v in cx.bound]
            cx.bound |= set(assigned([x for x in stmts[:i] if isinstance(x, (ast.Assign, ast.If))
                                      and ast.unparse(x) not in (SPECIAL_84, SPECIAL_88)]))
            body = rstmts(s.body, cx, f'ret {tup(vs)}', ind + '    ')
            lhs = tup(vs) if len(vs) == 1 else "'" + tup(vs)
            out += f'{ind}{lhs} <-\n{ind}  (if {cond(s.test, cx)} then\n{body}\n{ind}   else ret {tup(vs)}) ;;\n'
            continue
        die(s)
    return out + f'{ind}{final}'


# ---- formats -------------------------------------------------------------------------
def parse_fmt(name, cx):
    f = cx.consts[name]
    assert isinstance(f, str) and f[0] == '<'
    return f[1:]


def fmt_name(name, cx): return f'{cx.mod}_{name}'


# ---- writers -------------------------------------------------------------------------
def index0(e):
    """self.L[0].f -> (L, f)"""
    if (isinstance(e, ast.Attribute) and isinstance(e.value, ast.Subscript)
            and isinstance(e.value.slice, ast.Constant) and e.value.slice.value == 0):
        return e.value.value, e.attr
    return None


def wexpr(e, cx):
    if isinstance(e, ast.Constant) and e.value == b'': return 'Ok []'
    if isinstance(e, ast.Name):
        assert e.id in cx.bytesvars
        return f'Ok {nm(e.id)}'
    if isinstance(e, ast.BinOp) and isinstance(e.op, ast.Add):
        return f'({wexpr(e.left, cx)} +++ {wexpr(e.right, cx)})'
    if isinstance(e, ast.IfExp):
        assert wexpr(e.orelse, cx) == 'Ok []'
        t = e.test
        tests = t.values if isinstance(t, ast.BoolOp) else [t]
        out, close = '', ''
        for x in tests:
            if isinstance(x, ast.Compare) and isinstance(x.ops[0], ast.IsNot):
                a = x.left
                v = nm(a.attr)
                cx.unwrapped = a.attr
                out += f'match {pure(a, cx)} with Some {v} => '
                close = ' | None => Ok [] end' + close
            else:
                out += f'if {cond(x, cx)} then '
                close = ' else Ok []' + close
        body = wexpr(Unwrap(cx.unwrapped).visit(ast.parse(ast.unparse(e.body), mode='eval').body), cx)
        return f'({out}{body}{close})'
    if not isinstance(e, ast.Call): die(e)
    u = ast.unparse(e.func)
    k = kw(e)
    if u == "b''.join":
        return 'join [\n    ' + ';\n    '.join(wexpr(x, cx) for x in e.args[0].elts) + ' ]'
    if u == 'struct.pack':
        parts, pre, seen = [], '', {}
        for a in e.args[1:]:
            if isinstance(a, ast.Starred):
                t = coq_type(elem_type(field_type(cx.cls, a.value.attr)))
                parts.append(('map', 'VFloat' if t == 'f64' else 'VInt', pure(a.value, cx)))
                continue
            ix = index0(a)
            if ix:
                l, f = ix
                key = pure(l, cx)
                ec = elem_type(field_type(cx.cls, l.attr)).id
                if key not in seen:
                    seen[key] = 'first'
                    pre += f'first <-- py_index {key} 0 ;;; '
                ty = coq_type(field_type(ec, f))
                parts.append(('one', 'VFloat' if ty == 'f64' else 'VInt', f'({ec}_{nm(f)} first)'))
                continue
            ty = coq_type(field_type(cx.cls, a.attr))
            parts.append(('one', {'f64': 'VFloat', 'Z': 'VInt'}[ty], pure(a, cx)))
        s, cur = [], []
        for kind, c, x in parts:
            if kind == 'one': cur.append(f'{c} {x}')
            else:
                if cur: s.append('[' + ';\n       '.join(cur) + ']')
                cur = []
                s.append(f'map {c} {x}')
        if cur: s.append('[' + ';\n       '.join(cur) + ']')
        return f'({pre}struct_pack {fmt_name(e.args[0].id, cx)}\n      (' + '\n       ++ '.join(s) + '))'
    assert u.startswith('self.'), u
    m = u[5:]
    if m == 'write_int_16':
        assert set(k) <= {'signed', 'if_'} and len(e.args) == 1
        s = boolean(k['signed']) if 'signed' in k else 'true'
        i = f'({cond(k["if_"], cx)})' if 'if_' in k else 'true'
        return f'write_int_16 {pure(e.args[0], cx)} {s} {i}'
    if m == 'write_int_32':
        assert set(k) <= {'signed'} and len(e.args) == 1
        s = boolean(k['signed']) if 'signed' in k else 'true'
        return f'write_int_32 {pure(e.args[0], cx)} {s}'
    assert not k
    if m in ('write_class', 'write_class_array'):
        a = e.args[0]
        f = a.attr if isinstance(a, ast.Attribute) else a.id
        t = field_type(cx.cls, f)
        if isinstance(t, ast.BinOp): t = t.left
        if m == 'write_class':
            return f'write_class {t.id}_to_bytes {pure(a, cx)} version'
        el = elem_type(t)
        if isinstance(el, ast.BinOp):
            return f'write_class_array {el.left.id}_to_bytes {pure(a, cx)} version'
        return f'write_class_array {el.id}_to_bytes (map Some {pure(a, cx)}) version'
    if m.startswith('to_bytes_'):
        return f'{cx.cls}_{m} self version'
    return ' '.join([m] + [pure(a, cx) for a in e.args])


class Unwrap(ast.NodeTransformer):
    def __init__(self, f): self.f = f
    def visit_Attribute(self, n):
        if isinstance(n.value, ast.Name) and n.value.id == 'self' and n.attr == self.f:
            return ast.Name(self.f)
        return self.generic_visit(n)


def is_bytes(e):
    return wants_bytes(e)


def wants_bytes(e):
    if isinstance(e, ast.Constant): return isinstance(e.value, bytes)
    if isinstance(e, ast.IfExp): return wants_bytes(e.body)
    if isinstance(e, ast.Call):
        u = ast.unparse(e.func)
        return u in ("b''.join", 'struct.pack') or u.startswith('self.write_')
    return False


def wstmts(stmts, cx, final, ind='  '):
    out = ''
    for i, s in enumerate(stmts):
        if isinstance(s, ast.Return):
            return out + f'{ind}{wexpr(s.value, cx)}'
        if isinstance(s, ast.Assert):
            out += f'{ind}_ <-- py_assert ({cond(s.test, cx)}) ;;;\n'
            continue
        if isinstance(s, ast.AugAssign):
            v = s.target.id
            out += f'{ind}{v} <-- (Ok {v} +++ {wexpr(s.value, cx)}) ;;;\n'
            continue
        if isinstance(s, ast.Assign):
            t = s.targets[0].id
            u = ast.unparse(s)
            if u == 'version = Version(self.version)':
                out += f'{ind}version <-- version_lookup ({cx.cls}_version self) ;;;\n'
                continue
            if u == 'terrains_used = len(self.terrain_restrictions[0].passable_buildable_dmg_multiplier)':
                out += (f'{ind}first <-- py_index ({cx.cls}_terrain_restrictions self) 0 ;;;\n'
                        f'{ind}let terrains_used := len (TerrainRestriction_passable_buildable_dmg_multiplier first) in\n')
                continue
            if wants_bytes(s.value):
                cx.bytesvars.add(t)
                out += f'{ind}{nm(t)} <-- {wexpr(s.value, cx)} ;;;\n'
                continue
            ix = index0(s.value)
            if ix:
                l, f = ix
                ec = elem_type(field_type(cx.cls, l.attr)).id
                out += f'{ind}{t} <-- (first <-- py_index {pure(l, cx)} 0 ;;; Ok ({ec}_{nm(f)} first)) ;;;\n'
                continue
            out += f'{ind}let {nm(t)} := {pure(s.value, cx)} in\n'
            continue
        if isinstance(s, ast.If):
            if isinstance(s.body[0], ast.Return):
                a = wexpr(s.body[0].value, cx)
                assert not s.orelse
                b = wstmts(stmts[i + 1:], cx, final, ind + '  ')
                return out + f'{ind}if {cond(s.test, cx)} then {a}\n{ind}else (\n{b})'
            assert not s.orelse
            vs = assigned(s.body)
            body = wstmts(s.body, cx, f'Ok {tup(vs)}', ind + '    ')
            lhs = tup(vs) if len(vs) == 1 else "'" + tup(vs)
            out += f'{ind}{lhs} <--\n{ind}  (if {cond(s.test, cx)} then\n{body}\n{ind}   else Ok {tup(vs)}) ;;;\n'
            continue
        die(s)
    return out + f'{ind}{final}'


SETTERS = [('Creatable', 'train_locations'), ('TrainLocation', 'hot_key_id')]


def gen(mod, out, deps):
    path = os.path.join(SRC, mod + '.py')
    tree = ast.parse(open(path).read())
    py = mod + '.py'
    o = [f'(** * Model of /repo/src/genieutils/{py}\n\n'
         f'    Transcribed statement by statement (tools/gen_model.py); readers and writers come\n'
         f'    from the Python [from_bytes*] and [to_bytes*] respectively. *)',
         'From Verif Require Import Base PyInt PyFloat PyStr PyStruct DataTypes Versions Common.']
    if deps: o.append('From Verif Require Import ' + ' '.join(deps) + '.')
    o += ['From Coq Require Import String.', 'Open Scope Z_scope.', 'Local Open Scope list_scope.', '']
    consts = {}
    for s in tree.body:
        if isinstance(s, (ast.Import, ast.ImportFrom)): continue
        if isinstance(s, ast.Assign):
            n, v = s.targets[0].id, s.value
            cite = f'(** {py}:{s.lineno} *)'
            if isinstance(v, ast.Constant) and isinstance(v.value, str):
                consts[n] = v.value
                o.append(f'{cite}\nDefinition {mod}_{n} : string := "{v.value}".')
            elif isinstance(v, ast.Constant):
                consts[n] = v.value
                o.append(f'{cite}\nDefinition {mod}_{n} : nat := {v.value}%nat.')
            else:
                assert ast.unparse(v.func) == 'struct.calcsize'
                consts[n] = v.args[0].id
                o.append(f'{cite}\nDefinition {mod}_{n} : nat := calcsize {mod}_{v.args[0].id}.')
            continue
        assert isinstance(s, ast.ClassDef), ast.unparse(s)
        cls = s.name
        fs = [(f.target.id, f.annotation) for f in s.body if isinstance(f, ast.AnnAssign)]
        FIELDS[cls] = fs
        first = min(f.lineno for f in s.body if isinstance(f, ast.AnnAssign))
        last = max(f.end_lineno for f in s.body if isinstance(f, ast.AnnAssign))
        o.append(f'\n(** {py}:{s.lineno}-{last} class {cls} *)')
        o.append(f'Record {cls} : Set := mk{cls} {{\n  ' +
                 ';\n  '.join(f'{cls}_{nm(f)} : {coq_type(a)}' for f, a in fs) + ' }.')
        for c, f in SETTERS:
            if c == cls:
                o.append(f'(** attribute assignment [x.{f} = v] (unit.py:1243-1246) *)')
                o.append(f'Definition set_{cls}_{f} (v : {coq_type(field_type(cls, f))}) (x : {cls}) : {cls} :=\n  ' +
                         record(cls, [(g, 'v' if g == f else f'({cls}_{nm(g)} x)') for g, _ in fs]) + '.')
        funcs = [f for f in s.body if isinstance(f, ast.FunctionDef)]
        rs = [f for f in funcs if f.name.startswith('from_bytes')]
        ws = [f for f in funcs if f.name.startswith('to_bytes')]
        props = [f for f in funcs if f.name.endswith('_pointers')]
        rest = [f.name for f in funcs if f not in rs + ws + props]
        assert all(r in ('parse', 'save') for r in rest), rest
        rs.sort(key=lambda f: (f.name in ('from_bytes', ), f.lineno))
        ws.sort(key=lambda f: (f.name == 'to_bytes', f.lineno))
        for f in rs:
            cx = Ctx(cls, consts); cx.mod = mod
            args = [a.arg for a in f.args.args][2:]
            sig = ''.join(f' ({a} : Z)' for a in args)
            o.append(f'\n(** {py}:{f.lineno}-{f.end_lineno} {cls}.{f.name} *)')
            o.append(f'Definition {cls}_{f.name}{sig} : rd {cls} :=\n' + rstmts(f.body, cx, '') + '.')
        for f in props:
            e = f.body[0].value
            u = ast.unparse(e)
            import re
            m = re.fullmatch(r'\[0 if (\w) is None else 1 for \w in self\.(\w+)\]', u)
            assert m, u
            o.append(f'\n(** {py}:{f.lineno}-{f.end_lineno} {cls}.{f.name} *)')
            o.append(f'Definition {cls}_{f.name} (self : {cls}) : list Z :=\n'
                     f'  map (fun x => match x with None => 0 | Some _ => 1 end) ({cls}_{m.group(2)} self).')
        for f in ws:
            cx = Ctx(cls, consts); cx.mod = mod
            o.append(f'\n(** {py}:{f.lineno}-{f.end_lineno} {cls}.{f.name} *)')
            o.append(f'Definition {cls}_{f.name} (self : {cls}) (version : Version) : res bytes :=\n'
                     + wstmts(f.body, cx, '') + '.')
    open(os.path.join(OUT, out + '.v'), 'w').write('\n'.join(o) + '\n')


for m, o, d in MODULES: gen(m, o, d)
