#!/usr/bin/env python3
"""Transcribe the if/elif chain of pyTMD/arguments.py:nodal into a Coq list of
branches (theories/NodalData.v).  Reads the source as text only."""
import ast, sys
src = open(sys.argv[1] if len(sys.argv) > 1 else '/repo/pyTMD/arguments.py').read()
fn = [f for f in ast.parse(src).body if isinstance(f, ast.FunctionDef) and f.name == 'nodal'][0]
loop = [s for s in fn.body if isinstance(s, ast.For)][0]
chain, node = [], loop.body[0]
while True:
    chain.append((node.test, node.body))
    if len(node.orelse) == 1 and isinstance(node.orelse[0], ast.If):
        node = node.orelse[0]
    else:
        default = node.orelse
        break
lit = {}
for x in ast.walk(fn):
    if isinstance(x, ast.Constant) and isinstance(x.value, float):
        lit[id(x)] = ast.get_source_segment(src, x)
NAMES = {k: k for k in 'sinn cosn sin2n cos2n sin3n sinp cosp sin2p cos2p xi nu nu_prime nu_sec'.split()}
NAMES.update(II='incl', Ra1='ra1', R='rr')
COMB = {'np.sin((2.0 * p - n) * dtr)': 's2pn', 'np.cos((2.0 * p - n) * dtr)': 'c2pn',
        'np.sin((p - n) * dtr)': 'spn', 'np.cos((p - n) * dtr)': 'cpn',
        'np.sin(2.0 * (n - p) * dtr)': 's2np', 'np.cos(2.0 * (n - p) * dtr)': 'c2np'}
def s(x): return '"%s"' % x
def e(x, loc):
    u = ast.unparse(x)
    if u in COMB: return '%s e' % COMB[u]
    if isinstance(x, ast.Constant):
        t = lit.get(id(x), str(x.value))
        t = t.rstrip('.') if t.endswith('.') else t
        if '.' in t and set(t.split('.')[1]) <= {'0'}: t = t.split('.')[0]
        return t
    if isinstance(x, ast.Name):
        if x.id == 'dtr': return 'dtr'
        if x.id in loc: return '(%s)' % loc[x.id]
        return '%s e' % NAMES[x.id]
    if isinstance(x, ast.UnaryOp): return '- (%s)' % e(x.operand, loc)
    if isinstance(x, ast.BinOp):
        if isinstance(x.op, ast.Pow): return '(%s) ^ %d' % (e(x.left, loc), x.right.value)
        op = {ast.Add: '+', ast.Sub: '-', ast.Mult: '*', ast.Div: '/'}[type(x.op)]
        def par(y, right):
            t = e(y, loc)
            if isinstance(y, ast.BinOp) and not isinstance(y.op, ast.Pow):
                low = isinstance(y.op, (ast.Add, ast.Sub))
                if op in '*/' and (low or right): return '(%s)' % t
                if op in '+-' and right and low: return '(%s)' % t
            if isinstance(y, ast.UnaryOp) and (right or op in '*/'): return '(%s)' % t
            return t
        return '%s %s %s' % (par(x.left, False), op, par(x.right, True))
    if isinstance(x, ast.Call):
        f = ast.unparse(x.func)
        if f == 'np.power': return '(%s) ^ %d' % (e(x.args[0], loc), int(x.args[1].value))
        g = {'np.sin': 'sin', 'np.cos': 'cos', 'np.sqrt': 'sqrt', 'np.arctan': 'atan'}[f]
        return '%s (%s)' % (g, e(x.args[0], loc))
    raise Exception(u)
def guard(t):
    u = ast.unparse(t)
    g = {'OTIS_TYPE': 'otis o', 'FES_TYPE': 'fes o', 'PERTH3_TYPE': 'perth3 o', 'FES_TYPE or PERTH3_TYPE': 'fes o || perth3 o'}
    if u in g: return g[u]
    assert u.startswith("kwargs['M1'] == "), u
    return 'String.eqb (m1opt o) %s' % s(t.comparators[0].value)
def factors(x, arr):
    "f expression: product of powers of ftmp columns -> {col: exponent}"
    if isinstance(x, ast.BinOp) and isinstance(x.op, ast.Mult):
        a = factors(x.left, arr); a.update(factors(x.right, arr)); return a
    if isinstance(x, ast.BinOp) and isinstance(x.op, ast.Pow):
        (k, v), = factors(x.left, arr).items(); assert v == 1; return {k: x.right.value}
    assert isinstance(x, ast.Subscript) and x.value.id == arr
    return {x.slice.elts[1].value: 1}
def terms(x):
    "u expression: signed sum of utmp columns -> {col: multiplier}"
    if isinstance(x, ast.Constant): assert x.value == 0; return {}
    if isinstance(x, ast.UnaryOp): return {k: -v for k, v in terms(x.operand).items()}
    if isinstance(x, ast.BinOp):
        if isinstance(x.op, ast.Mult): return {k: int(x.left.value) * v for k, v in terms(x.right).items()}
        a, b = terms(x.left), terms(x.right); sg = 1 if isinstance(x.op, ast.Add) else -1
        assert not set(a) & set(b)
        a.update({k: sg * v for k, v in b.items()}); return a
    assert isinstance(x, ast.Subscript) and x.value.id == 'utmp'
    return {x.slice.elts[1].value: 1}
def body(b):
    if isinstance(b[0], ast.Assign) and ast.unparse(b[0].targets[0]) == 'parents':
        ps = ast.literal_eval(b[0].value)
        assert ast.unparse(b[1]).replace('(utmp, ftmp)', 'utmp, ftmp') == 'utmp, ftmp = nodal(n, p, parents, **kwargs)', ast.unparse(b[1])
        assert ast.unparse(b[2].targets[0]) == 'f[:, i]' and ast.unparse(b[3].targets[0]) == 'u[:, i]'
        F, U = factors(b[2].value, 'ftmp'), terms(b[3].value)
        assert isinstance(b[4], ast.Continue)
        return 'Compound [%s]' % '; '.join('(%s, %d%%nat, (%d)%%Z)' % (s(p), F.get(i, 0), U.get(i, 0)) for i, p in enumerate(ps))
    loc, fu = {}, {}
    for st in b:
        if isinstance(st, ast.Continue): return 'Direct (%s) (%s)' % (fu['f'], fu['u'])
        t = st.targets[0]
        if isinstance(t, ast.Name): loc[t.id] = e(st.value, loc)
        else: fu[t.value.id] = e(st.value, loc)
    assert not fu
    return 'Terms (%s) (%s)' % (loc['term1'], loc['term2'])
out = []
w = out.append
w('(** Generated by tools/gen_nodal.py from pyTMD/arguments.py (nodal, lines 547-1170):')
w('    one entry per branch of the if/elif chain, in order, with the line of its test. *)')
w('From Coq Require Import Reals String List Bool ZArith.')
w('From Verif Require Import RBase AstroModel NodalBase.')
w('Import ListNotations.')
w('Open Scope string_scope.\nOpen Scope R_scope.\n')
w('Definition branches : list branch := [')
rows = []
for t, b in chain:
    g = 'true'
    c = t
    if isinstance(t, ast.BoolOp):
        assert isinstance(t.op, ast.And) and len(t.values) == 2
        c, g = t.values[0], guard(t.values[1])
    assert c.left.id == 'c' and isinstance(c.ops[0], ast.In)
    v = ast.literal_eval(c.comparators[0])
    test = 'InStr %s' % s(v) if isinstance(v, str) else 'InTup [%s]' % '; '.join(map(s, v))
    rows.append('  (* arguments.py:%d *)\n  (%s, fun o => %s,\n   fun e => %s)' % (t.lineno, test, g, body(b)))
w(';\n'.join(rows))
w('].\n')
w('(** arguments.py:%d: the final else branch *)' % default[0].lineno)
w('Definition default_rule : rule := %s.' % body(default))
print('\n'.join(out))
