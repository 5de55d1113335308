#!/usr/bin/env python3
"""Transcribe the straight-line equation functions of /repo/UT2 into Coq terms (theories/Code_*.v).

The output is data of type [Interp.fn]; every definition cites the file and lines it was read from.
Only syntax is translated: numeric literals become exact rationals (products/quotients of literals are
folded), `optimize=` arguments and print statements are dropped.  Anything outside the fragment raises
Unsup and the function is left out.  In-place updates (`x += e`) are accepted only when the
last plain assignment to x in the same function created a fresh array and names
that may share the array are not read afterwards.
Usage: transcribe.py [outdir]
"""
import ast, os, sys
from fractions import Fraction

R = '/repo/UT2/'


class Unsup(Exception):
    pass


_L = {}


def numtxt(src, n):
    L = _L.get(id(src))
    if L is None:
        L = _L[id(src)] = (src, src.split('\n'))
    l = L[1][n.lineno - 1].encode()
    return l[n.col_offset:n.end_col_offset].decode()


def constfold(src, n):
    if isinstance(n, ast.Constant) and isinstance(n.value, (int, float)) and not isinstance(n.value, bool):
        return Fraction(numtxt(src, n))
    if isinstance(n, ast.UnaryOp) and isinstance(n.op, (ast.USub, ast.UAdd)):
        c = constfold(src, n.operand)
        return None if c is None else (-c if isinstance(n.op, ast.USub) else c)
    if isinstance(n, ast.BinOp) and isinstance(n.op, (ast.Div, ast.Mult)):
        a = constfold(src, n.left)
        b = constfold(src, n.right)
        if a is None or b is None:
            return None
        return a / b if isinstance(n.op, ast.Div) else a * b
    return None


def iseins(n):
    return isinstance(n, ast.Call) and (
        (isinstance(n.func, ast.Name) and n.func.id == 'einsum')
        or (isinstance(n.func, ast.Attribute) and n.func.attr == 'einsum'))


def shapeof(n):
    """X.shape or np.shape(X)"""
    if isinstance(n, ast.Attribute) and n.attr == 'shape':
        return n.value
    if isinstance(n, ast.Call) and ast.unparse(n.func) in ('np.shape', 'numpy.shape'):
        return n.args[0]
    return None


def expr(src, n):
    c = constfold(src, n)
    if c is not None:
        return ('num', c)
    if isinstance(n, ast.Constant) and n.value is None:
        return ('none',)
    if isinstance(n, ast.Name):
        return ('var', n.id)
    if iseins(n):
        a = n.args
        if not (isinstance(a[0], ast.Constant) and isinstance(a[0].value, str)):
            raise Unsup('spec')
        for k in n.keywords:
            if k.arg != 'optimize':
                raise Unsup('einsum keyword ' + str(k.arg))
        return ('eins', a[0].value, [expr(src, x) for x in a[1:]])
    if isinstance(n, ast.Subscript):
        s = n.slice
        if shapeof(n.value) is not None and isinstance(s, ast.Constant) and isinstance(s.value, int):
            return ('shape', expr(src, shapeof(n.value)), s.value)
        if isinstance(s, ast.Constant) and isinstance(s.value, str):
            return ('item', expr(src, n.value), s.value)
        if isinstance(s, ast.Tuple):
            sl = []
            for e in s.elts:
                if isinstance(e, ast.Name):
                    sl.append(e.id)
                elif isinstance(e, ast.Slice) and e.lower is None and e.upper is None and e.step is None:
                    sl.append(':')
                else:
                    raise Unsup('slice ' + ast.dump(e))
            return ('slice', expr(src, n.value), sl)
        raise Unsup('sub ' + ast.unparse(n)[:60])
    if isinstance(n, ast.BinOp):
        if isinstance(n.op, ast.Mult):
            cl = constfold(src, n.left)
            cr = constfold(src, n.right)
            if cl is not None:
                return ('scale', cl, expr(src, n.right))
            if cr is not None:
                return ('scale', cr, expr(src, n.left))
            return ('mul', expr(src, n.left), expr(src, n.right))
        if isinstance(n.op, ast.Add):
            return ('add', expr(src, n.left), expr(src, n.right))
        if isinstance(n.op, ast.Sub):
            return ('sub', expr(src, n.left), expr(src, n.right))
        raise Unsup('binop')
    if isinstance(n, ast.Call) and isinstance(n.func, ast.Attribute) and n.func.attr == 'transpose':
        return ('transp', expr(src, n.func.value), [a.value for a in n.args])
    if isinstance(n, ast.Call) and isinstance(n.func, ast.Attribute) and n.func.attr == 'zeros':
        if not isinstance(n.args[0], ast.Tuple):
            raise Unsup('zeros arg')
        return ('zeros', [expr(src, e) for e in n.args[0].elts])
    if isinstance(n, ast.Call):
        if n.keywords:
            raise Unsup('call keywords')
        return ('call', ast.unparse(n.func), [expr(src, a) for a in n.args])
    if isinstance(n, ast.UnaryOp):
        if isinstance(n.op, ast.USub):
            return ('scale', Fraction(-1), expr(src, n.operand))
        if isinstance(n.op, ast.UAdd):
            return expr(src, n.operand)
    raise Unsup(type(n).__name__ + ' ' + ast.unparse(n)[:80])


def fresh(e):
    """does evaluating e create a new array (so that += cannot be seen through another name)?"""
    k = e[0]
    if k in ('num', 'scale', 'add', 'sub', 'mul', 'zeros', 'call'):
        return True
    if k == 'eins':
        if len(e[2]) > 1:
            return True
        sp = e[1].replace(' ', '')
        if '->' in sp:
            a, b = sp.split('->')
            return sorted(a) != sorted(b)
        return len(set(sp)) != len(sp)
    return False


def names(e):
    """variables occurring in e"""
    if e[0] == 'var':
        return {e[1]}
    r = set()
    for x in e[1:]:
        if isinstance(x, tuple):
            r |= names(x)
        elif isinstance(x, list):
            for y in x:
                if isinstance(y, tuple):
                    r |= names(y)
    return r


def notnone(t):
    """`X is not None` -> X"""
    if (isinstance(t, ast.Compare) and isinstance(t.left, ast.Name) and len(t.ops) == 1
            and isinstance(t.ops[0], ast.IsNot) and ast.unparse(t.comparators[0]) == 'None'):
        return t.left.id
    return None


def pickled(s):
    """`with open(FILE, ..) as h: x = pickle.load(h)` -> ('load', FILE, x);  pickle.dump(e, h) -> ('dump', FILE, e)"""
    if not (isinstance(s, ast.With) and len(s.items) == 1 and len(s.body) == 1):
        return None
    c = s.items[0].context_expr
    if not (isinstance(c, ast.Call) and ast.unparse(c.func) == 'open'):
        return None
    b = s.body[0]
    if (isinstance(b, ast.Assign) and len(b.targets) == 1 and isinstance(b.targets[0], ast.Name)
            and isinstance(b.value, ast.Call) and ast.unparse(b.value.func) == 'pickle.load'):
        return ('load', c.args[0].value, b.targets[0].id)
    if isinstance(b, ast.Expr) and isinstance(b.value, ast.Call) and ast.unparse(b.value.func) == 'pickle.dump':
        return ('dump', c.args[0].value, b.value.args[0])
    return None


def fn(src, f, at=None, given=None, assume=None):
    """The body of f as a list of statements ending in a return.
    at = (line, k): stop at the print statement of that line and return its k-th argument.
    given: parameters assumed not to be None (every other tested parameter is assumed to be None).
    assume: truth values of the tests of if statements.  An array read from a pickle file is a further
    parameter with the name of the file; at = ('dump', FILE) returns the array written to a file."""
    out = []
    last = {}
    views = {}          # name -> names whose array it may share
    stale = set()       # names whose array may have been updated through another name

    def check(e):
        if names(e) & stale:
            raise Unsup('reads an array updated through another name')
    done = False
    todo = list(f.body)
    while todo:
        s = todo.pop(0)
        if done:
            raise Unsup('code after return')
        if isinstance(s, ast.If) and given is not None and notnone(s.test) and not s.orelse:
            if notnone(s.test) in given:
                todo = list(s.body) + todo
            continue
        if isinstance(s, ast.If) and assume is not None and ast.unparse(s.test) in assume:
            todo = (list(s.body) if assume[ast.unparse(s.test)] else list(s.orelse)) + todo
            continue
        pk = pickled(s) if assume is not None else None
        if pk:
            if pk[0] == 'load':
                out.append((s.lineno, '=', pk[2], ('var', pk[1])))
                last[pk[2]] = True
                views[pk[2]] = set()
                stale.discard(pk[2])
            elif at == ('dump', pk[1]):
                e = expr(src, pk[2])
                check(e)
                out.append((s.lineno, 'ret', None, e))
                return out
            continue
        if isinstance(s, ast.Expr):
            if isinstance(s.value, ast.Constant):
                continue
            if isinstance(s.value, ast.Call) and ast.unparse(s.value.func) == 'print':
                if at is not None and s.lineno == at[0]:
                    out.append((s.lineno, 'ret', None, expr(src, s.value.args[at[1]])))
                    return out
                continue
            raise Unsup('exprstmt ' + ast.unparse(s)[:60])
        if isinstance(s, ast.Assign):
            for t in reversed(s.targets):
                if not isinstance(t, ast.Name):
                    raise Unsup('target ' + ast.unparse(t))
                e = expr(src, s.value)
                if len(s.targets) > 1 and e != ('none',):
                    raise Unsup('multi assign')
                out.append((s.lineno, '=', t.id, e))
                last[t.id] = fresh(e)
                check(e)
                views[t.id] = set() if fresh(e) else names(e)
                stale.discard(t.id)
        elif isinstance(s, ast.AugAssign):
            op = {ast.Add: '+=', ast.Sub: '-='}[type(s.op)]
            if not last.get(s.target.id, False):
                raise Unsup('in-place update of a possibly shared array, line %d' % s.lineno)
            # names that may share the updated array must not be read any more
            stale |= {y for y, v in views.items() if s.target.id in v}
            e = expr(src, s.value)
            check(e)
            out.append((s.lineno, op, s.target.id, e))
        elif isinstance(s, ast.Return):
            if isinstance(s.value, ast.Tuple) and at is not None and at[0] == 'ret':
                out.append((s.lineno, 'ret', None, expr(src, s.value.elts[at[1]])))
            else:
                out.append((s.lineno, 'ret', None, expr(src, s.value)))
            done = True
        elif isinstance(s, (ast.Import, ast.ImportFrom)):
            continue
        else:
            raise Unsup(type(s).__name__ + ' line %d' % s.lineno)
    if not done:
        raise Unsup('no return')
    check(out[-1][3])
    return out


# Functions that print several values, return a tuple or test an argument for None: one definition per
# printed value (_L<line> or _L<line>_<argument>), tuple component, and case of the test.
def orders(n):
    return {'order == %d' % k: k == n for k in range(5, 10)}


THIRD = 'roooovvvv_t4_third.pickle'
FOURTH = 'roooovvvv_t4_fourth.pickle'
VARIANTS = {
    ('XCCDbasebuilder.py', 'build_XCCDbase'):
        [('_%d' % n, None, None, orders(n), [THIRD] if n in (7, 9) else []) for n in range(5, 10)]
        + [('_5_dump', ('dump', THIRD), None, orders(5), [])],
    ('cc_energy.py', 'sixthOrderQf_wnT2cubed'): [('_L96', (96, 1), ()), ('_L103', (103, 1), ())],
    ('cc_energy.py', 'sixthOrderQf_wnT2T3'): [('_L110', (110, 1), ()), ('_L116', (116, 1), ())],
    ('cc_energy.py', 'long_testQf5Order'): [('_L%d' % l, (l, 1), ()) for l in (134, 141, 149, 161, 162, 175)]
        + [('_L175_2', (175, 2), ())],
    ('cc_energy.py', 'spinorbitalCCSDE'): [('_noT1', None, ()), ('_T1', None, ('T1',))],
    ('pdagq_T3corr.py', 'ccsd_energy'): [('_L68', (68, 1), ())],
    ('pdagq_t4resid.py', 't4_test_residual'): [('_1', ('ret', 1), ())],
    ('antisym_t4resids.py', 'fifth_orderINTERMEDmain'): [('_L212', (212, 1), ())],
}


def load(file):
    src = open(R + file).read()
    tree = ast.parse(src)
    res = {}
    for f in tree.body:
        if isinstance(f, ast.FunctionDef):
            pars = [a.arg for a in f.args.args]
            for suffix, at, given, *more in VARIANTS.get((file, f.name), []):
                assume, extra = more if more else (None, [])
                res[f.name + suffix] = (f.lineno, f.end_lineno, pars + extra, fn(src, f, at, given, assume))
            if (file, f.name) in VARIANTS:
                continue
            try:
                # defaults are irrelevant: the model always passes every argument
                res[f.name] = (f.lineno, f.end_lineno, [a.arg for a in f.args.args], fn(src, f))
            except Unsup as e:
                res[f.name] = (f.lineno, f.end_lineno, None, str(e))
    return res


def cstr(s):
    assert '"' not in s
    return '"%s"' % s


def cq(c):
    return '(%d # %d)' % (c.numerator, c.denominator)


def cexpr(e):
    k = e[0]
    if k == 'var':
        return '(EVar %s)' % cstr(e[1])
    if k == 'num':
        return '(ENum %s)' % cq(e[1])
    if k == 'none':
        return 'ENone'
    if k == 'item':
        return '(EItem %s %s)' % (cexpr(e[1]), cstr(e[2]))
    if k == 'slice':
        return '(ESlice %s [%s])' % (cexpr(e[1]), '; '.join('SAll' if x == ':' else 'SV ' + cstr(x) for x in e[2]))
    if k == 'transp':
        return '(ETransp %s [%s]%%nat)' % (cexpr(e[1]), '; '.join(map(str, e[2])))
    if k == 'eins':
        return '(EEins %s [%s])' % (cstr(e[1]), '; '.join(cexpr(x) for x in e[2]))
    if k == 'scale':
        return '(EScale %s %s)' % (cq(e[1]), cexpr(e[2]))
    if k in ('add', 'sub', 'mul'):
        return '(E%s %s %s)' % (k.capitalize(), cexpr(e[1]), cexpr(e[2]))
    if k == 'shape':
        return '(EShape %s %d%%nat)' % (cexpr(e[1]), e[2])
    if k == 'zeros':
        return '(EZeros [%s])' % '; '.join(cexpr(x) for x in e[1])
    if k == 'call':
        return '(ECall %s [%s])' % (cstr(e[1]), '; '.join(cexpr(x) for x in e[2]))
    raise Exception(k)


def emit(file, names=None):
    fns = load(file)
    mod = file[:-3]
    o = ['(** Generated by tools/transcribe.py from /repo/UT2/%s; do not edit. *)' % file,
         'From Coq Require Import String List QArith.',
         'From Verif Require Import Interp.',
         'Import ListNotations.',
         'Open Scope string_scope.', '']
    cnt = 0
    for name, (l0, l1, params, body) in fns.items():
        if params is None or (names and name not in names):
            continue
        cnt += 1
        o.append('(** /repo/UT2/%s:%d-%d  def %s *)' % (file, l0, l1, name))
        o.append('Definition %s : fn := mkFn' % name)
        o.append('  [%s]' % '; '.join(cstr(p) for p in params))
        ss = []
        for (ln, op, t, e) in body[:-1]:
            if op == '=':
                ss.append('(*L%d*) SAssign %s %s' % (ln, cstr(t), cexpr(e)))
            else:
                ss.append('(*L%d*) SAug %s %s %s' % (ln, 'true' if op == '+=' else 'false', cstr(t), cexpr(e)))
        o.append('  [%s]' % (';\n   '.join(ss)))
        ln, op, t, e = body[-1]
        assert op == 'ret'
        o.append('  (*L%d*) %s.' % (ln, cexpr(e)))
        o.append('')
    return cnt, 'Code_%s.v' % mod, '\n'.join(o)


FILES = [
    't2residEqnsSlow.py', 't2energySlow.py', 't2residEqns.py', 't2energy.py', 'tamps.py', 'antisym_t4resids.py',
    'cc_eqns.py', 'ccsdt_eqns.py', 'ccdq_eqns.py', 'cc_energy.py', 'ccdq_resids.py', 'fullCCresidEqns.py',
    'fullCCenergy.py', 'build_approxT3full.py', 'build_qf_correction.py', 'modify_T2energy_pertQf.py',
    'modify_T2energy_pertQfSlow.py', 'modify_T2resid_T4Qf1.py', 'modify_T2resid_T4Qf1Slow.py',
    'modify_T2resid_T4Qf2.py', 'modify_T2resid_T4Qf2Slow.py', 'pdagq_T3corr.py', 'square_brakT_corr.py',
    'testing_modifyT2eqns_with_T4.py', 'wicked_T3corr.py', 'xccd_resid.py', 'drive_ucc4.py', 'XCCDbasebuilder.py',
    'pdagq_t4resid.py',
]

if __name__ == '__main__':
    if len(sys.argv) > 1 and sys.argv[1] == '--list':
        for fl in sorted(os.listdir(R)):
            if fl.endswith('.py'):
                try:
                    r = load(fl)
                except SyntaxError as e:
                    print(fl, 'SYNTAX', e)
                    continue
                for k, v in r.items():
                    print(fl, k, v[0], v[1], 'UNSUP ' + v[3] if v[2] is None else 'ok %d' % len(v[3]))
        sys.exit()
    out = sys.argv[1] if len(sys.argv) > 1 else os.path.join(os.path.dirname(os.path.abspath(__file__)), '../rocq/theories')
    for fl in FILES:
        n, fname, text = emit(fl)
        open(os.path.join(out, fname), 'w').write(text)
        print(fname, n, len(text))
