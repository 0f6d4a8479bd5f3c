#!/usr/bin/env python3
"""Replay the literal cases of the unit tests of units, colours and parsing.

Reads /repo/tests/test_units.py, test_color.py and test_parser.py as text (the
syntax tree only, nothing of /repo is run), keeps the assertions whose arguments
are literals, and evaluates the same calls in the model with vm_compute in a
temporary directory.  Nothing here is part of the proofs.  Not replayed: cases
with other fonts than DummyFont's metrics, characters outside ASCII, and
assertions that are not of the forms below.  The text of a float, which the
model leaves open, is Python's.  Usage: tools/replay_values.py,
after make in rocq/."""
import ast, os, re, subprocess, tempfile
from fractions import Fraction
THEORIES = os.path.abspath(os.path.join(os.path.dirname(__file__), '..', 'rocq', 'theories'))
UNITS = dict(px='px_u', em='em_u', ex='ex_u', ch='ch_u', pt='pt_u', pc='pc_u', inch='in_u', cm='cm_u', mm='mm_u', vh='vh_u',
             vmax='vmax_u', vmin='vmin_u', vw='vw_u', percent='pct_u', deg='deg_u', grad='grad_u', rad='rad_u', turn='turn_u')
class Skip(Exception): pass
FLOATS = set()
def q(x):
    if isinstance(x, float): FLOATS.add(x)
    f = Fraction(x)
    return '(qfrac (%d) %d)' % (f.numerator, f.denominator)
def lit(e):
    try: return ast.literal_eval(e)
    except Exception: raise Skip
def pynum(x):
    if isinstance(x, bool): raise Skip
    if isinstance(x, int): return '(PI (%d))' % x
    if isinstance(x, float): return '(PF (Fin %s))' % q(x)
    raise Skip
def num(x): return '(NI (%d))' % x if isinstance(x, int) else '(NF %s)' % q(x)
def string(s):
    if not s.isascii(): raise Skip
    return '"%s"' % s.replace('"', '""')
def unit(e):
    if isinstance(e, ast.BinOp) and isinstance(e.op, ast.Mult) and isinstance(e.right, ast.Name) and e.right.id in UNITS:
        return '(rmul %s %s)' % (pynum(lit(e.left)), UNITS[e.right.id])
    raise Skip
def colour(e):
    if isinstance(e, ast.Call) and isinstance(e.func, ast.Name) and e.func.id in ('rgb', 'hsl') and not e.keywords:
        a = [pynum(lit(x)) for x in e.args]
        if len(a) == 3: a.append('opaque')
        return '(%s %s)' % (e.func.id.capitalize(), ' '.join(a))
    raise Skip
def pyval(x):
    if isinstance(x, ast.AST):
        try: return '(VUnit %s)' % unit(x)
        except Skip: pass
        try: return '(VColor (OId 0) %s)' % colour(x)
        except Skip: pass
        return pyval(lit(x))
    if x is None: return 'VNone'
    if isinstance(x, bool): raise Skip
    if isinstance(x, int): return '(VInt (%d))' % x
    if isinstance(x, float): return '(VFloat (Fin %s))' % q(x)
    if isinstance(x, str): return '(VStr %s)' % string(x)
    if isinstance(x, (tuple, list)): return '(%s [%s])' % ('VTuple' if isinstance(x, tuple) else 'VList', '; '.join(map(pyval, x)))
    raise Skip
DISPLAYS = {}
def display(e):
    if isinstance(e, ast.Attribute) and e.attr in DISPLAYS: return DISPLAYS[e.attr]
    raise Skip
def font(e):
    m = isinstance(e, ast.Attribute) and re.match(r'helvetica(\d+)$', e.attr)
    if not m: raise Skip
    return '(mkFont (NI %s))' % m.group(1)
CALLS = dict(units='fails (units %s)', color='fails (color 0 %s)', rect='fails (rect %s)', quotes='fails (quotes %s)',
             uri='fails (uri 0 %s)', cursor='fails (cursor 0 %s)', border_spacing='fails (border_spacing 0 %s)')
cases = []; skipped = 0
def parser_call(e):
    if isinstance(e, ast.Call) and isinstance(e.func, ast.Attribute) and isinstance(e.func.value, ast.Name) and e.func.value.id == 'parser' and len(e.args) == 1:
        return e.func.attr, e.args[0]
    raise Skip
def check(fname, call, env):
    f, a = call.func.attr, call.args
    if f == 'assertEqualUnits': return 'same_unit (units %s) %s' % (pyval(a[0]), unit(a[1]))
    if f in ('assertEqualColor', 'assertEqualHSL'):
        if fname == 'test_color.py': return 'same_rgb (color_rgb_f %s) (color_rgb_f %s)' % (colour(a[0]), colour(a[1]))
        return 'same_parsed (color 5 %s) %s' % (pyval(a[0]), colour(a[1]))
    if f in ('assertEqual', 'assertNotEqual'):
        l, r = a[0], a[1]; neg = 'negb ' if f == 'assertNotEqual' else ''
        if isinstance(l, ast.Name) and l.id in env:
            u = env[l.id]
            try: return '%s(py_eqb (VUnit %s) (VUnit %s))' % (neg, u, unit(r))
            except Skip: return '%s(py_eqb (VUnit %s) %s)' % (neg, u, pyval(lit(r)))
        if neg: raise Skip
        if isinstance(l, ast.Call) and isinstance(l.func, ast.Name) and l.func.id in ('str', 'repr') and len(l.args) == 1:
            x = l.args[0]
            if isinstance(x, ast.Name) and x.id in env: return 'says (length_str show %s) %s' % (env[x.id], string(lit(r)))
            return 'String.eqb (color_str show %s) %s' % (colour(x), string(lit(r)))
        if isinstance(l, ast.Call) and isinstance(l.func, ast.Attribute) and isinstance(l.func.value, ast.Name) and l.func.value.id in env:
            u = env[l.func.value.id]; kw = {k.arg: k.value for k in l.keywords}
            if l.func.attr in ('lu', 'px'):
                d = display(kw['display']) if 'display' in kw else '(mkDisp (NI 0) (NI 0) (NI 0) (fun _ => NI 0))'
                fo = font(kw['font']) if 'font' in kw else '(mkFont (NI 0))'
                s = '(LNum %s)' % num(lit(kw['size'])) if 'size' in kw else 'LNone'
                c = '(mkCtx %s %s %s)' % (d, fo, s)
                if l.func.attr == 'lu': return 'is_lu (lu %s %s) (%d)' % (c, u, lit(r))
                return 'is_px (Units.px %s %s) %s' % (c, u, q(lit(r)))
        name, arg = parser_call(l)
        if name == 'rect' and isinstance(r, ast.Name) and r.id in env:
            return 'same_val (rect %s) %s' % (pyval(arg), env[r.id])
    raise Skip
def walk(fname, body, env):
    global skipped
    for st in body:
        if isinstance(st, ast.Assign) and len(st.targets) == 1 and isinstance(st.targets[0], ast.Name):
            n = st.targets[0].id; env.pop(n, None)
            try: env[n] = unit(st.value)
            except Skip:
                v = st.value
                if isinstance(v, ast.Call) and isinstance(v.func, ast.Name) and v.func.id == 'Rect':
                    try: env[n] = '(VRect %s)' % ' '.join(unit(x) for x in v.args)
                    except Skip: pass
        elif isinstance(st, ast.Assign) and isinstance(st.targets[0], ast.Attribute):
            v = st.value
            if isinstance(v, ast.Call) and isinstance(v.func, ast.Name) and v.func.id == 'Display':
                kw = {}
                for k in v.keywords:
                    x = k.value
                    if isinstance(x, ast.BinOp) and isinstance(x.op, ast.Mult): kw[k.arg] = lit(x.left) * lit(x.right)
                    else: kw[k.arg] = lit(x)
                DISPLAYS[st.targets[0].attr] = '(mkDisp %s %s %s (fun _ => NI 0))' % (num(kw['dpi']), num(kw['width']), num(kw['height']))
        elif isinstance(st, ast.With):
            c = st.items[0].context_expr
            ok = isinstance(c, ast.Call) and isinstance(c.func, ast.Attribute) and c.func.attr == 'assertRaises' and c.args[0].id == 'ValueError'
            try:
                if not ok or len(st.body) != 1 or not isinstance(st.body[0], ast.Expr): raise Skip
                name, arg = parser_call(st.body[0].value)
                cases.append((fname, st.lineno, CALLS[name] % pyval(arg)))
            except (Skip, KeyError): skipped += 1
        elif isinstance(st, ast.Expr) and isinstance(st.value, ast.Call) and isinstance(st.value.func, ast.Attribute) and st.value.func.attr.startswith('assert'):
            try: cases.append((fname, st.lineno, check(fname, st.value, env)))
            except Skip: skipped += 1
        elif isinstance(st, (ast.For, ast.If)): walk(fname, st.body, env)
for fname in ('test_units.py', 'test_color.py', 'test_parser.py'):
    tree = ast.parse(open('/repo/tests/' + fname, encoding='utf-8').read())
    for c in tree.body:
        if isinstance(c, ast.ClassDef):
            DISPLAYS.clear()
            for m in c.body:
                if isinstance(m, ast.FunctionDef) and (m.name == 'setUp' or m.name.startswith('test')): walk(fname, m.body, {})
tmp = tempfile.mkdtemp(); os.chdir(tmp)
with open('cases.v', 'w') as f:
    f.write('''From Coq Require Import ZArith QArith Qcanon Bool String Ascii List.
From Verif Require Import PyNum Units Float64 PyStr Colors Values Parser HslFloat Text.
Import ListNotations. Open Scope string_scope. Open Scope Z_scope.
Definition fails {A} (r : res A) := match r with Err ValueError => true | _ => false end.
Definition same_unit (r : res unit_) (v : unit_) := match r with Ok u => String.eqb (suffix_of (u_kind u)) (suffix_of (u_kind v)) && py_num_eqb (u_val u) (u_val v) | _ => false end.
Definition near a b := match pval a, pval b with Fin x, Fin y => qc_ltb (qabs (x - y)%Qc) (qfrac 1 2000) | _, _ => false end.
Definition same_col c d := match c, d with
  | Rgb a b e f, Rgb a' b' e' f' | Hsl a b e f, Hsl a' b' e' f' => py_num_eqb a a' && py_num_eqb b b' && py_num_eqb e e' && near f f' | _, _ => false end.
Definition same_rgb (c d : res color_t) := match c, d with
  | Ok (Rgb a b e f), Ok (Rgb a' b' e' f') => py_num_eqb a a' && py_num_eqb b b' && py_num_eqb e e' && py_num_eqb f f' | _, _ => false end.
Definition same_parsed (r : res (pyval * nat)) (d : color_t) := match r with Ok (VColor _ c, _) => same_col c d | _ => false end.
Definition same_val (r : res pyval) (v : pyval) := match r with Ok w => py_eqb w v | _ => false end.
Definition says (r : res string) (s : string) := match r with Ok t => String.eqb t s | _ => false end.
Definition is_lu (r : res Z) (k : Z) := match r with Ok z => z =? k | _ => false end.
Definition is_px (r : res num) (k : Qc) := match r with Ok n => qc_eqb (nval n) k | _ => false end.
''' + 'Definition show (x : xq) : string := ' + ''.join('if xeqb x (Fin %s) then "%r" else ' % (q(x), x) for x in sorted(FLOATS)) + '"".\n' + '''Definition cases : list bool := [
''' + ';\n'.join('  ' + c for _, _, c in cases) + '].\nEval vm_compute in (map (fun b : bool => if b then 1 else 0) cases).\n')
r = subprocess.run(['coqc', '-Q', THEORIES, 'Verif', 'cases.v'], capture_output=True, text=True)
if r.returncode: raise SystemExit(tmp + '\n' + r.stderr[-2000:])
bits = re.findall(r'[01]', r.stdout.split(':')[0])
assert len(bits) == len(cases)
for b, (fn, ln, c) in zip(bits, cases):
    if b == '0': print('differs: %s:%d  %s' % (fn, ln, c))
for fn in ('test_units.py', 'test_color.py', 'test_parser.py'):
    print(fn, sum(b == '1' for b, c in zip(bits, cases) if c[0] == fn), 'of', sum(c[0] == fn for c in cases), 'agree')
print('assertions not replayed:', skipped)
