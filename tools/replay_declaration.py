#!/usr/bin/env python3
"""Replay the declaration tests of the repository on the model.

Reads the class CssDeclarationTests of /repo/tests/test_declaration.py as text
(the syntax tree only, nothing of /repo is run).  The statements that edit
node.style become operations of the model (run_op), the assertions about what is
read become checks; each test is evaluated with vm_compute in a temporary
directory.  The flag dirty = None is taken as False.  The text of a float, which
the model leaves open, is Python's for 1.0.  Tests with a statement that is not of
the forms below are left out and named.  Nothing here is part of the proofs.
Usage: tools/replay_declaration.py, after make in rocq/."""
import ast, os, re, subprocess, tempfile
from fractions import Fraction
THEORIES = os.path.abspath(os.path.join(os.path.dirname(__file__), '..', 'rocq', 'theories'))
CONST = dict(AUTO='auto', INLINE='inline', BLOCK='block', TABLE='table', LEFT='left', RIGHT='right', RTL='rtl', LTR='ltr')
class Skip(Exception): pass
class Unit:
    def __init__(self, n, u): self.n, self.u = n, u
class Quotes:
    def __init__(self, l): self.l = l
def ev(e, env):
    if isinstance(e, ast.Constant): return e.value
    if isinstance(e, ast.Name) and e.id in env: return env[e.id]
    if isinstance(e, ast.Name) and e.id in CONST: return CONST[e.id]
    if isinstance(e, ast.Tuple): return tuple(ev(x, env) for x in e.elts)
    if isinstance(e, ast.List): return [ev(x, env) for x in e.elts]
    if isinstance(e, ast.Set): return frozenset(ev(x, env) for x in e.elts)
    if isinstance(e, ast.BinOp) and isinstance(e.op, ast.Add): return ev(e.left, env) + ev(e.right, env)
    if isinstance(e, ast.BinOp) and isinstance(e.op, ast.Mult) and isinstance(e.right, ast.Name) and e.right.id in ('px', 'percent'):
        return Unit(ev(e.left, env), 'px_u' if e.right.id == 'px' else 'pct_u')
    if isinstance(e, ast.Call) and isinstance(e.func, ast.Name) and e.func.id == 'Quotes': return Quotes(ev(e.args[0], env))
    if isinstance(e, ast.JoinedStr):
        return ''.join(x.value if isinstance(x, ast.Constant) else ev(x.value, env) for x in e.values)
    raise Skip
def string(s):
    if not s.isascii(): raise Skip
    return '"%s"' % s.replace('"', '""')
def pyval(x):
    if x is None: return 'VNone'
    if isinstance(x, bool): raise Skip
    if isinstance(x, int): return '(VInt (%d))' % x
    if isinstance(x, float):
        f = Fraction(x); return '(VFloat (Fin (qfrac (%d) %d)))' % (f.numerator, f.denominator)
    if isinstance(x, str): return '(VStr %s)' % string(x)
    if isinstance(x, Unit): return '(VUnit (rmul (PI (%d)) %s))' % (x.n, x.u)
    if isinstance(x, Quotes): return '(VQuotes [%s])' % '; '.join('(%s, %s)' % (string(a), string(b)) for a, b in x.l)
    if isinstance(x, (tuple, list)): return '(%s [%s])' % ('VTuple' if isinstance(x, tuple) else 'VList', '; '.join(map(pyval, x)))
    raise Skip
def is_style(e): return isinstance(e, ast.Attribute) and e.attr == 'style' and isinstance(e.value, ast.Name) and e.value.id == 'node'
def target(e, env):
    """(name, item?) of node.style.name, node.style[name], getattr(node.style, name)"""
    if isinstance(e, ast.Attribute) and is_style(e.value) and e.attr != 'dirty': return e.attr, False
    if isinstance(e, ast.Subscript) and is_style(e.value): return ev(e.slice, env), True
    if isinstance(e, ast.Call) and isinstance(e.func, ast.Name) and e.func.id == 'getattr' and is_style(e.args[0]): return ev(e.args[1], env), False
    raise Skip
def read(e, env):
    n, item = target(e, env)
    return '(getitem plain_order c %s)' % string(n) if item else '(read c %s)' % string(n)
def operation(st, env):
    if isinstance(st, ast.Assign) and len(st.targets) == 1:
        n, item = target(st.targets[0], env); v = pyval(ev(st.value, env))
        return '(run_op plain_order (OpSetItem %s %s))' % (string(n), v) if item else '(write %s %s)' % (string(n), v)
    if isinstance(st, ast.Delete) and len(st.targets) == 1:
        n, item = target(st.targets[0], env)
        return '(run_op plain_order (OpDelItem %s))' % string(n) if item else '(erase %s)' % string(n)
    if isinstance(st, ast.Expr) and isinstance(st.value, ast.Call):
        f = st.value.func
        if isinstance(f, ast.Name) and f.id == 'setattr' and is_style(st.value.args[0]):
            return '(write %s %s)' % (string(ev(st.value.args[1], env)), pyval(ev(st.value.args[2], env)))
        if isinstance(f, ast.Attribute) and f.attr == 'update' and is_style(f.value):
            return '(run_op plain_order (OpUpdate [%s]))' % '; '.join('(%s, %s)' % (string(k.arg), pyval(ev(k.value, env))) for k in st.value.keywords)
    if isinstance(st, ast.Expr) and isinstance(st.value, ast.Subscript):
        return '(fun c n => (c, n, x <-r %s ;; Ok tt))' % read(st.value, env)
    raise Skip
def is_dirty(e): return isinstance(e, ast.Attribute) and e.attr == 'dirty' and is_style(e.value)
def check(call, env):
    f, a = call.func.attr, call.args
    if f in ('assertIsNone', 'assertFalse', 'assertTrue') and is_dirty(a[0]):
        return 'Bool.eqb (flag c) %s' % ('true' if f == 'assertTrue' else 'false')
    if f == 'assertIsNone': return 'reads %s VNone' % read(a[0], env)
    if f == 'assertNotIsInstance' and a[1].id == 'BorderSpacing': return 'not_spacing %s' % read(a[0], env)
    if f in ('assertEqual', 'assertIs'):
        l = a[0]
        if isinstance(l, ast.Call) and isinstance(l.func, ast.Name) and l.func.id == 'str':
            if is_style(l.args[0]): return 'says (css_str show plain_order c) %s' % string(ev(a[1], env))
            return 'says_read %s %s' % (read(l.args[0], env), string(ev(a[1], env)))
        if isinstance(l, ast.Call) and isinstance(l.func, ast.Name) and l.func.id == 'repr':
            return 'says_spacing %s %s' % (read(l.args[0], env), string(ev(a[1], env)))
        if isinstance(l, ast.Attribute) and l.attr in ('horizontal', 'vertical'):
            return 'part spacing_%s %s %s' % (l.attr, read(l.value, env), pyval(ev(a[1], env)))
        if isinstance(l, ast.Call) and isinstance(l.func, ast.Attribute) and l.func.attr == 'keys':
            return 'names (keys plain_order c) [%s]' % '; '.join(string(x) for x in sorted(ev(a[1], env)))
        if isinstance(l, ast.Call) and isinstance(l.func, ast.Name) and l.func.id == 'sorted':
            return 'pairs (items plain_order c) [%s]' % '; '.join('(%s, %s)' % (string(x), pyval(v)) for x, v in ev(a[1].args[0], env))
        return 'reads %s %s' % (read(l, env), pyval(ev(a[1], env)))
    raise Skip
def steps(body, env):
    out = []
    for st in body:
        if isinstance(st, ast.Assign) and ast.unparse(st) == 'node = ExampleNode(style=CSS())': out.append((st.lineno, 'Fresh')); continue
        if isinstance(st, ast.Assign) and ast.unparse(st.targets[0]) == 'node.layout.dirty': out.append((st.lineno, 'Clean')); continue
        if isinstance(st, ast.Assign) and isinstance(st.targets[0], ast.Name): env[st.targets[0].id] = ev(st.value, env); continue
        if isinstance(st, ast.For) and isinstance(st.target, ast.Name):
            for x in ev(st.iter, env): out += steps(st.body, dict(env, **{st.target.id: x}))
            continue
        if isinstance(st, ast.With):
            c = st.items[0].context_expr
            if not (isinstance(c, ast.Call) and c.func.attr == 'assertRaises' and len(st.body) == 1): raise Skip
            out.append((st.lineno, 'Raises %s %s' % (c.args[0].id, operation(st.body[0], env)))); continue
        if isinstance(st, ast.Expr) and isinstance(st.value, ast.Constant): continue
        if isinstance(st, ast.Expr) and isinstance(st.value, ast.Call) and isinstance(st.value.func, ast.Name) and st.value.func.id == 'print': continue
        if isinstance(st, ast.Expr) and isinstance(st.value, ast.Call) and isinstance(st.value.func, ast.Attribute) and st.value.func.attr.startswith('assert'):
            out.append((st.lineno, 'Check (fun c => %s)' % check(st.value, env))); continue
        out.append((st.lineno, 'Do %s' % operation(st, env)))
    return out
tests = []; left_out = []
for c in ast.parse(open('/repo/tests/test_declaration.py', encoding='utf-8').read()).body:
    if isinstance(c, ast.ClassDef) and c.name == 'CssDeclarationTests':
        for m in c.body:
            if isinstance(m, ast.FunctionDef):
                try: tests.append((m.name, steps(m.body, {})))
                except (Skip, AttributeError): left_out.append(m.name)
tmp = tempfile.mkdtemp(); os.chdir(tmp)
with open('tests.v', 'w') as f:
    f.write('''From Coq Require Import ZArith QArith Qcanon Bool String Ascii List.
From Verif Require Import PyNum Units Float64 PyStr Colors Values Parser Choices Shorthand Decl Wrappers Text DeclSpec.
Import ListNotations. Open Scope string_scope. Open Scope Z_scope.
Inductive step := Fresh | Clean | Do (m : cm unit) | Raises (e : exn) (m : cm unit) | Check (p : css -> bool).
Definition same_exn (a b : exn) := match a, b with ValueError, ValueError | NameError, NameError | KeyError, KeyError | TypeError, TypeError => true | _, _ => false end.
Definition bound := mkCss (fun _ => None) (Some (Some false)).
Fixpoint run (l : list step) (c : css) (n : nat) : list bool :=
  match l with
  | [] => []
  | Fresh :: r => true :: run r bound n
  | Clean :: r => true :: run r (mkCss (c_store c) (Some (Some false))) n
  | Do m :: r => let '(c', n', o) := m c n in (match o with Ok _ => true | _ => false end) :: run r c' n'
  | Raises e m :: r => let '(c', n', o) := m c n in (match o with Err x => same_exn x e | _ => false end) :: run r c' n'
  | Check p :: r => p c :: run r c n
  end.
Definition show (x : xq) : string := if xeqb x (Fin 1%Qc) then "1.0" else "?".
Definition flag (c : css) := match c_node c with Some (Some true) => true | _ => false end.
Definition write (name : string) (v : pyval) : cm unit := match prop_of_name name with Some p => run_op plain_order (OpSet p v) | None => raise AttributeError end.
Definition erase (name : string) : cm unit := match prop_of_name name with Some p => run_op plain_order (OpDel p) | None => raise AttributeError end.
Definition read (c : css) (name : string) : res reading := match prop_of_name name with Some p => get_prop plain_order c p | None => Err AttributeError end.
Definition reads (r : res reading) (v : pyval) := match r with
  | Ok (RValue w) => py_eqb w v | Ok (RSides l) => py_eqb (VTuple l) v
  | Ok (RParts []) => py_eqb (VStr "") v | _ => false end.
Definition says (r : res string) (s : string) := match r with Ok t => String.eqb t s | _ => false end.
Definition texts (l : list pyval) : res (list string) := map_res (value_str show) l.
Definition says_read (r : res reading) (s : string) := match r with
  | Ok (RValue w) => says (value_str show w) s
  | Ok (RSides l) => says (ts <-r texts l ;; Ok ("(" ++ join ", " ts ++ ")")) s
  | Ok (RParts l) => says (ts <-r texts (map snd l) ;; Ok (join " " ts)) s | _ => false end.
Definition part (f : pyval -> res unit_) (r : res reading) (v : pyval) := match r with Ok (RValue w) => match f w with Ok u => py_eqb (VUnit u) v | _ => false end | _ => false end.
Definition not_spacing (r : res reading) := match r with Ok (RValue (VSpacing _ _ _)) => false | Ok _ => true | _ => false end.
Definition says_spacing (r : res reading) (s : string) := match r with
  | Ok (RValue (VSpacing _ h None)) => says (t <-r length_str show h ;; Ok ("BorderSpacing(" ++ t ++ ")")) s
  | Ok (RValue (VSpacing _ h (Some v))) => says (t <-r length_str show h ;; u <-r length_str show v ;; Ok ("BorderSpacing(" ++ t ++ ", " ++ u ++ ")")) s
  | _ => false end.
Definition sorted_names (l : list string) := map fst (sort_by_name (map (fun s => (s, tt)) l)).
Definition names (l m : list string) := if list_eq_dec string_dec (sorted_names l) m then true else false.
Fixpoint pairs_eq (l m : list (string * pyval)) := match l, m with [], [] => true | (a, v) :: l', (b, w) :: m' => String.eqb a b && py_eqb v w && pairs_eq l' m' | _, _ => false end.
Definition pairs (l m : list (string * pyval)) := pairs_eq (sort_by_name l) m.
''')
    for i, (name, l) in enumerate(tests):
        f.write('(* %s *) Eval vm_compute in (map (fun b : bool => if b then 1 else 0) (run [\n%s] bound first_free)).\n' % (name, ';\n'.join('  ' + s for _, s in l)))
r = subprocess.run(['coqc', '-Q', THEORIES, 'Verif', 'tests.v'], capture_output=True, text=True)
if r.returncode: raise SystemExit(tmp + '\n' + r.stderr[-2000:])
outs = re.findall(r'= (\[.*?\])', r.stdout, re.S)
assert len(outs) == len(tests)
good = total = agree = 0
for (name, l), o in zip(tests, outs):
    bits = re.findall(r'[01]', o.split(':')[0]); assert len(bits) == len(l)
    total += len(l); agree += sum(b == '1' for b in bits); good += all(b == '1' for b in bits)
    for b, (ln, s) in zip(bits, l):
        if b == '0': print('differs: test_declaration.py:%d %s  %s' % (ln, name, s))
print(good, 'of', len(tests), 'tests agree;', agree, 'of', total, 'statements')
print('left out:', ', '.join(left_out))
