#!/usr/bin/env python3
"""Writes rocq/theories/PySource.v: the syntax trees of the files under /repo/contracts, by Python's own parser.

Dropped: docstrings, annotations, the bodies of f-strings, the exception classes of except clauses.
Unsupported syntax stops the generator."""
import ast, os, sys
ROOT = '/repo/contracts'
OUT = os.path.join(os.path.dirname(os.path.abspath(__file__)), '..', 'rocq', 'theories', 'PySource.v')
FILES = ['utility/utils.py', 'utility/owned.py', 'utility/managed.py', 'utility/token_holder.py', 'utility/flexible_token_controller.py',
         'interfaces/abc_owned.py', 'interfaces/abc_token_holder.py', 'interfaces/abc_irc_token.py', 'interfaces/abc_icx_token.py',
         'interfaces/abc_flexible_token.py', 'interfaces/abc_formula.py', 'interfaces/abc_converter.py', 'interfaces/abc_score_registry.py',
         'irc_token/irc_token.py', 'icx_token/icx_token.py', 'flexible_token/flexible_token.py', 'score_registry/score_registry.py',
         'formula/__init__.py', 'formula/fixed_map_formula.py', 'converter/converter.py', 'network/network.py']
def s(x):
    assert all(32 <= ord(c) < 127 for c in x), x
    return '"' + x.replace('"', '""') + '"'
def bs(x):  # bytes: printable, or the literal prefix of the connector database (never read by the semantics)
    return s(''.join(chr(b) if 32 <= b < 127 else '?' for b in x))
def lst(xs): return '[' + '; '.join(xs) + ']'
def z(n): return '%d' % n if n >= 0 else '(%d)' % n
BIN = {ast.Add:'BAdd', ast.Sub:'BSub', ast.Mult:'BMul', ast.FloorDiv:'BFloorDiv', ast.Mod:'BMod', ast.Pow:'BPow', ast.LShift:'BShl', ast.RShift:'BShr', ast.BitAnd:'BAnd', ast.BitOr:'BOr'}
CMP = {ast.Eq:'CEq', ast.NotEq:'CNe', ast.Lt:'CLt', ast.LtE:'CLe', ast.Gt:'CGt', ast.GtE:'CGe', ast.Is:'CIs', ast.IsNot:'CIsNot', ast.In:'CIn', ast.NotIn:'CNotIn'}
def bad(n): sys.exit('unsupported: ' + ast.dump(n))
def names(t):
    if isinstance(t, ast.Name): return [t.id]
    if isinstance(t, ast.Tuple) and all(isinstance(x, ast.Name) for x in t.elts): return [x.id for x in t.elts]
    bad(t)
def ex(n):
    t = type(n)
    if t is ast.Constant:
        v = n.value
        if v is None: return 'ENone'
        if v is True: return '(EBool true)'
        if v is False: return '(EBool false)'
        if isinstance(v, int): return '(EInt %s)' % z(v)
        if isinstance(v, str): return '(EStr %s)' % s(v)
        if isinstance(v, bytes): return '(EBytes %s)' % bs(v)
        bad(n)
    if t is ast.Name: return '(EName %s)' % s(n.id)
    if t is ast.Attribute: return '(EAttr %s %s)' % (ex(n.value), s(n.attr))
    if t is ast.Call:
        assert all(k.arg for k in n.keywords)
        return '(ECall %s %s %s)' % (ex(n.func), lst(map(ex, n.args)), lst('(%s, %s)' % (s(k.arg), ex(k.value)) for k in n.keywords))
    if t is ast.BinOp: return '(EBin %s %s %s)' % (BIN[type(n.op)], ex(n.left), ex(n.right))
    if t is ast.UnaryOp and isinstance(n.op, ast.Not): return '(ENot %s)' % ex(n.operand)
    if t is ast.UnaryOp and isinstance(n.op, ast.USub): return '(ENeg %s)' % ex(n.operand)
    if t is ast.Compare: return '(ECompare %s %s)' % (ex(n.left), lst('(%s, %s)' % (CMP[type(o)], ex(c)) for o, c in zip(n.ops, n.comparators)))
    if t is ast.BoolOp: return '(%s %s)' % ('EAndL' if isinstance(n.op, ast.And) else 'EOrL', lst(map(ex, n.values)))
    if t is ast.IfExp: return '(EIf %s %s %s)' % (ex(n.test), ex(n.body), ex(n.orelse))
    if t is ast.Subscript: return '(ESub %s %s)' % (ex(n.value), ex(n.slice))
    if t is ast.List: return '(EListL %s)' % lst(map(ex, n.elts))
    if t is ast.Tuple: return '(ETupleL %s)' % lst(map(ex, n.elts))
    if t is ast.Dict: return '(EDictL %s)' % lst('(%s, %s)' % (ex(k), ex(v)) for k, v in zip(n.keys, n.values))
    if t in (ast.ListComp, ast.SetComp):
        assert len(n.generators) == 1
        g = n.generators[0]
        return '(%s %s %s %s %s)' % ('EListComp' if t is ast.ListComp else 'ESetComp', ex(n.elt), lst(map(s, names(g.target))), ex(g.iter), lst(map(ex, g.ifs)))
    if t is ast.Lambda: return '(ELambda %s %s)' % (lst(s(a.arg) for a in n.args.args), ex(n.body))
    if t is ast.JoinedStr: return 'EFString'
    bad(n)
def is_doc(n): return isinstance(n, ast.Expr) and isinstance(n.value, ast.Constant) and isinstance(n.value.value, str)
IND = [0]
def block(b, ind):
    b = [x for x in b if not is_doc(x)]
    return '[' + (';\n' + ' ' * (ind + 1)).join(st(x, ind + 1) for x in b) + ']'
def st(n, ind):
    t = type(n)
    if t is ast.Expr: return 'SExpr %s' % ex(n.value)
    if t is ast.Assign: return 'SAssign %s %s' % (lst(map(ex, n.targets)), ex(n.value))
    if t is ast.AugAssign: return 'SAug %s %s %s' % (ex(n.target), BIN[type(n.op)], ex(n.value))
    nl = '\n' + ' ' * (ind + 1)
    if t is ast.If: return 'SIf %s%s%s%s%s' % (ex(n.test), nl, block(n.body, ind + 1), nl, block(n.orelse, ind + 1))
    if t is ast.While:
        assert not n.orelse
        return 'SWhile %s%s%s' % (ex(n.test), nl, block(n.body, ind + 1))
    if t is ast.For:
        assert not n.orelse and isinstance(n.target, ast.Name)
        return 'SFor %s %s%s%s' % (s(n.target.id), ex(n.iter), nl, block(n.body, ind + 1))
    if t is ast.Return: return 'SReturn %s' % ('None' if n.value is None else '(Some %s)' % ex(n.value))
    if t is ast.Delete:
        assert len(n.targets) == 1
        return 'SDel %s' % ex(n.targets[0])
    if t is ast.Try:
        assert not n.orelse and not n.finalbody
        return 'STry%s%s%s%s' % (nl, block(n.body, ind + 1), nl, lst(block(h.body, ind + 1) for h in n.handlers))
    if t is ast.Pass: return 'SPass'
    bad(n)
def fun(f, ind):
    a = f.args
    assert not (a.vararg or a.kwarg or a.kwonlyargs or a.posonlyargs)
    d = [None] * (len(a.args) - len(a.defaults)) + list(a.defaults)
    ps = lst('(%s, %s)' % (s(x.arg), 'None' if y is None else 'Some %s' % ex(y)) for x, y in zip(a.args, d))
    return 'FunDef %s %s %s\n%s%s' % (s(f.name), ps, lst(map(ex, f.decorator_list)), ' ' * ind, block(f.body, ind))
def ident(p): return p.replace('.', '_')
def main():
    out = ['(* Generated by tools/gen_source.py from the files under /repo/contracts. *)', 'From Coq Require Import ZArith String List.', 'From Verif Require Import PySyntax.',
           'Import ListNotations.', 'Local Open Scope Z_scope.', 'Local Open Scope string_scope.', 'Local Open Scope list_scope.', '']
    mods = []
    for f in FILES:
        path = f[:-3].replace('/', '.')
        if path.endswith('.__init__'): path = path[:-9]
        pkg = f.split('/')[0]
        t = ast.parse(open(os.path.join(ROOT, f)).read())
        stars, imps, assigns, funs, classes = [], [], [], [], []
        m = 'mod_' + ident(path)
        for n in t.body:
            if is_doc(n): continue
            if isinstance(n, ast.ImportFrom):
                if n.level == 0: target = n.module
                elif n.level == 1: target = pkg + '.' + n.module
                elif n.level == 2: target = n.module
                else: bad(n)
                for a in n.names:
                    if a.name == '*': stars.append(target)
                    else: imps.append((a.asname or a.name, target, a.name))
            elif isinstance(n, ast.Assign) and len(n.targets) == 1 and isinstance(n.targets[0], ast.Name):
                assigns.append((n.targets[0].id, ex(n.value)))
            elif isinstance(n, ast.FunctionDef):
                nm = 'fun_%s_%s' % (ident(path), n.name)
                out.append('(* contracts/%s:%d-%d *)' % (f, n.lineno, n.end_lineno))
                out.append('Definition %s : fundef :=\n  %s.' % (nm, fun(n, 2)))
                funs.append(nm)
            elif isinstance(n, ast.ClassDef):
                ms, sts = [], []
                for b in n.body:
                    if is_doc(b): continue
                    if isinstance(b, ast.FunctionDef):
                        nm = 'meth_%s_%s' % (n.name, b.name)
                        out.append('(* contracts/%s:%d-%d *)' % (f, b.lineno, b.end_lineno))
                        out.append('Definition %s : fundef :=\n  %s.' % (nm, fun(b, 2)))
                        ms.append(nm)
                    elif isinstance(b, (ast.Assign, ast.Pass)): sts.append(st(b, 2))
                    else: bad(b)
                nm = 'class_%s' % n.name
                out.append('(* contracts/%s:%d-%d *)' % (f, n.lineno, n.end_lineno))
                out.append('Definition %s : classdef :=\n  ClassDef %s %s\n  [%s]\n  %s.' % (nm, s(n.name), lst(map(ex, n.bases)), ';\n   '.join(sts), lst(ms)))
                classes.append(nm)
            else: bad(n)
        out.append('(* contracts/%s *)' % f)
        out.append('Definition %s : module := PyModule %s %s\n  %s\n  %s\n  %s\n  %s.\n' % (m, s(path), lst(map(s, stars)), lst('(%s, (%s, %s))' % (s(a), s(b), s(c)) for a, b, c in imps),
                   lst('(%s, %s)' % (s(a), e) for a, e in assigns), lst(funs), lst(classes)))
        mods.append(m)
    out.append('Definition program : list module :=\n  %s.' % lst(mods))
    open(OUT, 'w').write('\n'.join(out) + '\n')
main()
