#!/usr/bin/env python3
"""Writes rocq/theories/Src*.v: the text of /repo/src/arinc424/*.py, through ast.parse, as terms of PySyntax.v.
REPO=... to read another copy."""
import ast, glob, os
REPO = os.environ.get('REPO', '/repo')
OUT = os.environ.get('OUT') or os.path.join(os.path.dirname(os.path.abspath(__file__)), '..', 'rocq', 'theories')
ROOT = os.path.join(REPO, 'src', 'arinc424')

def s(x):
    assert all(32 <= ord(c) < 127 or c == '\n' for c in x), repr(x)
    return '"' + x.replace('"', '""') + '"'
def lst(xs): return '[' + '; '.join(xs) + ']'
def opt(x): return 'None' if x is None else '(Some %s)' % x
BIN = {ast.Add: 'OpAdd', ast.Sub: 'OpSub', ast.Mult: 'OpMul', ast.Div: 'OpDiv'}
CMP = {ast.Eq: 'CmpEq', ast.NotEq: 'CmpNe', ast.Gt: 'CmpGt', ast.GtE: 'CmpGe', ast.Is: 'CmpIs', ast.In: 'CmpIn', ast.NotIn: 'CmpNotIn'}

def expr(e):
    t = type(e)
    if t is ast.Constant:
        v = e.value
        if v is None: return 'ENone'
        if v is True: return '(EBool true)'
        if v is False: return '(EBool false)'
        if type(v) is int: return '(EInt %d)' % v
        if type(v) is str: return '(EStr %s)' % s(v)
    if t is ast.Name: return '(EName %s)' % s(e.id)
    if t is ast.Attribute: return '(EAttr %s %s)' % (expr(e.value), s(e.attr))
    if t is ast.Subscript:
        if type(e.slice) is ast.Slice:
            assert e.slice.step is None
            return '(ESlice %s %s %s)' % (expr(e.value), opt(e.slice.lower and expr(e.slice.lower)), opt(e.slice.upper and expr(e.slice.upper)))
        return '(EItem %s %s)' % (expr(e.value), expr(e.slice))
    if t is ast.Call:
        return '(ECall %s %s %s)' % (expr(e.func), lst(map(expr, e.args)), lst('(%s, %s)' % (s(k.arg), expr(k.value)) for k in e.keywords))
    if t is ast.BinOp: return '(EBin %s %s %s)' % (BIN[type(e.op)], expr(e.left), expr(e.right))
    if t is ast.UnaryOp: return '(%s %s)' % ({ast.USub: 'ENeg', ast.Not: 'ENot'}[type(e.op)], expr(e.operand))
    if t is ast.BoolOp:
        c = {ast.And: 'EAnd', ast.Or: 'EOr'}[type(e.op)]
        vs = [expr(v) for v in e.values]
        r = vs.pop()
        while vs: r = '(%s %s %s)' % (c, vs.pop(), r)
        return r
    if t is ast.Compare:
        assert len(e.ops) == 1
        return '(ECmp %s %s %s)' % (CMP[type(e.ops[0])], expr(e.left), expr(e.comparators[0]))
    if t is ast.IfExp: return '(EIfExp %s %s %s)' % (expr(e.test), expr(e.body), expr(e.orelse))
    if t is ast.List: return '(EList %s)' % lst(map(expr, e.elts))
    if t is ast.Tuple: return '(ETuple %s)' % lst(map(expr, e.elts))
    if t is ast.Dict: return '(EDict %s)' % lst('(%s, %s)' % (expr(k), expr(v)) for k, v in zip(e.keys, e.values))
    if t is ast.JoinedStr:
        ps = []
        for v in e.values:
            if type(v) is ast.FormattedValue:
                assert v.conversion == -1 and v.format_spec is None
                ps.append(expr(v.value))
            else: ps.append(expr(v))
        return '(EFString %s)' % lst(ps)
    raise NotImplementedError(ast.dump(e))

def indent(i): return '  ' * i
def block(b, i):
    return '[' + (';\n' + indent(i)).join(stmt(x, i) for x in b) + ']'
def pattern(p):
    if type(p) is ast.MatchValue: return 'PValue %s' % expr(p.value)
    assert type(p) is ast.MatchAs and p.pattern is None and p.name is None
    return 'PWild'
def doc(b):
    if b and type(b[0]) is ast.Expr and type(b[0].value) is ast.Constant and type(b[0].value.value) is str: return b[1:]
    return b
def fundef(n, i):
    a = n.args
    assert not (a.posonlyargs or a.kwonlyargs or a.vararg or a.kwarg or n.decorator_list)
    ds = [None] * (len(a.args) - len(a.defaults)) + a.defaults
    ps = ['(%s, %s)' % (s(p.arg), opt(d and expr(d))) for p, d in zip(a.args, ds)]
    return 'SDef %s %s\n%s%s' % (s(n.name), lst(ps), indent(i + 1), block(doc(n.body), i + 1))
def stmt(n, i):
    t = type(n)
    if t is ast.Expr: return 'SExpr %s' % expr(n.value)
    if t is ast.Assign:
        assert len(n.targets) == 1
        return 'SAssign %s %s' % (expr(n.targets[0]), expr(n.value))
    if t is ast.AugAssign: return 'SAug %s %s %s' % (expr(n.target), BIN[type(n.op)], expr(n.value))
    if t is ast.Return: return 'SReturn %s' % opt(n.value and expr(n.value))
    if t is ast.Raise:
        assert n.cause is None
        return 'SRaise %s' % expr(n.exc)
    if t is ast.If: return 'SIf %s\n%s%s\n%s%s' % (expr(n.test), indent(i + 1), block(n.body, i + 1), indent(i + 1), block(n.orelse, i + 1))
    if t is ast.Match:
        cs = []
        for c in n.cases:
            assert c.guard is None
            cs.append('(%s, %s)' % (pattern(c.pattern), block(c.body, i + 2)))
        return 'SMatch %s\n%s[%s]' % (expr(n.subject), indent(i + 1), (';\n' + indent(i + 1)).join(cs))
    if t is ast.For:
        assert not n.orelse
        return 'SFor %s %s\n%s%s' % (s(n.target.id), expr(n.iter), indent(i + 1), block(n.body, i + 1))
    if t is ast.With:
        assert len(n.items) == 1
        w = n.items[0]
        return 'SWith %s %s\n%s%s' % (expr(w.context_expr), s(w.optional_vars.id), indent(i + 1), block(n.body, i + 1))
    if t is ast.Try:
        assert len(n.handlers) == 1 and not n.orelse and not n.finalbody
        h = n.handlers[0]
        xs = h.type.elts if type(h.type) is ast.Tuple else [h.type]
        return 'STry %s\n%s%s %s\n%s%s' % (block(n.body, i + 1), indent(i + 1), lst(s(x.id) for x in xs), s(h.name), indent(i + 1), block(h.body, i + 1))
    if t is ast.Continue: return 'SContinue'
    if t is ast.FunctionDef: return fundef(n, i)
    if t is ast.ClassDef:
        assert not (n.bases or n.keywords or n.decorator_list)
        return 'SClass %s\n%s%s' % (s(n.name), indent(i + 1), block(doc(n.body), i + 1))
    if t is ast.Import:
        assert len(n.names) == 1
        a = n.names[0]
        assert '.' not in a.name or a.asname
        return 'SImport %s %s' % (s(a.name), s(a.asname or a.name))
    if t is ast.ImportFrom:
        assert len(n.names) == 1
        a = n.names[0]
        m = n.module if n.level == 0 else 'arinc424.' + n.module
        assert n.level <= 1
        return 'SFrom %s %s %s' % (s(m), s(a.name), s(a.asname or a.name))
    raise NotImplementedError(ast.dump(n))

HEAD = '''(* GENERATED by tools/pyast.py from %s: its abstract syntax tree. *)
From Coq Require Import List String ZArith.
From Verif Require Import PySyntax.
Import ListNotations.
Local Open Scope string_scope.
Local Open Scope Z_scope.

'''
def ident(x): return x.replace('.', '_')
def module(rel, name, f):
    """One Coq definition per top-level statement that is a def or class, and the list of all."""
    tree = ast.parse(open(os.path.join(ROOT, rel)).read())
    items = []
    for n in doc(tree.body):
        if type(n) in (ast.FunctionDef, ast.ClassDef):
            d = 'py_%s_%s' % (name, n.name)
            f.write('(* src/arinc424/%s:%d-%d *)\nDefinition %s : stmt :=\n  %s.\n\n' % (rel, n.lineno, n.end_lineno, d, stmt(n, 1)))
            items.append(d)
        else: items.append(stmt(n, 1))
    f.write('(* src/arinc424/%s *)\nDefinition py_%s : pymodule := [\n  %s].\n' % (rel, name, ';\n  '.join(items)))

def main():
    for rel, name, out in (('decoder.py', 'decoder', 'SrcDecoder'), ('record.py', 'record', 'SrcRecord'), ('__init__.py', 'init', 'SrcInit')):
        with open(os.path.join(OUT, out + '.v'), 'w') as f:
            f.write(HEAD % ('/repo/src/arinc424/' + rel))
            module(rel, name, f)
    mods = []
    with open(os.path.join(OUT, 'SrcDefinitions.v'), 'w') as f:
        f.write(HEAD % '/repo/src/arinc424/definitions/*.py')
        for p in sorted(glob.glob(os.path.join(ROOT, 'definitions', '*.py'))):
            n = os.path.basename(p)[:-3]
            if n == '__init__': continue
            module('definitions/%s.py' % n, n, f)
            f.write('\n')
            mods.append(n)
    with open(os.path.join(OUT, 'Source.v'), 'w') as f:
        f.write('(* GENERATED by tools/pyast.py: the modules of /repo/src/arinc424. *)\nFrom Coq Require Import List String.\n'
                'From Verif Require Import PySyntax SrcDecoder SrcDefinitions SrcRecord SrcInit.\nImport ListNotations.\nLocal Open Scope string_scope.\n\n')
        ms = [('arinc424.decoder', 'decoder')] + [('arinc424.definitions.' + n, n) for n in mods] + [('arinc424.record', 'record'), ('arinc424', 'init')]
        f.write('(* every module by its name *)\nDefinition source : list (string * pymodule) := [\n  %s].\n' % ';\n  '.join('(%s, py_%s)' % (s(a), b) for a, b in ms))

main()
