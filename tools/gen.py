#!/usr/bin/env python3
"""Transcribe the purely tabular parts of /repo into Gallina.

Reads /repo as TEXT (ast.parse; nothing of the project is imported or run) and
writes three files under rocq/theories:
  Unicode.v        character classes of CPython's str (from this interpreter's unicodedata)
  DecoderTables.v  the literal code tables and the trivial field_NNN functions of decoder.py
  Layouts.v        every definitions/*.py class: class attributes, field lists, read()
The generated files are committed; the build does not run this script.
"""
import ast, glob, os, re, sys, unicodedata

REPO = '/repo'
OUT = os.path.join(os.path.dirname(os.path.abspath(__file__)), '..', 'rocq', 'theories')

def q(s):
    assert all(32 <= ord(c) < 127 or c == '\n' for c in s), repr(s)
    return '(lit "' + s.replace('"', '""') + '")'

# ---------------------------------------------------------------- Unicode.v
def ranges(p):
    out, st = [], None
    for c in range(0x110000):
        if p(chr(c)):
            if st is None: st = c
        elif st is not None:
            out.append((st, c - 1)); st = None
    if st is not None: out.append((st, 0x10ffff))
    return out

def wrap(items, width=100):
    lines, cur = [], '  '
    for i, it in enumerate(items):
        s = it + ('; ' if i + 1 < len(items) else '')
        if len(cur) + len(s) > width:
            lines.append(cur.rstrip()); cur = '  '
        cur += s
    lines.append(cur.rstrip())
    return '\n'.join(lines)

def gen_unicode():
    dec = ranges(str.isdecimal)
    for a, b in dec:
        assert (b - a + 1) % 10 == 0
        for c in range(a, b + 1):
            assert unicodedata.decimal(chr(c)) == (c - a) % 10
    with open(OUT + '/Unicode.v', 'w') as f:
        f.write('(* GENERATED by tools/gen.py from unicodedata %s (CPython %s).\n' % (unicodedata.unidata_version, sys.version.split()[0]))
        f.write('   Character classes of Python str as inclusive code point ranges.\n')
        f.write('   They model the builtins str.isspace/isdecimal/isnumeric/isalpha used by\n')
        f.write('   /repo/src/arinc424/record.py:109-116,141 and /repo/src/arinc424/decoder.py (strip, isnumeric,\n')
        f.write('   isalnum, isalpha, int, float).  str.isalnum = isalpha or isnumeric per character\n')
        f.write('   (checked here over all 0x110000 code points when the table was generated). *)\n')
        f.write('From Coq Require Import List NArith.\nImport ListNotations.\nOpen Scope N_scope.\n\n')
        for name, p in [('space', str.isspace), ('decimal', str.isdecimal), ('numeric', str.isnumeric), ('alpha', str.isalpha)]:
            r = ranges(p)
            f.write('(* str.is%s, one character *)\n' % name)
            f.write('Definition %s_ranges : list (N * N) := [\n%s\n].\n\n' % (name, wrap(['(%d,%d)' % x for x in r])))
    with open(OUT + '/UnicodePrintable.v', 'w') as f:
        f.write('(* GENERATED by tools/gen.py from unicodedata %s (CPython %s).\n' % (unicodedata.unidata_version, sys.version.split()[0]))
        f.write('   The characters that repr() shows as they are (str.isprintable), as inclusive code point ranges. *)\n')
        f.write('From Coq Require Import List NArith.\nImport ListNotations.\nOpen Scope N_scope.\n\n')
        r = ranges(str.isprintable)
        f.write('(* str.isprintable, one character *)\n')
        f.write('Definition printable_ranges : list (N * N) := [\n%s\n].\n' % wrap(['(%d,%d)' % x for x in r]))
    for c in range(0x110000):
        s = chr(c)
        assert s.isalnum() == (s.isalpha() or s.isnumeric())

# ---------------------------------------------------------- DecoderTables.v
def gen_decoder():
    path = 'src/arinc424/decoder.py'
    tree = ast.parse(open(os.path.join(REPO, path)).read())
    fns = {n.name: n for n in tree.body if isinstance(n, ast.FunctionDef)}
    o = []
    def table(name, pairs, cite):
        keys = [k for k, _ in pairs]
        assert len(set(keys)) == len(keys), name
        o.append('(* %s:%s *)' % (path, cite))
        o.append('Definition %s : list (str * str) := [\n  %s].\n' % (name, ';\n  '.join('(%s, %s)' % (q(k), q(v)) for k, v in pairs)))
    def dict_assigns(body):
        return [(s.targets[0].slice.value, s.value.value) for s in body
                if isinstance(s, ast.Assign) and isinstance(s.targets[0], ast.Subscript)]
    def lines(n): return '%d-%d' % (n.lineno, n.end_lineno)
    # plain defaultdict tables
    for k in ['004', '101', '104', '106', '181', '198', '199']:
        n = fns['field_' + k]
        table('tbl_' + k, dict_assigns(n.body), lines(n))
    # 007: one table per ident branch
    n = fns['field_007']
    br = n.body[1]
    names = ['ER', 'ET', 'SID', 'STAR', 'APP']
    i = 0
    while isinstance(br, ast.If):
        table('tbl_007_' + names[i], dict_assigns(br.body), '%d-%d' % (br.lineno, br.body[-1].end_lineno))
        br = br.orelse[0] if br.orelse else None
        i += 1
    assert i == 5
    # LegTypeDesc (module level)
    leg = [s for s in tree.body if isinstance(s, ast.Assign) and isinstance(s.targets[0], ast.Subscript)
           and s.targets[0].value.id == 'LegTypeDesc']
    table('tbl_LegTypeDesc', dict_assigns(leg), '%d-%d' % (leg[0].lineno, leg[-1].lineno))
    # match statements whose cases return/write/append a constant
    def match_pairs(m):
        ps = []
        for c in m.cases:
            if isinstance(c.pattern, ast.MatchAs): continue
            key = c.pattern.value.value
            st = c.body[0]
            if isinstance(st, ast.Return): v = st.value
            elif isinstance(st, ast.Expr): v = st.value.args[0]
            elif isinstance(st, ast.AugAssign): v = st.value
            assert len(c.body) == 1
            if isinstance(v, ast.Constant): ps.append((key, v.value))
            else: print('non-constant case', ast.unparse(c)); 
        return ps
    for k in ['003', '016', '017', '042', '049', '091', '102', '108', '112', '113', '118', '177', '179', '182', '196', '270']:
        n = fns['field_' + k]
        ms = [s for s in n.body if isinstance(s, ast.Match)]
        for j, m in enumerate(ms):
            nm = 'tbl_' + k + ('_%d' % j if len(ms) > 1 else '')
            table(nm, match_pairs(m), lines(m))
    # trivial functions
    ident, ft = [], []
    for name, n in fns.items():
        if not name.startswith('field_'): continue
        src = '\n'.join(ast.unparse(s) for s in n.body)
        if src == 'return value':
            ident.append(name)
            o.append('(* %s:%s  return value *)' % (path, lines(n)))
            o.append('Definition %s (value : str) (record : recview) : M dval := ret (DStr value).\n' % name)
        elif src == "return value.lstrip('0') + ' ft' if value.isnumeric() else value":
            ft.append(name)
            o.append("(* %s:%s  return value.lstrip('0') + \" ft\" if value.isnumeric() else value *)" % (path, lines(n)))
            o.append('Definition %s (value : str) (record : recview) : M dval :=\n  ret (DStr (if isnumeric value then lstrip0 value ++ lit " ft" else value)).\n' % name)
    allf = sorted(x for x in fns if x.startswith('field_'))
    rest = [x for x in allf if x not in ident and x not in ft]
    with open(OUT + '/DecoderTables.v', 'w') as f:
        f.write('(* GENERATED by tools/gen.py from /repo/src/arinc424/decoder.py: literal code tables,\n')
        f.write('   and the field_NNN functions whose body is a single trivial return. *)\n')
        f.write('From Coq Require Import List String.\nFrom Verif Require Import PyBase.\nImport ListNotations.\nOpen Scope string_scope.\nOpen Scope list_scope.\n\n')
        f.write('\n'.join(o))
    return allf, ident, ft, rest, fns

# --------------------------------------------------------------- Layouts.v
def gen_layouts(fns):
    o = []
    def src_expr(v):
        if isinstance(v, ast.Subscript) and isinstance(v.value, ast.Name) and v.value.id == 'r':
            s = v.slice
            if isinstance(s, ast.Slice):
                return 'Sl %d %d' % (s.lower.value, s.upper.value)
            return 'At %d' % s.value
        if isinstance(v, ast.BinOp) and isinstance(v.op, ast.Add):
            return 'AtAt %d %d' % (v.left.slice.value, v.right.slice.value)
        if isinstance(v, ast.IfExp):
            assert ast.unparse(v.test) == 'self.enroute is True'
            return '(if enroute then %s else %s)' % (src_expr(v.body), src_expr(v.orelse))
        raise Exception(ast.unparse(v))
    params = {'Waypoint': '(enroute : bool)', 'MSA': '(heliport : bool)', 'TAA': '(heliport : bool)'}
    pvar = {'Waypoint': 'enroute', 'MSA': 'heliport', 'TAA': 'heliport'}
    classes = []
    for path in sorted(glob.glob(REPO + '/src/arinc424/definitions/*.py')):
        rel = path[len(REPO) + 1:]
        tree = ast.parse(open(path).read())
        for c in tree.body:
            if not isinstance(c, ast.ClassDef): continue
            if rel.endswith('AirportGate.py') and c.name == 'CompanyRoute':
                continue   # shadowed duplicate: record.py imports CompanyRoute from CompanyRoute.py
            at = {b.targets[0].id: ast.literal_eval(b.value) for b in c.body if isinstance(b, ast.Assign)}
            P = ' ' + params[c.name] if c.name in params else ''
            V = ' ' + pvar[c.name] if c.name in params else ''
            o.append('(* ======== class %s, %s ======== *)' % (c.name, rel))
            meths = {b.name: b for b in c.body if isinstance(b, ast.FunctionDef)}
            lays = []
            for name, b in meths.items():
                if name in ('application_type', '__init__'): continue
                if len(b.body) == 1 and isinstance(b.body[0], ast.Return) and isinstance(b.body[0].value, ast.List):
                    rows = []
                    for n in b.body[0].value.elts:
                        assert n.func.id == 'Field' and len(n.args) == 3 and not n.keywords
                        nm = n.args[0]
                        if isinstance(nm, ast.Constant): nme = q(nm.value)
                        else:
                            assert ast.unparse(nm) == 'self.id_name'
                            nme = '(%s_id_name heliport)' % c.name
                        fn = n.args[2].attr
                        assert fn in fns
                        rows.append('Row %s (%s) F%s' % (nme, src_expr(n.args[1]), fn[6:]))
                    lays.append((name, b, rows))
            if '__init__' in meths and c.name in ('MSA', 'TAA'):
                b = meths['__init__']
                o.append('(* %s:%d-%d  __init__: id_name *)' % (rel, b.lineno, b.end_lineno))
                o.append('Definition %s_id_name (heliport : bool) : str :=\n  if heliport then lit "Heliport Identifier" else lit "Airport Identifier".\n' % c.name)
            for name, b, rows in lays:
                o.append('(* %s:%d-%d  %s.%s *)' % (rel, b.lineno, b.end_lineno, c.name, name))
                o.append('Definition %s_%s_rows%s : list row := [\n  %s].\n' % (c.name, name, P, ';\n  '.join(rows)))
            # read()
            b = meths['read']
            o.append('(* %s:%d-%d  %s.read *)' % (rel, b.lineno, b.end_lineno, c.name))
            def call(e):
                # return self.xxx(line) | return []
                if isinstance(e, ast.Return):
                    if isinstance(e.value, ast.List) and not e.value.elts: return 'Ok []'
                    m = e.value.func.attr
                    assert [a.id for a in e.value.args] == ['line'], ast.unparse(e)
                    return 'build %s line' % (('(%s_%s_rows%s)' if V else '%s_%s_rows%s') % (c.name, m, V))
                if isinstance(e, ast.Raise):
                    assert e.exc.func.id == 'ValueError'
                    return 'Err ValueError'
                raise Exception(ast.unparse(e))
            def match(m, ind):
                s = ''
                dflt = None
                for case in m.cases:
                    assert len(case.body) == 1
                    if isinstance(case.pattern, ast.MatchAs): dflt = call(case.body[0])
                    else: s += ind + 'if str_eqb application %s then %s else\n' % (q(case.pattern.value.value), call(case.body[0]))
                return s + ind + dflt
            if 'read' in [x[0] for x in lays]:
                body = '  build %s_read_rows line' % c.name
            elif len(b.body) == 1:
                body = '  ' + call(b.body[0])
            elif c.name == 'EnrouteAirwaysRestriction':
                assert ast.unparse(b.body[0]) == 'application = self.application_type(line)'
                iff = b.body[1]
                body = ('  let application := slice 15 17 line in   (* application_type, line 11-12 *)\n  if primary then\n%s\n  else\n%s'
                        % (match(iff.body[0], '    '), match(iff.orelse[0], '    ')))
            else:
                assert ast.unparse(b.body[0]).replace('\n   ', '') == 'if primary: return self.read_primary(line)', ast.unparse(b.body[0])
                assert ast.unparse(b.body[1]) == 'application = line[self.app_idx]'
                body = ('  if primary then build %s line else\n  bindR (index line %d) (fun application =>\n%s)'
                        % (('(%s_read_primary_rows%s)' if V else '%s_read_primary_rows%s') % (c.name, V), at['app_idx'], match(b.body[2], '  ')))
            o.append('Definition %s_read%s (line : str) (primary : bool) : result (list field) :=\n%s.\n' % (c.name, P, body))
            if 'application_type' in meths:
                b = meths['application_type']
                src = ast.unparse(b.body[0])
                assert src in ('return line[self.app_idx]', 'return line[15:17]')
            classes.append((c.name, rel, at, [l[0] for l in lays], meths))
    # class type
    o.append('(* An instance of one of the definition classes: record.py:44-85 stores these in `records`. *)')
    o.append('Inductive cls :=\n' + '\n'.join('| C%s%s' % (n, ' ' + params[n] if n in params else '') for n, *_ in classes) + '.\n')
    def pat(n): return 'C%s%s' % (n, ' _' if n in params else '')
    def attr_def(nm, doc, ty, f):
        o.append('(* %s *)' % doc)
        o.append('Definition %s (d : cls) : %s :=\n  match d with\n%s\n  end.\n' % (nm, ty, '\n'.join('  | %s => %s' % (pat(c[0]), f(c)) for c in classes)))
    def opt(x): return 'None' if x is None else 'Some %d' % x
    attr_def('cls_cont_idx', 'class attribute cont_idx (None: no such attribute), definitions/*.py', 'option nat', lambda c: opt(c[2].get('cont_idx')) + '  (* %s *)' % os.path.basename(c[1]))
    attr_def('cls_app_idx', 'class attribute app_idx, definitions/*.py', 'option nat', lambda c: opt(c[2].get('app_idx')) + '  (* %s *)' % os.path.basename(c[1]))
    attr_def('cls_continuations', 'class attribute continuations ([]: no such attribute), definitions/*.py', 'list str', lambda c: '[' + '; '.join(q(x) for x in c[2].get('continuations', [])) + ']')
    attr_def('cls_name', 'class attribute name ("": no such attribute), definitions/*.py', 'str', lambda c: q(c[2].get('name', '')))
    o.append('(* method application_type, definitions/*.py: line[self.app_idx], or line[15:17] for\n   EnrouteAirwaysRestriction.py:11-12; classes without the method (never asked) give Ok []. *)')
    o.append('Definition cls_application_type (d : cls) (line : str) : result str :=\n  match d with\n  | CEnrouteAirwaysRestriction => Ok (slice 15 17 line)\n  | _ => match cls_app_idx d with Some i => index line i | None => Ok [] end\n  end.\n')
    o.append('(* method read, dispatched on the class of the instance *)')
    o.append('Definition cls_read (d : cls) (line : str) (primary : bool) : result (list field) :=\n  match d with\n%s\n  end.\n' % '\n'.join(
        '  | C%s%s => %s_read%s line primary' % ((c[0], ' p', c[0], ' p') if c[0] in params else (c[0], '', c[0], '')) for c in classes))
    o.append('(* Every field list of every class, with the class and method it comes from (not code: an index for the proofs and checks). *)')
    lst = []
    for n, rel, at, lays, m in classes:
        for l in lays:
            if n in params:
                for p in ('false', 'true'):
                    lst.append('(lit "%s.%s", C%s %s, %s_%s_rows %s)' % (n, l, n, p, n, l, p))
            else: lst.append('(lit "%s.%s", C%s, %s_%s_rows)' % (n, l, n, n, l))
    o.append('Definition all_layouts : list (str * cls * list row) := [\n  %s].\n' % ';\n  '.join(lst))
    # records table
    rt = ast.parse(open(REPO + '/src/arinc424/record.py').read())
    recs = []
    for s in rt.body:
        if isinstance(s, ast.Assign) and isinstance(s.targets[0], ast.Subscript):
            k = s.targets[0].slice.value; n = s.value.func.id
            if n in params:
                if s.value.args: a = ' true' if s.value.args[0].value else ' false'
                else: a = ' false'   # TAA() default heliport=False
            else: a = ''; assert not s.value.args
            recs.append((k, 'C' + n + a, s.lineno))
    assert len({r[0] for r in recs}) == len(recs)
    o.append('(* src/arinc424/record.py:%d-%d  the `records` dictionary *)' % (recs[0][2], recs[-1][2]))
    o.append('Definition records : list (str * cls) := [\n  %s].\n' % ';\n  '.join('(%s, %s)' % (q(k), n) for k, n, _ in recs))
    with open(OUT + '/Layouts.v', 'w') as f:
        f.write('(* GENERATED by tools/gen.py from /repo/src/arinc424/definitions/*.py and record.py.\n')
        f.write('   Field("name", r[a:b], decoder.field_NNN) becomes Row (lit "name") (Sl a b) FNNN;\n')
        f.write('   r[i] becomes At i; r[i]+r[j] becomes AtAt i j.  Left out: the class CompanyRoute at\n')
        f.write('   AirportGate.py:66-99, which nothing imports (record.py:30 imports CompanyRoute.py). *)\n')
        f.write('From Coq Require Import List String.\nFrom Verif Require Import PyBase DecoderTables Decoder.\nImport ListNotations.\nOpen Scope string_scope.\nOpen Scope list_scope.\n\n')
        f.write('\n'.join(o))

gen_unicode()
allf, ident, ft, rest, fns = gen_decoder()
print(len(allf), len(ident), len(ft), len(rest)); print(rest)
print('Inductive fn :=\n' + wrap(['| F' + x[6:] for x in allf]).replace(';', '') + '.')
gen_layouts(fns)
