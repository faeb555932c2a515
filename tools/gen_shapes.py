#!/usr/bin/env python3
"""Copy the class definitions of /repo/asn1crypto into rocq/theories/Shapes.v.

Reads the source as text (ast), imports nothing from it: the bases of every class, its
attributes class_ and tag, and the literals _fields, _alternatives and _child_spec, with
names of classes replaced by module.Class according to the imports; the tables _oid_specs
with the later additions to them; the names of methods and attributes every class defines.

Usage: python3 tools/gen_shapes.py [/repo] > rocq/theories/Shapes.v
"""
import ast
import sys

ROOT = sys.argv[1] if len(sys.argv) > 1 else '/repo'
MODULES = ['core', 'algos', 'keys', 'x509', 'crl', 'csr', 'ocsp', 'cms', 'pkcs12', 'tsp', 'pdf']

trees = {m: ast.parse(open('%s/asn1crypto/%s.py' % (ROOT, m)).read()) for m in MODULES}
scope = {m: {} for m in MODULES}
for m in MODULES:
    for s in trees[m].body:
        if isinstance(s, ast.ImportFrom) and s.level == 1 and s.module in MODULES:
            for a in s.names:
                assert a.asname is None
                scope[m][a.name] = scope[s.module].get(a.name, s.module + '.' + a.name)
        elif isinstance(s, ast.ClassDef):
            scope[m][s.name] = m + '.' + s.name


def q(s):
    assert '"' not in s
    return '"%s"' % s


def opt(x):
    return 'None' if x is None else '(Some %s)' % x


def num(n):
    if isinstance(n, ast.UnaryOp):
        return '(-%d)' % n.operand.value
    assert type(n.value) is int, ast.dump(n)
    return str(n.value)


def default(n):
    if isinstance(n, ast.Dict):
        return '(DDict [%s])' % '; '.join('(%s, %s)' % (q(k.value), default(v)) for k, v in zip(n.keys, n.values))
    if isinstance(n, ast.Call):
        assert n.func.id == 'set' and len(n.args) == 1
        return '(DSet [%s])' % '; '.join(q(e.value) for e in n.args[0].elts)
    v = n.value
    if type(v) is bool:
        return '(DBool %s)' % str(v).lower()
    if type(v) is int:
        return '(DNum %d)' % v
    if type(v) is bytes:
        return '(DBytes [%s])' % '; '.join(map(str, v))
    assert type(v) is str
    return '(DName %s)' % q(v)


def field(m, f):
    name, cls = f.elts[0].value, f.elts[1]
    p = {}
    if len(f.elts) > 2:
        p = {k.value: v for k, v in zip(f.elts[2].keys, f.elts[2].values)}
    assert set(p) <= {'explicit', 'implicit', 'optional', 'default', 'spec'}, p
    if isinstance(cls, ast.Constant) and cls.value is None:
        ref = 'RCallback'
    elif 'spec' in p:
        ref = '(ROf %s %s)' % (q(scope[m][cls.id]), q(scope[m][p['spec'].id]))
    else:
        ref = '(RClass %s)' % q(scope[m][cls.id])
    if 'optional' in p:
        assert p['optional'].value is True
    return 'SField %s %s %s %s %s %s' % (
        q(name), ref, opt(num(p['explicit']) if 'explicit' in p else None),
        opt(num(p['implicit']) if 'implicit' in p else None), 'true' if 'optional' in p else 'false',
        opt(default(p['default']) if 'default' in p else None))


def fields(m, v):
    if isinstance(v, ast.Constant) and v.value is None:
        return 'None'
    return '(Some [%s])' % ';\n      '.join(field(m, f) for f in v.elts)


late = {}
for m in MODULES:
    for s in trees[m].body:
        if isinstance(s, ast.Assign) and isinstance(s.targets[0], ast.Attribute):
            t = s.targets[0]
            if t.attr in ('_fields', '_alternatives', '_child_spec'):
                late[(scope[m][t.value.id], t.attr)] = (m, s)

print('''(* Generated by tools/gen_shapes.py from the text of /repo; do not edit.
   The class definitions of the library: bases, tags, fields, alternatives and items. *)
Require Import ZArith List.
Require Import Coq.Strings.String.
Require Import Verif.ShapeModel.
Import ListNotations.
Local Open Scope string_scope.
Local Open Scope Z_scope.
''')
names = []
for m in MODULES:
    for c in trees[m].body:
        if not isinstance(c, ast.ClassDef):
            continue
        full = m + '.' + c.name
        at = {}
        where = ['asn1crypto/%s.py:%d-%d' % (m, c.lineno, c.end_lineno)]
        for s in c.body:
            if isinstance(s, ast.Assign):
                assert len(s.targets) == 1
                at[s.targets[0].id] = s.value
        for a in ('_fields', '_alternatives', '_child_spec'):
            if (full, a) in late:
                lm, s = late[(full, a)]
                at[a] = s.value
                where.append('%s.py:%d' % (lm, s.lineno))
        bases = [scope[m].get(b.id, m + '.' + b.id) for b in c.bases if b.id != 'object']
        for k in ('explicit', 'implicit'):
            assert k not in at or (isinstance(at[k], ast.Constant) and at[k].value in (None, False)), full

        def number(k):
            n = at.get(k)
            if n is None or (isinstance(n, ast.Constant) and n.value is None):
                return None
            return num(n)
        child = at.get('_child_spec')
        if child is not None and isinstance(child, ast.Constant):
            child = None
        d = 'class_%s_%s' % (m, c.name)
        names.append(d)
        print('(* %s *)' % ', '.join(where))
        print('Definition %s : sclass :=\n  SClass %s [%s] %s %s\n    %s\n    %s\n    %s.' % (
            d, q(full), '; '.join(map(q, bases)), opt(number('class_')), opt(number('tag')),
            fields(m, at['_fields']) if '_fields' in at else 'None',
            fields(m, at['_alternatives']) if '_alternatives' in at else 'None',
            opt(q(scope[m][child.id]) if child is not None else None)))
        print()
print('Definition library : list sclass :=\n  [%s].' % ';\n   '.join(names))

specs = {}


def bind(cls, where, m, pairs):
    w, t = specs.setdefault(cls, ([], []))
    w.append(where)
    for k, v in pairs:
        assert k not in [x for x, _ in t]
        t.append((k, scope[m][v.id]))


for m in MODULES:
    for c in trees[m].body:
        if isinstance(c, ast.ClassDef):
            for s in c.body:
                if isinstance(s, ast.Assign) and s.targets[0].id == '_oid_specs' and isinstance(s.value, ast.Dict):
                    bind(m + '.' + c.name, 'asn1crypto/%s.py:%d-%d' % (m, s.lineno, s.end_lineno), m,
                         [(k.value, v) for k, v in zip(s.value.keys, s.value.values)])
for m in MODULES:
    for s in trees[m].body:
        if not isinstance(s, ast.Assign):
            continue
        t = s.targets[0]
        where = '%s.py:%d-%d' % (m, s.lineno, s.end_lineno)
        if isinstance(t, ast.Attribute) and t.attr == '_oid_specs':
            bind(scope[m][t.value.id], where, m, [(k.value, v) for k, v in zip(s.value.keys, s.value.values)])
        elif isinstance(t, ast.Subscript) and isinstance(t.value, ast.Attribute) and t.value.attr == '_oid_specs':
            bind(scope[m][t.value.value.id], where, m, [(t.slice.value, s.value)])
print()
print('(* the classes with types bound to identifiers *)')
print('Definition bindings : list (string * list (string * string)) :=\n  [%s].' % ';\n   '.join(
    '(* %s *)\n   (%s, [%s])' % (', '.join(w), q(c), '; '.join('(%s, %s)' % (q(k), q(v)) for k, v in t))
    for c, (w, t) in specs.items() if t))

print()
print('(* the names defined in the bodies of the classes *)')
print('Definition defines : list (string * list string) :=\n  [%s].' % ';\n   '.join(
    '(%s, [%s])' % (q(m + '.' + c.name), '; '.join(q(x) for x in sorted(set(
        [s.name for s in c.body if isinstance(s, ast.FunctionDef)] + [s.targets[0].id for s in c.body if isinstance(s, ast.Assign)]))))
    for m in MODULES for c in trees[m].body if isinstance(c, ast.ClassDef)))
