#!/usr/bin/env python3
"""Copy the literal tables of /repo/asn1crypto into rocq/theories/Tables.v.

Reads the source as text (ast), imports nothing from it.  Every definition gets a
comment with the file and the lines the literal was copied from.

Usage: python3 tools/gen_tables.py [/repo] > rocq/theories/Tables.v
"""
import ast
import glob
import os
import sys

ROOT = sys.argv[1] if len(sys.argv) > 1 else '/repo'
BASES = ('ObjectIdentifier', 'Integer', 'Enumerated', 'BitString')
out = []


def emit(s=''):
    out.append(s)


def coq_str(s):
    assert isinstance(s, str) and '"' not in s and all(32 <= ord(c) < 127 for c in s), s
    return '"%s"' % s


def pairs(items):
    lines = ['%s' % i for i in items]
    return '[' + ';\n   '.join(lines) + ']'


def where(f, node):
    return 'asn1crypto/%s:%d-%d' % (f, node.lineno, node.end_lineno)


def comment(f, node, extra=''):
    return '(* %s%s *)' % (where(f, node), extra)


def attr_of(cls, name):
    for s in cls.body:
        if isinstance(s, ast.Assign) and len(s.targets) == 1 \
                and isinstance(s.targets[0], ast.Name) and s.targets[0].id == name:
            return s
    return None


def lit(n):
    if isinstance(n, ast.UnaryOp) and isinstance(n.op, ast.USub):
        return -n.operand.value
    assert isinstance(n, ast.Constant), ast.dump(n)
    return n.value


def items(d):
    return [(lit(k), lit(v)) for k, v in zip(d.keys, d.values)]


def zlit(n):
    return '(%d)%%Z' % n if n < 0 else '%d%%Z' % n


classes = {}
trees = {}
for path in sorted(glob.glob(os.path.join(ROOT, 'asn1crypto', '*.py'))):
    f = os.path.basename(path)
    tree = ast.parse(open(path, encoding='utf-8').read())
    trees[f] = tree
    for c in tree.body:
        if isinstance(c, ast.ClassDef):
            classes[f[:-3], c.name] = c

emit('(* Generated by tools/gen_tables.py from the text of /repo; do not edit.')
emit('   The literal tables of the library: value maps, the types bound to identifiers,')
emit('   the algorithm name tables and the extension attributes. *)')
emit('Require Import ZArith List.')
emit('Require Import Coq.Strings.String.')
emit('Import ListNotations.')
emit('Local Open Scope string_scope.')
emit()

oid_tables, int_tables, enum_tables, bit_tables, reverse = [], [], [], [], []
for (m, name), c in classes.items():
    f = m + '.py'
    bases = [b.id for b in c.bases if isinstance(b, ast.Name)]
    base = [b for b in bases if b in BASES]
    s = attr_of(c, '_map')
    if s is None or not isinstance(s.value, ast.Dict) or not base:
        continue
    ident = 'map_%s_%s' % (m, name)
    its = items(s.value)
    emit(comment(f, s, ' %s(%s)._map' % (name, base[0])))
    if base[0] == 'ObjectIdentifier':
        emit('Definition %s : list (string * string) :=\n  %s.' % (
            ident, pairs('(%s, %s)' % (coq_str(k), coq_str(v)) for k, v in its)))
        oid_tables.append((m, name, ident))
    else:
        emit('Definition %s : list (Z * string) :=\n  %s.' % (
            ident, pairs('(%s, %s)' % (zlit(k), coq_str(v)) for k, v in its)))
        {'Integer': int_tables, 'Enumerated': enum_tables, 'BitString': bit_tables}[base[0]].append((m, name, ident))
    emit()
    r = attr_of(c, '_reverse_map')
    if r is not None:
        rid = 'rev_%s_%s' % (m, name)
        emit(comment(f, r, ' %s._reverse_map' % name))
        emit('Definition %s : list (string * string) :=\n  %s.' % (
            rid, pairs('(%s, %s)' % (coq_str(k), coq_str(v)) for k, v in items(r.value))))
        emit()
        reverse.append((m, name, rid))

# the entries other modules add when they are imported
added, spec_added, spec_replaced = [], [], {}
for f, tree in trees.items():
    for s in tree.body:
        if isinstance(s, ast.Assign) and isinstance(s.targets[0], ast.Subscript):
            t = s.targets[0]
            target = t.value
            assert isinstance(target, ast.Attribute) and isinstance(target.value, ast.Name)
            key = lit(t.slice)
            if target.attr == '_map':
                added.append((f, s, target.value.id, key, lit(s.value)))
            elif target.attr == '_oid_specs':
                spec_added.append((f, s, target.value.id, key, s.value.id))
            else:
                raise AssertionError(ast.dump(s))
        elif isinstance(s, ast.Assign) and isinstance(s.targets[0], ast.Attribute):
            t = s.targets[0]
            if t.attr == '_oid_specs' and isinstance(s.value, ast.Dict):
                spec_replaced[f[:-3], t.value.id] = s
            else:
                assert t.attr not in ('_map', '_reverse_map', '_oid_specs'), ast.dump(s)


def owner(name, kind):
    own = [m for (m, n), c in classes.items() if n == name and attr_of(c, kind) is not None]
    assert len(own) == 1, (name, own)
    return own[0]


for mod in sorted({f[:-3] for f, *_ in added}):
    rows = [a for a in added if a[0] == mod + '.py']
    emit('(* asn1crypto/%s.py:%d-%d, entries added to the _map of other classes on import *)' % (
        mod, rows[0][1].lineno, rows[-1][1].lineno))
    emit('Definition added_%s : list (string * (string * string)) :=\n  %s.' % (
        mod, pairs('(%s, (%s, %s))' % (coq_str('%s.%s' % (owner(c, '_map'), c)), coq_str(k), coq_str(v))
                   for _, _, c, k, v in rows)))
    emit()

for nm, tabs in (('oid', oid_tables), ('int', int_tables), ('enum', enum_tables), ('bit', bit_tables)):
    ty = '(string * list (%s * string))' % ('string' if nm == 'oid' else 'Z')
    emit('Definition %s_maps : list %s :=\n  %s.' % (
        nm, ty, pairs('(%s, %s)' % (coq_str('%s.%s' % (m, n)), i) for m, n, i in tabs)))
    emit()
emit('Definition reverse_maps : list (string * list (string * string)) :=\n  %s.' % (
    pairs('(%s, %s)' % (coq_str('%s.%s' % (m, n)), i) for m, n, i in reverse)))
emit()

# _oid_specs: the names with a type bound to them
binds = []
for (m, name), c in classes.items():
    f = m + '.py'
    s = attr_of(c, '_oid_specs')
    if s is None or not isinstance(s.value, ast.Dict):
        continue
    s = spec_replaced.get((m, name), s)
    fields = attr_of(c, '_fields').value.elts
    pair = attr_of(c, '_oid_pair')
    idcls = None
    if pair is not None:
        idf = lit(pair.value.elts[0])
        for e in fields:
            if lit(e.elts[0]) == idf:
                idcls = e.elts[1].id
    else:                       # a _spec_callbacks entry looks the type up instead
        idcls = fields[0].elts[1].id
    if (m, idcls) in classes and attr_of(classes[m, idcls], '_map') is not None:
        idq = '%s.%s' % (m, idcls)
    else:
        idq = '%s.%s' % (owner(idcls, '_map'), idcls)
    ident = 'specs_%s_%s' % (m, name)
    rows = [(lit(k), ast.unparse(v)) for k, v in zip(s.value.keys, s.value.values)]
    extra = [(fa, n, k, v) for fa, n, cn, k, v in spec_added if cn == name]
    emit(comment(f, s, ' %s._oid_specs%s' % (
        name, ''.join(', %s' % where(fa, n) for fa, n, _, _ in extra))))
    rows += [(k, v) for _, _, k, v in extra]
    emit('Definition %s : list (string * string) :=\n  %s.' % (
        ident, pairs('(%s, %s)' % (coq_str(k), coq_str(v)) for k, v in rows)))
    emit()
    binds.append((m, name, idq, ident))
emit('(* the structure, the class of its identifier field, its _oid_specs *)')
emit('Definition spec_tables : list (string * (string * list (string * string))) :=\n  %s.' % (
    pairs('(%s, (%s, %s))' % (coq_str('%s.%s' % (m, n)), coq_str(q), i) for m, n, q, i in binds)))
emit()

# algorithm names
sda = classes['algos', 'SignedDigestAlgorithm']
s = attr_of(sda, '_algo_map')
emit(comment('algos.py', s, ' SignedDigestAlgorithm._algo_map'))
emit('Definition algo_map : list (string * string) :=\n  %s.' % pairs(
    '(%s, %s)' % (coq_str(k), coq_str(v)) for k, v in items(s.value)))
emit()
for fn, var, ident in (('signature_algo', 'algo_map', 'signature_map'), ('cms_hash_algo', 'cms_algo_map', 'cms_hash_map')):
    d = [x for x in sda.body if isinstance(x, ast.FunctionDef) and x.name == fn][0]
    a = [x for x in d.body if isinstance(x, ast.Assign) and x.targets[0].id == var][0]
    emit(comment('algos.py', a, ' %s in %s' % (var, fn)))
    emit('Definition %s : list (string * string) :=\n  %s.' % (ident, pairs(
        '(%s, %s)' % (coq_str(k), coq_str(v)) for k, v in items(a.value))))
    emit()
s = attr_of(classes['keys', 'NamedCurve'], '_key_sizes')
emit(comment('keys.py', s, ' NamedCurve._key_sizes'))
emit('Definition key_sizes : list (string * Z) :=\n  %s.' % pairs(
    '(%s, %s)' % (coq_str(k), zlit(v)) for k, v in items(s.value)))
emit()
s = attr_of(classes['algos', '_ForceNullParameters'], '_null_algos')
emit(comment('algos.py', s, ' _ForceNullParameters._null_algos'))
emit('Definition null_algos : list string :=\n  %s.' % pairs(
    coq_str(lit(e)) for e in s.value.args[0].elts))
emit()

# classes with _set_extensions
ext = []
for (m, name), c in classes.items():
    f = m + '.py'
    fns = {x.name: x for x in c.body if isinstance(x, ast.FunctionDef)}
    if '_set_extensions' not in fns:
        continue
    attrs = [x for x in c.body if isinstance(x, ast.Assign) and isinstance(x.targets[0], ast.Name)
             and x.targets[0].id.endswith('_value')]
    for a in attrs:
        assert isinstance(a.value, ast.Constant) and a.value.value is None
    acc = []
    for n, x in fns.items():
        ret = x.body[-1]
        calls = [ast.unparse(y) for y in ast.walk(x) if isinstance(y, ast.Call)]
        if n.endswith('_value') and 'self._set_extensions()' in calls:
            assert isinstance(ret, ast.Return), n
            acc.append((x, n, ast.unparse(ret.value)))
    loop = [x for x in fns['_set_extensions'].body if isinstance(x, ast.For)][0]
    path = ast.unparse(loop.iter)
    emit('(* asn1crypto/%s:%d-%d %s: the attributes named _..._value; the loop (line %d) runs over' % (
        f, attrs[0].lineno, attrs[-1].lineno, name, loop.lineno))
    emit('   %s *)' % path)
    emit('Definition attrs_%s_%s : list string :=\n  %s.' % (m, name, pairs(
        coq_str(a.targets[0].id) for a in attrs)))
    emit('(* asn1crypto/%s:%d-%d: each property ..._value and the attribute it returns *)' % (
        f, acc[0][0].lineno, acc[-1][0].end_lineno))
    emit('Definition accessors_%s_%s : list (string * string) :=\n  %s.' % (m, name, pairs(
        '(%s, %s)' % (coq_str(n), coq_str(r.replace('self.', ''))) for _, n, r in acc)))
    emit()
    ext.append((m, name))
emit('(* class, (attributes, accessors) *)')
emit('Definition extension_classes : list (string * (list string * list (string * string))) :=\n  %s.' % pairs(
    '(%s, (attrs_%s_%s, accessors_%s_%s))' % (coq_str('%s.%s' % (m, n)), m, n, m, n) for m, n in ext))

print('\n'.join(out))
