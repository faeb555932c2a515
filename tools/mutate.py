#!/usr/bin/env python3
"""Mutation test of the proofs, in a scratch copy.

usage: mutate.py SPEC.json   where SPEC is a list of
  {"file": "IntModel.v", "definition": "...", "old": "...", "new": "...", "claim": "C01 ..."}
For each: copy the theories to /tmp/mut, apply the edit, recompile everything that
depends on the file, replacing each proof that breaks by Admitted, and report the
property theorems and examples that broke or rest on a broken lemma."""
import json, os, re, shutil, subprocess, sys
SRC = os.environ.get('MUT_SRC', '/verif/rocq')
W = os.environ.get('MUT_DIR', '/tmp/mut')

def order():
    return re.findall(r'theories/(\w+)\.v', open(SRC + '/_CoqProject').read())

def deps(mods):
    d = {}
    for m in mods:
        s = open(f'{SRC}/theories/{m}.v').read()
        d[m] = set(re.findall(r'Verif\.(\w+)', s)) - {m}
    return d

def sort(mods, d):
    """dependencies first"""
    done = []
    def visit(m):
        if m in done: return
        for x in sorted(d[m] & set(mods)): visit(x)
        done.append(m)
    for m in mods: visit(m)
    return done

def run(m):
    try:
        r = subprocess.run(['coqc', '-Q', '.', 'Verif', m + '.v'], cwd=W, capture_output=True, text=True, timeout=400)
    except subprocess.TimeoutExpired:
        return None, ''
    return r.returncode, r.stdout + r.stderr

HEAD = re.compile(r'^\s*(?:Local |Global )?(?:Lemma|Theorem|Example|Corollary|Fact|Remark|Proposition|Instance)\s+(\w+)')

def admit(path, line):
    L = open(path).read().split('\n')
    i = line - 1
    while i >= 0 and not HEAD.match(L[i]): i -= 1
    if i < 0: return None
    name = HEAD.match(L[i]).group(1)
    j = i
    while j < len(L) and not re.search(r"\bQed\.|\bDefined\.", L[j]): j += 1
    if j == len(L): return None
    if j < line - 1: return None
    k = i
    while k <= j and not re.search(r'\bProof\.', L[k]): k += 1
    if k > j: return None
    before = L[k][:L[k].index('Proof.')]
    L[i:j+1] = L[i:k] + [before + ' Admitted.'] + [''] * (j - k)
    open(path, 'w').write('\n'.join(L))
    return name

def main():
    mods = order(); dp = deps(mods); mods = sort(mods, dp)
    only = sys.argv[2:] 
    for n, sp in enumerate(json.load(open(sys.argv[1]))):
        if only and str(n) not in only: continue
        shutil.rmtree(W, ignore_errors=True)
        shutil.copytree(SRC + '/theories', W)
        f = f"{W}/{sp['file']}"; s = open(f).read()
        if s.count(sp['old']) != 1:
            print(n, 'EDIT MATCHES', s.count(sp['old']), 'TIMES', sp['old']); continue
        open(f, 'w').write(s.replace(sp['old'], sp['new']))
        root = sp['file'][:-2]; dirty = {root}; broken = []; props = []; note = ''
        for m in mods:
            if m != root and not (dp[m] & dirty): continue
            dirty.add(m)
            if m.startswith('Properties'):
                pass
            while True:
                rc, out = run(m)
                if rc == 0: break
                if rc is None: note = f'timeout in {m}'; break
                g = re.search(r'line (\d+), characters', out)
                nm = g and admit(f'{W}/{m}.v', int(g.group(1)))
                if not nm: note = f'cannot continue {m}: ' + out[-300:]; break
                broken.append(nm)
            if note: break
            if m.startswith('Properties'):
                s = open(f'{W}/{m}.v').read()
                names = re.findall(r'Print Assumptions (\w+)\.', s)
                parts = re.split(r'(Closed under the global context|Axioms:)', out)
                flags = [p == 'Axioms:' for p in parts if p in ('Axioms:', 'Closed under the global context')]
                props += [a for a, b in zip(names, flags) if b]
        print(json.dumps({'n': n, 'file': sp['file'], 'definition': sp['definition'], 'edit': sp['old'] + '  =>  ' + sp['new'],
              'claim': sp['claim'], 'theorems_failed': sorted(set(props)), 'examples_failed': sorted(x for x in broken if re.match(r'C\d+_ex', x)),
              'lemmas_broken': broken, 'note': note}), flush=True)
main()
