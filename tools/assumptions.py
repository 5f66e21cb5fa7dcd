#!/usr/bin/env python3
"""Print Assumptions of every theorem in MANIFEST.json, grouped by the set of axioms -> ASSUMPTIONS.md.
Run after building /verif/rocq."""
import json, re, subprocess, glob, os, tempfile
from concurrent.futures import ThreadPoolExecutor
root = os.path.dirname(os.path.dirname(os.path.abspath(__file__)))
th = os.path.join(root, 'rocq', 'theories')
names = []
for c in json.load(open(os.path.join(root, 'MANIFEST.json')))['claims']:
    for t in c['theorems']:
        if t not in names: names.append(t)
where = {}
for f in sorted(glob.glob(th + '/*.v')):
    for m in re.finditer(r'^(?:Theorem|Lemma)\s+(\w+)', open(f).read(), re.M):
        where.setdefault(m.group(1), os.path.basename(f)[:-2])
groups = {}
def ask(mod):
    src = f'From Coq Require Import String.\nFrom Verif Require {mod}.\n'
    for n in names:
        if where[n] == mod: src += f'Eval compute in "@@{n}"%string.\nPrint Assumptions {mod}.{n}.\n'
    d = tempfile.mkdtemp()
    open(f'{d}/assum.v', 'w').write(src)
    r = subprocess.run(['coqc', '-Q', th, 'Verif', f'{d}/assum.v'], capture_output=True, text=True)
    assert r.returncode == 0, r.stderr
    print(mod, flush=True)
    return mod, r.stdout
with ThreadPoolExecutor(4) as ex: results = list(ex.map(ask, sorted(set(where[n] for n in names))))
for mod, out in results:
    for part in out.split('"@@')[1:]:
        n = part[:part.index('"')]
        ax = frozenset(re.findall(r'^([A-Za-z][\w.]*)\s*:', part[part.index(': string')+8:].replace('Axioms:', ''), re.M))
        groups.setdefault(ax, []).append((n, mod))
with open(os.path.join(root, 'ASSUMPTIONS.md'), 'w') as o:
    o.write('# Print Assumptions of every theorem in MANIFEST.json\n\nGenerated by tools/assumptions.py; the theorems are grouped by the set of axioms.\n')
    for ax, l in sorted(groups.items(), key=lambda kv: len(kv[0])):
        o.write('\n## ' + (f'{len(ax)} names' if ax else 'Closed under the global context') + '\n\nTheorems: ' + ', '.join(sorted(n for n, _ in l)) + '\n')
        if ax: o.write('\nAxioms and primitives:\n\n' + ''.join(f'* `{a}`\n' for a in sorted(ax)))
