#!/usr/bin/env python3
"""Regenerate rocq/_CoqProject (file list), rocq/theories/Assumptions.v and
MANIFEST.json from the theorem names Cxx_... in rocq/theories/Prop*.v and the
statuses and notes in tools/claims.json."""
import glob, json, os, re
root = os.path.dirname(os.path.dirname(os.path.abspath(__file__)))
th = os.path.join(root, 'rocq', 'theories')
files = sorted(os.path.basename(f) for f in glob.glob(th + '/*.v'))
if 'Assumptions.v' not in files:
    files = sorted(files + ['Assumptions.v'])
with open(os.path.join(root, 'rocq', '_CoqProject'), 'w') as f:
    f.write('-Q theories Verif\n\n' + ''.join('theories/%s\n' % x for x in files))
props = [x for x in files if x.startswith('Prop')]
thms = {}
with open(os.path.join(th, 'Assumptions.v'), 'w') as f:
    f.write('(** Generated by tools/gen.py: the assumptions of every property theorem, per file\n'
            '    (a tuple is closed exactly when each of its components is). *)\n\n')
    f.write('From Verif Require Import %s.\n' % ' '.join(x[:-2] for x in props))
    for p in props:
        names = []
        for n in re.findall(r'^Theorem (C\d\d+_\w+)', open(os.path.join(th, p)).read(), re.M):
            assert n not in [t for l in thms.values() for t in l], n
            thms.setdefault(n.split('_')[0], []).append(n)
            names.append(n)
        f.write('\nDefinition all_%s :=\n  (%s).\nPrint Assumptions all_%s.\n' % (p[:-2], ',\n   '.join(names), p[:-2]))
claims = json.load(open(os.path.join(root, 'tools', 'claims.json')))
ids = [json.loads(l)['id'] for l in open(os.path.join(root, 'properties.jsonl'))]
out = []
for i in ids:
    c = claims.get(i)
    if c is None:
        if i in thms:
            print('no claim entry for', i)
        out.append({'property': i, 'status': 'partial', 'theorems': [], 'note': 'not yet proved'})
        continue
    t = thms.get(i, [])
    if not t and c['status'] != 'not_applicable':
        print('no theorems for', i)
    out.append({'property': i, 'status': c['status'], 'theorems': t, 'note': c['note']})
with open(os.path.join(root, 'MANIFEST.json'), 'w') as f:
    f.write('{"claims": [\n' + ',\n'.join(json.dumps(o) for o in out) + '\n]}\n')
print(len(files), 'files', sum(map(len, thms.values())), 'theorems', len(thms), 'properties')
