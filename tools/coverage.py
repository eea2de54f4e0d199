#!/usr/bin/env python3
"""List the functions of /repo/lib and /repo/python that no citation in the model overlaps."""
import glob, os, re, sys
cited = {}
for f in glob.glob('/verif/rocq/theories/*Model*.v') + ['/verif/rocq/theories/Types.v', '/verif/rocq/theories/Base.v']:
    text = open(f).read()
    for com in re.findall(r'\(\*.*?\*\)', text, re.S):
        cur = None
        for m in re.finditer(r'(?:(lib|include|python)/([\w/]+\.[ch]):)?(\d+)-(\d+)|(?:(lib|include|python)/([\w/]+\.[ch]):)(\d+)\b', com):
            if m.group(1):
                cur = m.group(1) + '/' + m.group(2)
            if m.group(3):
                if cur:
                    cited.setdefault(cur, []).append((int(m.group(3)), int(m.group(4))))
            else:
                cur = m.group(5) + '/' + m.group(6)
                cited.setdefault(cur, []).append((int(m.group(7)), int(m.group(7))))
total = hit = 0
for f in sorted(glob.glob('/repo/lib/*.c')) + sorted(glob.glob('/repo/python/*.c')):
    name = os.path.relpath(f, '/repo')
    lines = open(f, errors='replace').read().split('\n')
    start = fn = None
    out = []
    for i, l in enumerate(lines, 1):
        m = re.match(r'^(?:[A-Za-z_][\w \*]*\s\**)?(\w+)\(', l)
        if m and not l.rstrip().endswith(';') and not l.startswith(('#', ' ', 'DEFINE')):
            start, fn = i, m.group(1)
        if l.startswith('}') and fn:
            total += 1
            if any(a <= i and b >= start for a, b in cited.get(name, [])):
                hit += 1
            else:
                out.append(f'{fn} ({start}-{i})')
            fn = None
    print(f'{name}: ' + (', '.join(out) if out else 'all modelled'))
print(f'{hit} of {total} functions modelled')
