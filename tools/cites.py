#!/usr/bin/env python3
"""Check the citations in theories/*.v: file exists, range inside the file, and every identifier
following the range that looks like a C symbol occurs inside (or within 3 lines of) that range."""
import re, sys, glob, os
repo = sys.argv[1] if len(sys.argv) > 1 else "/repo"
bad = 0; n = 0
for v in sorted(glob.glob(os.path.join(os.path.dirname(__file__), "../rocq/theories/*.v"))):
    text = open(v).read()
    for m in re.finditer(r"\b((?:lib|include|python|bin|ruby)/[\w/.+-]+\.(?:c|h|gperf|rb))(?::(\d+)(?:-(\d+))?)?((?:[ ,]+(?:and )?(?:sr_)?[a-z][a-z0-9]*_\w+)*)", text):
        f, a, b, names = m.group(1), m.group(2), m.group(3), m.group(4)
        n += 1
        p = os.path.join(repo, f)
        where = "%s:%d" % (os.path.basename(v), text[:m.start()].count("\n") + 1)
        if not os.path.exists(p):
            print(where, "no file", f); bad += 1; continue
        lines = open(p, errors="replace").read().split("\n")
        if a is None:
            seg = "\n".join(lines)
        else:
            a = int(a); b = int(b or a)
            if b > len(lines) or a > b:
                print(where, "range", f, a, b); bad += 1; continue
            seg = "\n".join(lines[max(0, a - 4):b + 3])
        for name in re.findall(r"(?:sr_)?[a-z][a-z0-9]*_\w+", names or ""):
            if name not in seg:
                print(where, "name", name, "not in", f, a, b); bad += 1
print(n, "citations,", bad, "bad")
