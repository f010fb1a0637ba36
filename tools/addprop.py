#!/usr/bin/env python3
"""addprop.py FILE: adds a property, its manifest row, its DESIGN row and source files.
FILE defines P (args of p), ROW (manifest tuple), DESIGN (text), FILES (list)."""
import sys, os
root = os.path.join(os.path.dirname(os.path.abspath(__file__)), "..")
ns = {}
exec(open(sys.argv[1]).read(), ns)
for P, ROW, D in zip(ns["P"], ns["ROW"], ns["DESIGN"]):
    f = root + "/tools/gen_properties.py"; s = open(f).read(); i = s.index("\nW={\n")
    s = s[:i] + "\np(" + ",\n ".join(repr(x) for x in P) + ")" + s[i:]; open(f, "w").write(s)
    f = root + "/tools/gen_manifest.py"; s = open(f).read(); i = s.index("]\nEXTRA")
    s = s[:i] + " " + repr(ROW) + ",\n" + s[i:]; open(f, "w").write(s)
    f = root + "/DESIGN.md"; s = open(f).read(); i = s.index("\n\n## 4. Findings")
    s = s[:i] + "\n| %s | %s |" % (P[0], D) + s[i:]; open(f, "w").write(s)
f = root + "/rocq/_CoqProject"; s = open(f).read().rstrip()
for x in ns["FILES"]:
    if "theories/" + x not in s.split(): s += "\ntheories/" + x
open(f, "w").write(s + "\n")
os.system("cd %s && python3 tools/gen_properties.py && python3 tools/gen_manifest.py" % root)
