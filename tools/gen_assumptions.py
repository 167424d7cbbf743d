#!/usr/bin/env python3
"""Writes rocq/theories/Properties/Assumptions.v: Print Assumptions of every theorem in MANIFEST.json."""
import json, os, re
root = os.path.join(os.path.dirname(os.path.abspath(__file__)), "..")
man = json.load(open(os.path.join(root, "MANIFEST.json")))
names = sorted({t for c in man["claims"] for t in c["theorems"]})
mods = [m for m in re.findall(r"theories/(Properties/\w+)\.v", open(os.path.join(root, "rocq/_CoqProject")).read()) if m != "Properties/Assumptions"]
with open(os.path.join(root, "rocq/theories/Properties/Assumptions.v"), "w") as f:
    f.write("(** * What the theorems named in MANIFEST.json rest on (generated by tools/gen_assumptions.py)\n    Every line of the build's output for this file has to be \"Closed under the global context\". *)\n")
    f.write("From Verif Require " + " ".join(m.replace("/", ".") for m in mods) + ".\n")
    where = {}
    for m in mods:
        for n in re.findall(r"^\s*(?:Theorem|Lemma|Corollary)\s+([\w']+)", open(os.path.join(root, "rocq/theories", m + ".v")).read(), re.M):
            where[n] = m.replace("/", ".")
    for n in names:
        f.write(f"Print Assumptions {where[n]}.{n}.\n")
