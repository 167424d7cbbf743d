#!/usr/bin/env python3
"""Usage: mutate.py mutants.json   Each mutant: {file, def, old, new, edit, breaks}.
Copies /verif/rocq to a scratch directory, applies one edit, rebuilds with make -k,
and appends one line to /verif/seeded/LOG.jsonl."""
import json, sys, os, re, shutil, subprocess
KEEP = "" if os.environ.get("MUTFAST") else "-k"   # MUTFAST: stop at the first failure
SRC = "/verif/rocq"; SCR = os.environ.get("MUTDIR", "/tmp/mut/w")
def enclosing(path, line):
    last = None
    for i, l in enumerate(open(path), 1):
        if i > line: break
        m = re.match(r"\s*(?:Local |Global )?(?:Lemma|Theorem|Example|Corollary|Definition|Fixpoint|Fact)\s+([\w']+)", l)
        if m: last = m[1]
    return last
def dependents(mod):
    deps = {}
    for d in ("Model", "Spec", "Proofs", "Properties"):
        for f in os.listdir(os.path.join(SCR, "theories", d)):
            if f.endswith(".v"):
                deps[f"{d}/{f[:-2]}"] = {x.replace(".", "/") for x in re.findall(r"\b((?:Model|Spec|Proofs|Properties)\.\w+)", open(os.path.join(SCR, "theories", d, f)).read())}
    out, todo = set(), [mod]
    while todo:
        x = todo.pop()
        if x in out: continue
        out.add(x); todo += [k for k, v in deps.items() if x in v]
    return out
BASE = SCR + ".base"
if os.path.exists(BASE): shutil.rmtree(BASE)
shutil.copytree(SRC, BASE)      # snapshot, so that work in /verif can go on
for m in json.load(open(sys.argv[1])):
    if os.path.exists(SCR): shutil.rmtree(SCR)
    shutil.copytree(BASE, SCR)   # with compiled files: only what changed is rebuilt
    cp = os.path.join(SCR, "_CoqProject"); t = open(cp).read().replace("theories/Properties/Assumptions.v\n", ""); open(cp, "w").write(t)
    dirty = dependents(m["file"][:-2])
    for d in dirty:
        v = os.path.join(SCR, "theories", d + ".vo")
        if os.path.exists(v): os.remove(v)
    p = os.path.join(SCR, "theories", m["file"]); s = open(p).read()
    assert s.count(m["old"]) >= 1, m
    s = s.replace(m["old"], m["new"], 1); open(p, "w").write(s)
    subprocess.run("coq_makefile -f _CoqProject -o Makefile", shell=True, cwd=SCR, stdout=subprocess.DEVNULL)
    r = subprocess.run(f"ulimit -v 7000000; timeout {m.get('timeout', 900)} make {KEEP} -j2 > make.out 2>&1", shell=True, cwd=SCR)
    for pid in os.listdir("/proc"):   # a prover that outlives make
        try:
            if pid.isdigit() and int(pid) != os.getpid() and os.readlink(f"/proc/{pid}/cwd") == SCR: os.kill(int(pid), 9)
        except OSError: pass
    r.stdout = open(os.path.join(SCR, "make.out")).read()
    failed = []
    for f, ln in re.findall(r'File "\./(theories/[\w/]+\.v)", line (\d+), characters [\d-]+:\nError', r.stdout):
        failed.append(f"{f[9:-2]}:{enclosing(os.path.join(SCR, f), int(ln))}")
    killed = re.findall(r"\[Makefile:\d+: (theories/[\w/]+\.vo)\] (?:Error 137|Error 124|Killed)", r.stdout)
    failed += [k + " (no answer)" for k in killed]
    notbuilt = []   # with MUTFAST the build stops at the first failure, so this is not known
    for line in [] if os.environ.get("MUTFAST") else open(os.path.join(SCR, "_CoqProject")):
        line = line.strip()
        if line.startswith("theories/Properties") and not os.path.exists(os.path.join(SCR, line + "o")): notbuilt.append(line[9:-2])
    rec = {"definition": m["def"], "edit": m["edit"], "claim_broken": m["breaks"],
           "theorems_failed": failed, "property_files_not_built": notbuilt, "tightened": m.get("tightened", [])}
    print(json.dumps(rec), flush=True)
    if "--dry" not in sys.argv:
        open("/verif/seeded/LOG.jsonl", "a").write(json.dumps(rec) + "\n")
