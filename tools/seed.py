#!/usr/bin/env python3
"""Seeded-bug runner.  Usage: seed.py ROUND.json
ROUND.json: list of {"file","old","new","definition","edit","claim"}; each edit is applied to a
scratch copy of the model, which is rebuilt; the lemmas that stop proving are reported and one
line per attempt is appended to seeded/LOG.jsonl (use --dry to only print)."""
import json, os, re, shutil, subprocess, sys
ROOT = "/verif"; BASE = "/tmp/seed_base"; WORK = "/tmp/seed_work"
dry = "--dry" in sys.argv
rounds = [a for a in sys.argv[1:] if not a.startswith("--")]
def sh(c, cwd, t=3600): return subprocess.run(c, shell=True, cwd=cwd, capture_output=True, text=True, timeout=t)
def sync(a, b): subprocess.run(["rsync", "-a", "--delete", a + "/", b + "/"], check=True) if shutil.which("rsync") else (shutil.rmtree(b, ignore_errors=True), subprocess.run(["cp", "-a", a, b], check=True))
os.makedirs(BASE, exist_ok=True)
# refresh the baseline: only files whose text changed
for d, _, fs in os.walk(ROOT + "/rocq"):
    for f in fs:
        if f.endswith(".v") or f == "_CoqProject":
            s = os.path.join(d, f); t = s.replace(ROOT + "/rocq", BASE)
            os.makedirs(os.path.dirname(t), exist_ok=True)
            if not os.path.exists(t) or open(t).read() != open(s).read(): shutil.copy(s, t)
r = sh("coq_makefile -f _CoqProject -o Makefile && make -j4", BASE)
if r.returncode: print(r.stderr[-3000:]); sys.exit("baseline does not build")
def enclosing(path, line):
    L = open(path).read().split("\n")[:line]
    for l in reversed(L):
        m = re.match(r"\s*(?:Theorem|Lemma|Corollary|Example|Definition|Fixpoint|Fact|Remark)\s+([\w']+)", l)
        if m: return m.group(1)
    return "?"
for rf in rounds:
    for m in json.load(open(rf)):
        sync(BASE, WORK)
        p = WORK + "/theories/" + m["file"]; s = open(p).read()
        if s.count(m["old"]) < 1: print("NOT FOUND:", m["definition"], m["old"][:60]); continue
        k = m.get("nth", 0); parts = s.split(m["old"])
        s = m["old"].join(parts[:k+1]) + m["new"] + m["old"].join(parts[k+1:])
        open(p, "w").write(s)
        try: r = sh("ulimit -v 5000000; timeout 900 make -k -j3", WORK)
        except subprocess.TimeoutExpired: print("TIMEOUT", m["edit"]); continue
        bad = []
        for f, ln in re.findall(r'File "\./(theories/[\w.]+)", line (\d+)[^\n]*\nError', r.stderr):
            n = os.path.basename(f)[:-2] + "." + enclosing(WORK + "/" + f, int(ln))
            if n not in bad: bad.append(n)
        blocked = sorted({os.path.basename(x)[:-3] for x in re.findall(r"(theories/Props_\w+\.vo)", r.stderr)})
        props = [f[:-2] for f in sorted(os.listdir(WORK + "/theories")) if f.startswith("Props_") and f.endswith(".v")
                 and (not os.path.exists(WORK + "/theories/" + f + "o") or os.path.getmtime(WORK + "/theories/" + f + "o") < os.path.getmtime(p) and r.returncode)]
        entry = {"definition": m["definition"], "edit": m["edit"], "claim_broken": m["claim"], "failed": bad,
                 "outcome": "killed" if r.returncode else "SURVIVED", "tightened": m.get("tightened", [])}
        print(entry["outcome"], "|", m["definition"], "|", m["edit"], "->", bad, flush=True)
        if not dry:
            with open(ROOT + "/seeded/LOG.jsonl", "a") as g: g.write(json.dumps(entry) + "\n")
