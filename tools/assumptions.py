#!/usr/bin/env python3
"""Ask Coq for the assumptions of every theorem of MANIFEST.json and write them to
ASSUMPTIONS.md.  Needs a build in rocq/."""
import json, os, re, subprocess, tempfile
ROOT = os.path.dirname(os.path.dirname(os.path.abspath(__file__)))
claims = json.load(open(os.path.join(ROOT, "MANIFEST.json")))["claims"]
where = {}
for f in sorted(os.listdir(os.path.join(ROOT, "rocq/theories"))):
    if f.endswith(".v"):
        for m in re.finditer(r"^\s*(?:Theorem|Lemma|Corollary)\s+(C\d\d\w*)", open(os.path.join(ROOT, "rocq/theories", f)).read(), re.M):
            where[m.group(1)] = f[:-2]
names = []
for c in claims:
    for t in c["theorems"]:
        if t not in names:
            names.append(t)
with tempfile.TemporaryDirectory() as d:
    v = os.path.join(d, "A.v")
    with open(v, "w") as o:
        for f in sorted(set(where[t] for t in names)):
            o.write(f"From Verif Require {f}.\n")
        for t in names:
            o.write(f'Goal True. idtac "@@ {t}". exact I. Qed.\nPrint Assumptions Verif.{where[t]}.{t}.\n')
    out = subprocess.run(["coqc", "-q", "-Q", os.path.join(ROOT, "rocq/theories"), "Verif", v],
                         capture_output=True, text=True, cwd=d)
    assert out.returncode == 0, out.stderr[-2000:]
groups, cur = {}, None
res = {}
for line in out.stdout.splitlines():
    if line.startswith("@@ "):
        cur = line[3:]; res[cur] = []
    elif cur:
        m = re.match(r"^([A-Za-z_][\w.']*)\s*:", line) or re.match(r"^([A-Za-z_][\w.']*)$", line)
        if m and m.group(1) not in ("Axioms",):
            res[cur].append(m.group(1))
for t in names:
    groups.setdefault(tuple(sorted(res[t])), []).append(t)
with open(os.path.join(ROOT, "ASSUMPTIONS.md"), "w") as o:
    o.write("# What Print Assumptions lists\n\nWritten by tools/assumptions.py from Coq's answers, for every theorem named in MANIFEST.json.\n\n")
    for k, ts in sorted(groups.items(), key=lambda x: len(x[0])):
        o.write("## " + ("Closed under the global context" if not k else ", ".join(f"`{a}`" for a in k)) + f" ({len(ts)})\n\n")
        for t in ts:
            o.write(f"* `{t}` ({where[t]}.v)\n")
        o.write("\n")
print({k: len(v) for k, v in groups.items()})
