#!/usr/bin/env python3
"""Mutates definitions of the model at random and looks which theorems stop proving.
Usage: automutate.py SEED COUNT [FILE...].  Each mutant is one small edit (a comparison, a connective, a
constant, an exception, a variable of an earlier state, a condition negated) of one definition, in a
scratch copy.  Ill-typed mutants are dropped.  One line per mutant goes to seeded/LOG.jsonl.  Survivors
are to be looked at: an edit may be without effect, or a theorem too weak."""
import json, os, random, re, shutil, subprocess, sys
ROOT = "/verif"; BASE = "/tmp/am/base"; WORK = "/tmp/am/work"
MODEL = ("MemCache MemCacheConc Humanize Config ConfigMem Float64 GridSpec Index Db Regrid Dispatch Disk Protocol Key CacheFile Policy HumanBytes "
         "Manager Stream Mir Builder Inventory System Remote Xarray Api ApiRemote Every Pages BuildDb XarrayApi PyStr Docs Helpers Startup Show MirCalls RemoteOff DbConc ConfigConc SaveConc SettingsConc FileConc PolicyConc Scripts RemoteConc MakerConc FlagConc PairConc Installed").split()
seed, count = int(sys.argv[1]), int(sys.argv[2]); files = sys.argv[3:] or MODEL
rnd = random.Random(seed)
def sh(c, cwd, t=3600): return subprocess.run(c, shell=True, cwd=cwd, capture_output=True, text=True, timeout=t)
def blank(s):  # comments replaced by spaces
    out, d, i = list(s), 0, 0
    while i < len(s):
        if s.startswith("(*", i): d += 1; out[i] = out[i+1] = " "; i += 2; continue
        if d and s.startswith("*)", i): d -= 1; out[i] = out[i+1] = " "; i += 2; continue
        if d and s[i] != "\n": out[i] = " "
        i += 1
    return "".join(out)
EXN = "ValueError KeyError TypeError IndexError AttributeError OverflowError AssertionError FileNotFoundError NotImplementedError RuntimeError".split()
def sites(body):
    R = []
    def add(a, b, new): R.append((a, b, new))
    instr = [(m.start(), m.end()) for m in re.finditer(r'"[^"]*"', body)]
    inside = lambda i: any(a <= i < b for a, b in instr)
    for m in re.finditer(r"<=\?|<\?|&&|\|\||\bnegb\b|\btrue\b|\bfalse\b|\bfst\b|\bsnd\b|\bfirstn\b|\bskipn\b|\bZ\.min\b|\bZ\.max\b|\bNat\.min\b|\bNat\.max\b|\bexistsb\b|\bforallb\b|\+ 1\b|- 1\b", body):
        if inside(m.start()): continue
        t = m.group(0)
        new = {"<=?": "<?", "<?": "<=?", "&&": "||", "||": "&&", "negb": "(fun b : bool => b)", "true": "false", "false": "true", "fst": "snd", "snd": "fst", "firstn": "skipn", "skipn": "firstn",
               "Z.min": "Z.max", "Z.max": "Z.min", "Nat.min": "Nat.max", "Nat.max": "Nat.min", "existsb": "forallb", "forallb": "existsb", "+ 1": "+ 2", "- 1": "- 0"}[t]
        add(m.start(), m.end(), new)
    for m in re.finditer(r"\b(\d+)\b", body):
        if not inside(m.start()): add(m.start(), m.end(), str(int(m.group(1)) + 1))
    for m in re.finditer(r"Raise (\w+)", body):
        if m.group(1) in EXN: add(m.start(), m.end(), "Raise " + rnd.choice([e for e in EXN if e != m.group(1)]))
    for m in re.finditer(r"\bif ([^\n]*?) then\b", body): add(m.start(), m.end(), "if negb (%s) then" % m.group(1))
    for m in re.finditer(r"=> (\([^()]*\)|\w+)(?=\s*(?:\||end))", body): pass
    for m in re.finditer(r"\b([a-z]+)([1-9])\b", body):
        if not inside(m.start()):
            n = int(m.group(2)); add(m.start(), m.end(), m.group(1) + (str(n - 1) if n > 1 else ""))
    for a, b in instr:
        if b - a > 2: add(a, b, body[a:b-1] + "z\"")
        else: add(a, b, '"z"')
    for m in re.finditer(r"(?<![\w.'])([a-z_]\w*) ([a-z]\w*) ([a-z]\w*)(?![\w'])", body):
        if m.group(1) in ("let", "if", "then", "else", "match", "fun", "forall", "exists", "in", "with", "end", "as", "return") or inside(m.start()): continue
        if {m.group(2), m.group(3)} & {"in", "then", "else", "with", "end", "match", "let", "if", "fun", "as"}: continue
        if m.group(2) != m.group(3): add(m.start(), m.end(), "%s %s %s" % (m.group(1), m.group(3), m.group(2)))
    return R
os.makedirs(BASE, exist_ok=True)
for d, _, fs in os.walk(ROOT + "/rocq"):
    for f in fs:
        if f.endswith(".v") or f == "_CoqProject":
            s = os.path.join(d, f); t = s.replace(ROOT + "/rocq", BASE)
            os.makedirs(os.path.dirname(t), exist_ok=True)
            if not os.path.exists(t) or open(t).read() != open(s).read(): shutil.copy(s, t)
r = sh("coq_makefile -f _CoqProject -o Makefile && make -j3", BASE)
if r.returncode: print(r.stderr[-2000:]); sys.exit("baseline does not build")
if not os.path.exists(WORK): subprocess.run(["cp", "-a", BASE, WORK], check=True)
def restore():
    """Puts the scratch copy back to the baseline: sources and compiled files that differ in time."""
    for d, _, fs in os.walk(BASE):
        for f in fs:
            s = os.path.join(d, f); t = s.replace(BASE, WORK)
            if not os.path.exists(t) or os.stat(t).st_mtime_ns != os.stat(s).st_mtime_ns or os.stat(t).st_size != os.stat(s).st_size:
                os.makedirs(os.path.dirname(t), exist_ok=True); shutil.copy2(s, t)
cands = []
for f in files:
    s = open(BASE + "/theories/" + f + ".v").read(); c = blank(s)
    for m in re.finditer(r"^[ \t]*(?:Definition|Fixpoint)\s+([\w']+)(.*?)\.(?=\s)(?=\s*\n)", c, re.M | re.S):
        b0 = m.start(2)
        k = c.find(":=", b0, m.end())
        if k < 0: continue
        S = [(k + a, k + b, n) for a, b, n in sites(c[k:m.end()])]
        if S: cands.append((f, m.group(1), S, m.start(), m.end()))
def enclosing(path, line):
    for l in reversed(open(path).read().split("\n")[:line]):
        m = re.match(r"\s*(?:Theorem|Lemma|Corollary|Example|Definition|Fixpoint|Fact|Remark)\s+([\w']+)", l)
        if m: return m.group(1)
    return "?"
print(len(cands), "definitions", sum(len(c[2]) for c in cands), "sites", flush=True)
done = 0
while done < count:
    f, name, S, a0, b0 = rnd.choice(cands); a, b, new = rnd.choice(S)
    restore()
    p = WORK + "/theories/" + f + ".v"; s = open(p).read()
    ctx = re.sub(r"\s+", " ", s[max(a0, a-40):a] + "[" + s[a:b] + " => " + new + "]" + s[b:min(b0, b+30)])
    open(p, "w").write(s[:a] + new + s[b:])
    if sh("timeout 300 coqc -Q theories Verif theories/%s.v" % f, WORK).returncode:
        r = sh("timeout 300 coqc -Q theories Verif theories/%s.v" % f, WORK); m = re.search(r'line (\d+)', r.stderr)
        if m and s[:a0].count("\n") + 1 <= int(m.group(1)) <= s[:b0].count("\n") + 1 or "not found" in r.stderr: continue  # ill-typed
    try: r = sh("ulimit -v 6000000; timeout 1200 make -j2", WORK)
    except subprocess.TimeoutExpired: continue
    bad = []
    for g, ln in re.findall(r'File "\./(theories/[\w.]+)", line (\d+)[^\n]*\nError', r.stderr):
        n = os.path.basename(g)[:-2] + "." + enclosing(WORK + "/" + g, int(ln))
        if n not in bad: bad.append(n)
    out = "killed" if r.returncode else "SURVIVED"
    print(out, "|", f, "|", name, "|", ctx, "->", bad, flush=True)
    with open(ROOT + "/seeded/LOG.jsonl", "a") as g:
        g.write(json.dumps({"definition": name, "edit": "automatic: " + ctx, "claim_broken": "of the theorems that failed" if r.returncode else "to be looked at", "failed": bad, "outcome": out, "tightened": []}) + "\n")
    done += 1
