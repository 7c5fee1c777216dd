#!/usr/bin/env python3
"""Try wrong programs: apply each edit of a JSON file to a scratch copy of rocq/, rebuild, and report
which theorems no longer prove.

usage: mutate.py EDITS.json [--log] [--only N] [--from N] [--to N]

EDITS.json: [{"file": "Tree.v", "definition": "...", "old": "...", "new": "...", "claim": "..."}]
An edit with "until": ["PropsTree.v"] rebuilds only what those files need.
In the scratch copy a proof that fails is admitted and the build goes on, so that every theorem that
depends on a failed proof shows up (Print Assumptions lists the admitted lemma)."""
import json, os, re, shutil, subprocess, sys, time

HERE = os.path.dirname(os.path.abspath(__file__))
ROCQ = os.environ.get("MUT_SRC", os.path.join(HERE, "..", "rocq"))
SCR = os.environ.get("MUT", "/tmp/mut")
LOG = os.path.join(HERE, "..", "seeded", "LOG.jsonl")
START = re.compile(r"^\s*(?:#\[[^\]]*\]\s*)?(?:Global |Local )?(Lemma|Theorem|Example|Instance|Corollary|Fact)\s+([\w']+)", re.M)
BUDGET = int(os.environ.get("MUT_BUDGET", "1500"))  # seconds for one edit
LIMIT = int(os.environ.get("MUT_TIMEOUT", "200"))

def order():
    fs = [l.strip() for l in open(os.path.join(SCR, "_CoqProject")) if l.strip().endswith(".v")]
    out = subprocess.run(["coqdep", "-sort", "-Q", "theories", "Verif"] + fs, cwd=SCR, capture_output=True, text=True).stdout
    return [os.path.normpath(f) for f in out.split()]

def deps():
    out = subprocess.run("coqdep -Q theories Verif theories/*.v", shell=True, cwd=SCR, capture_output=True, text=True).stdout
    d = {}
    for l in out.splitlines():
        m = re.match(r"(theories/\w+)\.vo.*?: (.*)", l)
        if m:
            d[m.group(1) + ".v"] = [x[:-1] for x in m.group(2).split() if x.startswith("theories/") and x.endswith(".vo")]
    return d

def compile1(f):
    try:
        r = subprocess.run(["bash", "-c", "ulimit -v 9000000; exec timeout %d coqc -q -Q theories Verif %s" % (LIMIT, f)],
                           cwd=SCR, capture_output=True, text=True)
    except Exception as e:
        return 1, str(e)
    return r.returncode, r.stdout + "\n" + r.stderr

def admit(f, line, name=None):
    """admit the proof enclosing `line` (1-based); returns its name or None"""
    p = os.path.join(SCR, f)
    s = open(p).read()
    pos = sum(len(l) for l in s.splitlines(True)[:line - 1]) + 1
    best = None
    for m in START.finditer(s):
        if m.start() <= pos + 400 and s.count("\n", 0, m.start()) + 1 <= line:
            best = m
    if best is None: return None
    i = best.start()
    m1 = re.compile(r"\bProof\b[^.]*\.").search(s, i)
    m2 = re.compile(r"\b(Qed|Defined|Admitted)\.").search(s, i)
    if not m1 or not m2 or m1.start() > m2.start() or m2.group(1) == "Admitted": return None
    body = s[m1.start():m2.end()]
    new = "Admitted." + "\n" * body.count("\n")
    open(p, "w").write(s[:m1.start()] + new + s[m2.end():])
    return best.group(2)

def times():
    """last failing sentence of a timed out file: the enclosing proof"""
    return None

def run(e):
    f = "theories/" + e["file"]
    shutil.rmtree(SCR, ignore_errors=True)
    shutil.copytree(ROCQ, SCR)
    p = os.path.join(SCR, f)
    s = open(p).read()
    if s.count(e["old"]) != 1:
        return {"error": "old text occurs %d times" % s.count(e["old"])}
    open(p, "w").write(s.replace(e["old"], e["new"]))
    D, O = deps(), order()
    want = None
    if "until" in e:
        want, todo = set(), ["theories/" + x for x in e["until"]]
        while todo:
            g = todo.pop()
            if g in want: continue
            want.add(g)
            todo += D.get(g, [])
    dirty = set()
    failed, theorems, stuck = [], [], []
    begin = time.time()
    for g in O:
        if want is not None and g not in want: continue
        if g == f or any(d in dirty for d in D.get(g, [])):
            dirty.add(g)
        else:
            continue
        while True:
            rc, out = compile1(g)
            if rc == 0: break
            m = None
            for m in re.finditer(r'File "\./?([^"]*)", line (\d+)', out): pass
            if m is None:
                # timed out: find the sentence
                r = subprocess.run(["bash", "-c", "ulimit -v 9000000; timeout %d coqc -q -time -Q theories Verif %s" % (LIMIT, g)],
                                   cwd=SCR, capture_output=True, text=True)
                last = 0
                for t in re.finditer(r"^Chars (\d+) - (\d+)", r.stdout, re.M): last = int(t.group(2))
                b = open(os.path.join(SCR, g), "rb").read()[:last + 2]
                line = b.decode("utf8", "ignore").count("\n") + 1
            else:
                line = int(m.group(2))
            n = admit(g, line)
            if n is None:
                stuck.append(g + ": " + " ".join(out.split())[-200:])
                break
            failed.append(n)
            if time.time() - begin > BUDGET:
                stuck.append(g + ": time is up")
                break
        if rc != 0: break
        src = open(os.path.join(SCR, g)).read()
        if time.time() - begin > BUDGET: stuck.append(g + ": time is up")
        names = re.findall(r"^Print Assumptions ([\w']+)\.", src, re.M)
        blocks = re.findall(r"(Closed under the global context|Axioms:(?:\n(?!Closed|Axioms:).*)*)", out)
        for n, b in zip(names, blocks):
            if b.startswith("Axioms"): theorems.append(n)
        theorems += [x for x in failed if re.match(r"C\d\d\w*_sat", x) and x not in theorems]
        if stuck: break
    return {"theorems": theorems, "lemmas": failed, "stuck": stuck}

if __name__ == "__main__":
    edits = json.load(open(sys.argv[1]))
    only = sys.argv[sys.argv.index("--only") + 1] if "--only" in sys.argv else None
    for k, e in enumerate(edits):
        if only is not None and str(k) != only: continue
        if "--from" in sys.argv and k < int(sys.argv[sys.argv.index("--from") + 1]): continue
        if "--to" in sys.argv and k >= int(sys.argv[sys.argv.index("--to") + 1]): continue
        r = run(e)
        print(k, e["definition"], "|", e["claim"], "\n   ", json.dumps(r)[:1500], flush=True)
        if "--log" in sys.argv and "error" not in r:
            rec = {"definition": e["file"] + ": " + e["definition"], "edit": e.get("edit") or (e["old"] + "  ==>  " + e["new"]),
                   "claim_broken": e["claim"], "theorems_failed": r["theorems"], "first_lemmas_failed": r["lemmas"][:4],
                   "theorems_tightened": e.get("tightened", [])}
            if r["stuck"]: rec["build_stopped_at"] = r["stuck"][0].split(":")[0]
            open(LOG, "a").write(json.dumps(rec) + "\n")
