#!/usr/bin/env python3
"""Mutation testing.  Usage: mutate.py MUTANTS.json [JOBS]
MUTANTS.json: list of {"definition","file","old","new","edit","claim"}.
For each mutant a scratch copy of rocq/ is edited and compiled.  A lemma whose proof
breaks is replaced by an admitted one (in the scratch copy only) and compilation goes on;
the property theorems that then depend on an admitted lemma are the ones that failed.
One JSON line per mutant is appended to seeded/LOG.jsonl."""
import json, os, re, shutil, subprocess, sys
from multiprocessing import Pool
here = os.path.dirname(os.path.abspath(__file__))
SRC = os.environ.get("MUT_SRC", os.path.join(here, "..", "rocq"))
LOG = os.path.join(here, "..", "seeded", "LOG.jsonl")
WORK = "/tmp/mutant"
HEAD = re.compile(r"^(Theorem|Lemma|Example|Corollary|Definition|Fixpoint)\s+([A-Za-z0-9_']+)", re.M)

def order():
    return [l.strip() for l in open(os.path.join(SRC, "_CoqProject")) if l.strip().endswith(".v")]

def coqc(f):
    try:
        return subprocess.run(["timeout", "300", "coqc", "-Q", "theories", "Verif", f], cwd=WORK, capture_output=True, text=True)
    except Exception as e:
        return None

def deps():
    out = subprocess.run(["coqdep", "-Q", "theories", "Verif"] + order(), cwd=WORK, capture_output=True, text=True).stdout
    d = {}
    for l in out.splitlines():
        m = re.match(r"(theories/\w+)\.vo .*?: (.*)", l)
        if m: d[m.group(1) + ".v"] = [x[:-1] for x in m.group(2).split() if x.endswith(".vo")]
    return d

def run(m):
    global WORK
    WORK = "/tmp/mutant%d" % os.getpid()
    if os.path.exists(WORK): shutil.rmtree(WORK)
    shutil.copytree(SRC, WORK)
    p = os.path.join(WORK, "theories", m["file"])
    s = open(p).read()
    assert s.count(m["old"]) == 1, (m["definition"], s.count(m["old"]))
    open(p, "w").write(s.replace(m["old"], m["new"]))
    failed, broken, dirty = [], [], {"theories/" + m["file"]}
    props = set()
    d = deps()
    for f in order():
        if f not in dirty and not any(x in dirty for x in d.get(f, [])): continue
        dirty.add(f)
        if any(x in broken for x in d.get(f, [])): broken.append(f); continue
        for _ in range(60):
            r = coqc(f)
            if r.returncode == 0: break
            e = re.search(r"line (\d+), characters", r.stderr)
            if not e:
                broken.append(f); failed.append(os.path.basename(f) + ": " + (r.stderr.strip()[-200:] or "timeout")); break
            src = open(os.path.join(WORK, f)).read()
            pos = sum(len(x) + 1 for x in src.split("\n")[:int(e.group(1)) - 1]) + 1
            # last header at or before the error
            hs = [h for h in HEAD.finditer(src) if h.start() <= pos]
            if not hs: broken.append(f); failed.append(f); break
            h = hs[-1]
            rest = src[h.start():]
            pr = re.search(r"\bProof\.(.*?)\b(Qed|Defined)\.", rest, re.S)
            nxt = HEAD.search(rest, 1)
            if not pr or (nxt and nxt.start() < pr.start()) or int(e.group(1)) - 1 < src[:h.start() + pr.start()].count("\n"):
                broken.append(f); failed.append(h.group(2) + " (does not typecheck)"); break
            failed.append(h.group(2))
            new = rest[:pr.start()] + "Admitted." + rest[pr.end():]
            open(os.path.join(WORK, f), "w").write(src[:h.start()] + new)
        else:
            broken.append(f)
        if os.path.basename(f).startswith("Prop_") and f not in broken:
            src = open(os.path.join(WORK, f)).read()
            names = re.findall(r"^Print Assumptions ([A-Za-z0-9_']+)\.", src, re.M)
            chunks = re.split(r"(?m)^(?=Closed under the global context|Axioms:)", r.stdout)[1:]
            for n, c in zip(names, chunks):
                if c.startswith("Axioms:") and any(re.search(r"^(\w+\.)*%s\b" % re.escape(x), c, re.M) for x in failed): props.add(n)
        elif os.path.basename(f).startswith("Prop_"):
            props.add(os.path.basename(f))
    for b in broken:
        if os.path.basename(b).startswith("Prop_"): props.add(os.path.basename(b) + " (all)")
    return failed, sorted(props)

def one(m):
    failed, props = run(m)
    return m, failed, props

if __name__ == "__main__":
    jobs = int(sys.argv[2]) if len(sys.argv) > 2 else 1
    with Pool(jobs) as pool:
        for m, failed, props in pool.imap(one, json.load(open(sys.argv[1])), chunksize=1):
            rec = dict(definition=m["definition"], edit=m["edit"], claim_broken=m["claim"],
                       theorems_failed=props, lemmas_failed=failed, theorems_tightened=m.get("tightened", []))
            print(json.dumps(rec), flush=True)
            with open(LOG, "a") as f: f.write(json.dumps(rec) + "\n")
