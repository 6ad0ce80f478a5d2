#!/usr/bin/env python3
"""Test the theorems against wrong programs.

usage: mutate.py MUTANTS.json RESULTS.jsonl

Each mutant edits one definition of the model in a scratch copy (/tmp/mut/work,
outside /verif).  The copy is rebuilt; a lemma whose proof breaks is replaced by
Admitted and the build goes on, so that the Print Assumptions below each theorem
shows exactly the theorems whose proofs rest on something that broke.

A mutant may name "targets", the files P_*.v with the theorems that should notice
it.  Only these are built then, and the others only if no theorem in them fails.
"""
from concurrent.futures import ThreadPoolExecutor
import json, os, re, shutil, subprocess, sys, time

MUT = os.environ.get("MUT", "/tmp/mut")
BASE, WORK = MUT + "/base", MUT + "/work"
SRC = "/verif/rocq"

def sh(cmd, cwd, timeout=3000):
    return subprocess.run(cmd, cwd=cwd, shell=True, capture_output=True, text=True, timeout=timeout)

def prepare():
    if os.path.exists(BASE + "/ok"):
        return
    shutil.rmtree(BASE, ignore_errors=True)
    shutil.copytree(SRC, BASE)
    sh("rm -f theories/*.vo* theories/*.glob theories/.*.aux Makefile*", BASE)
    sh("coq_makefile -f _CoqProject -o Makefile", BASE)
    r = sh("make -j4", BASE)
    assert r.returncode == 0, r.stderr[-2000:]
    open(BASE + "/ok", "w").close()

START = re.compile(r"^(Lemma|Theorem|Example|Corollary|Fact|Remark)\s+([A-Za-z0-9_']+)", re.M)
def admit(path, line):
    """Replace the proof around the line by Admitted; its name, or None."""
    src = open(path).read()
    pos = sum(len(l) + 1 for l in src.split("\n")[:line - 1])
    pos_end = src.find("\n", pos)
    last = None
    for m in START.finditer(src):
        if m.start() <= (pos_end if pos_end >= 0 else len(src)):
            last = m
    if last is None:
        return None
    p = re.compile(r"\bProof\b[^.]*\.").search(src, last.end())
    q = re.compile(r"\b(Qed|Defined)\.").search(src, last.end())
    if q is None or q.end() <= pos:
        return None
    if p is None or p.start() > q.start():
        return None
    mid = src[p.start():q.end()]
    new = "Admitted." + "\n" * mid.count("\n")
    open(path, "w").write(src[:p.start()] + new + src[q.end():])
    return last.group(2)

def run(m):
    if m.get("targets"):
        r = attempt(m, m["targets"])
        if r.get("error") or r["failed"] or r["stuck"]:
            return r
    return attempt(m, [])

def attempt(m, targets):
    shutil.rmtree(WORK, ignore_errors=True)
    subprocess.run(["cp", "-a", BASE, WORK], check=True)
    f = f"{WORK}/theories/{m['file']}"
    src = open(f).read()
    n = src.count(m["old"])
    if n != 1:
        return {"error": f"{n} matches"}
    open(f, "w").write(src.replace(m["old"], m["new"]))
    broken, t0, out, stuck = [], time.time(), "", []
    for rnd in range(80):
        r = sh("make -k -j4 TIMECMD='timeout 300' " + " ".join(f"theories/{t}.vo" for t in targets), WORK)
        out += r.stdout
        if r.returncode == 0:
            break
        errs = re.findall(r'File "\./theories/([A-Za-z0-9_]+\.v)", line (\d+), characters [0-9-]+:\n\s*Error', r.stdout + r.stderr)
        done = False
        for fn, ln in sorted(set(errs)):
            name = admit(f"{WORK}/theories/{fn}", int(ln))
            if name is None:
                if (fn, ln) not in stuck: stuck.append((fn, ln))
            else:
                broken.append(f"{fn[:-2]}.{name}")
                done = True
        if not done:
            killed = re.findall(r"\[Makefile:\d+: theories/([A-Za-z0-9_]+)\.vo\] (?:Error|Terminated|Killed)", r.stderr)
            stuck.append(("timeout or other", ",".join(killed), (r.stderr)[-300:]))
            break
    # theorems whose Print Assumptions mentions an admitted lemma
    failed = []
    names = {b.split(".")[1] for b in broken}
    ps = [fn for fn in sorted(os.listdir(WORK + "/theories")) if fn.startswith("P_") and fn.endswith(".v")]
    def stamp(d, fn):
        p = f"{d}/theories/{fn}o"
        return os.path.getmtime(p) if os.path.exists(p) else None
    ps = [fn for fn in ps if not targets or fn[:-2] in targets]
    ps = [fn for fn in ps if stamp(WORK, fn) != stamp(BASE, fn)]
    with ThreadPoolExecutor(4) as ex:
        res = list(ex.map(lambda fn: sh(f"coqc -Q theories Verif -o {MUT}/out/{fn}o theories/{fn}", WORK), ps))
    for fn, r in zip(ps, res):
        src = open(f"{WORK}/theories/{fn}").read()
        order = re.findall(r"^Print Assumptions ([A-Za-z0-9_']+)\.", src, re.M)
        chunks = re.split(r"^(?=Closed under the global context|Axioms:)", r.stdout, flags=re.M)[1:]
        for th, c in zip(order, chunks):
            if c.startswith("Axioms"):
                failed.append(th)
        if len(chunks) < len(order):
            failed += [th + " (not reached)" for th in order[len(chunks):]]
    failed += sorted(n for n in names if re.match(r"C\d\d+_", n) and n not in failed)
    return {"broken": broken, "failed": failed, "stuck": [str(s) for s in stuck], "secs": round(time.time() - t0)}

def main():
    muts = json.load(open(sys.argv[1]))
    done = set()
    if os.path.exists(sys.argv[2]):
        done = {json.loads(l)["id"] for l in open(sys.argv[2])}
    prepare()
    os.makedirs(MUT + "/out", exist_ok=True)
    for m in muts:
        if m["id"] in done:
            continue
        try:
            r = run(m)
        except subprocess.TimeoutExpired:
            r = {"error": "timeout"}
        with open(sys.argv[2], "a") as o:
            o.write(json.dumps({**m, **r}) + "\n")
        print(m["id"], r.get("error") or (r["secs"], r["broken"][:3], [f for f in r["failed"]][:6], r["stuck"][:1]), flush=True)

main()
