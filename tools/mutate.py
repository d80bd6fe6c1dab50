#!/usr/bin/env python3
"""Run seeded-bug experiments in a scratch copy.

usage: mutate.py mutations.json out.jsonl
Each mutation: {"id","file","definition","old","new","edit","claim","expect":[ids]}.
The edited model is rebuilt; every lemma whose proof breaks is admitted in the scratch copy
and the build goes on, so that in the end `Print Assumptions` on the property theorems tells
exactly which of them rest on a broken lemma (these are the theorems that fail)."""
import sys, os, re, json, subprocess, shutil, glob, time, concurrent.futures
SRC = os.environ.get("MUTSRC", "/verif/rocq"); W = os.environ.get("MUTDIR", "/tmp/mut/w")
J = os.environ.get("MUTJ", "4")
# optional: property modules to rebuild (e.g. "Prop_read Prop_serde"); default all
T = os.environ.get("MUTTGT", "").split()
START = re.compile(r"^(?:Local |Global |#\[[^\]]*\] *)*(?:Lemma|Theorem|Example|Fact|Corollary|Remark|Proposition)\s+(\w+)", re.M)
END = re.compile(r"\b(Qed|Defined|Admitted|Abort)\.")

def enclosing(path, line=None, char=None):
    s = open(path).read()
    if char is None:
        char = sum(len(l) + 1 for l in s.split("\n")[:line - 1])
    b = s.encode(); 
    best = None
    for m in START.finditer(s):
        if m.start() <= char: best = m
        else: break
    if not best: return None
    e = END.search(s, best.end())
    if not e or e.end() < char: return None
    return best.group(1), best.start(), e.end()

def admit(path, info):
    name, a, b = info
    s = open(path).read()
    body = s[a:b]
    m = re.search(r"^\s*Proof\b|(?<=\.)\s*Proof\b", body, re.M)
    if not m: return False
    new = body[:m.start()] + "\nAdmitted."
    if new == body: return False
    open(path, "w").write(s[:a] + new + s[b:])
    return True

def one(mu):
    shutil.rmtree(W, ignore_errors=True)
    shutil.copytree(SRC, W, copy_function=shutil.copy2)
    f = os.path.join(W, "theories", mu["file"])
    s = open(f).read()
    if s.count(mu["old"]) != 1:
        return {"id": mu["id"], "error": "pattern occurs %d times" % s.count(mu["old"])}
    open(f, "w").write(s.replace(mu["old"], mu["new"]))
    failed = []; stuck = []; t0 = time.time() - 1
    for rnd in range(80):
        p = subprocess.run(["make", "-k", "-j" + J] + ["theories/%s.vo" % t for t in T] + ["COQC=" + os.path.dirname(os.path.abspath(__file__)) + "/limcoqc.sh"], cwd=W, capture_output=True, text=True)
        out = p.stdout + p.stderr
        if p.returncode == 0: break
        progress = False
        errs = re.findall(r'File "\./theories/(\w+\.v)", line (\d+), characters[^\n]*\n(?:Error|[^F]*?Error)', out)
        seen = set()
        for fn, ln in errs:
            if fn in seen: continue
            seen.add(fn)
            path = os.path.join(W, "theories", fn)
            if fn.startswith("Prop_"): continue
            info = enclosing(path, line=int(ln))
            if info and admit(path, info):
                failed.append(fn[:-2] + "." + info[0]); progress = True
            else:
                stuck.append("%s:%s" % (fn, ln))
        if not progress:
            for fn in set(re.findall(r"theories/(\w+)\.vo\] (?:Error|Killed)", out)) - {e[0][:-2] for e in errs}:
                q = subprocess.run("ulimit -v 7000000; timeout 150 coqc -time -Q theories Verif theories/%s.v | grep -o '^Chars [0-9]* - [0-9]*' | tail -1" % fn,
                                   shell=True, cwd=W, capture_output=True, text=True).stdout.split()
                if len(q) == 4:
                    path = os.path.join(W, "theories", fn + ".v")
                    # byte offset -> char offset
                    ch = len(open(path, "rb").read()[:int(q[3])].decode("utf8", "ignore"))
                    info = enclosing(path, char=ch)
                    if info and admit(path, info):
                        failed.append(fn + "." + info[0] + " (timeout)"); progress = True
        if not progress: stuck.append("no progress: " + out[-600:]); break
    # which property theorems rest on an admitted lemma
    names = []
    mods = []
    for pf in sorted(glob.glob(W + "/theories/Prop_*.v")):
        mod = os.path.basename(pf)[:-2]
        if T and mod not in T: continue
        if not os.path.exists(pf + "o"):
            stuck.append(mod + " not built"); continue
        mods.append(mod)
        names += [(mod, n) for n in re.findall(r"^(?:Theorem|Example) (C\d\d\w*)", open(pf).read(), re.M)]
    # a module that make did not rebuild depends on nothing that changed
    mods = [m for m in mods if os.path.getmtime(W + "/theories/%s.vo" % m) >= t0]
    def ask(mod):
        t = "From Verif Require %s.\n" % mod
        for m, n in names:
            if m == mod: t += 'Goal True. idtac "MARK %s". Abort.\nPrint Assumptions %s.%s.\n' % (n, m, n)
        open(W + "/q_%s.v" % mod, "w").write(t)
        return subprocess.run(["coqc", "-Q", "theories", "Verif", "q_%s.v" % mod], cwd=W, capture_output=True, text=True).stdout
    bad = []
    with concurrent.futures.ThreadPoolExecutor(int(J)) as ex:
        for q in ex.map(ask, mods):
            for chunk in q.split("MARK ")[1:]:
                n, rest = chunk.split("\n", 1)
                if "Closed under the global context" not in rest: bad.append(n)
    return {"id": mu["id"], "failed_lemmas": failed, "failed_theorems": bad, "stuck": stuck,
            "survivors_expected": [e for e in mu.get("expect", []) if not any(b.startswith(e) for b in bad)]}

if __name__ == "__main__":
    muts = json.load(open(sys.argv[1]))
    done = set()
    if os.path.exists(sys.argv[2]):
        done = {json.loads(l)["id"] for l in open(sys.argv[2])}
    for mu in muts:
        if mu["id"] in done: continue
        r = one(mu)
        with open(sys.argv[2], "a") as o: o.write(json.dumps({**mu, **r}) + "\n")
        print(mu["id"], "lemmas", len(r.get("failed_lemmas", [])), "thms", r.get("failed_theorems"), "surv", r.get("survivors_expected"), r.get("stuck"), r.get("error"), flush=True)
