#!/usr/bin/env python3
"""Run wrong programs against the theorems.

usage: mutate.py MUTANTS.json [id ...]

Each mutant is {"id", "file", "def", "old", "new", "edit", "breaks"}: the text [old] (which
must occur exactly once in theories/FILE) is replaced by [new] in a scratch copy of rocq/.
The statements of the scratch copy are compiled first (coqc -vos), then the proofs of every
file that depends on FILE are checked one file at a time (coqc -vok).  A proof that fails is
closed with Admitted in the scratch copy and the file is checked again, at most ROUNDS
times.  The files of theorems (T_*) are checked only when all lemmas stand (or with MUT_FULL).  A property theorem rejects the mutant when its own proof failed or when it rests,
by the .glob files of the unchanged build, on a lemma whose proof failed.
Nothing is written below /verif except a line in seeded/LOG.jsonl.
"""
import json, os, re, shutil, subprocess, sys
from concurrent.futures import ThreadPoolExecutor

ROOT = os.path.dirname(os.path.dirname(os.path.abspath(__file__)))
SRC = os.environ.get("MUT_SRC", os.path.join(ROOT, "rocq"))
SCRATCH = os.environ.get("MUT_SCRATCH", "/tmp/mut")
JOBS = int(os.environ.get("MUT_JOBS", "3"))
ROUNDS = int(os.environ.get("MUT_ROUNDS", "4"))
LOG = os.path.join(ROOT, "seeded", "LOG.jsonl")
START = re.compile(r"^\s*(?:Local |Global |#\[\w+\] )?(Lemma|Theorem|Corollary|Fact|Example|Remark|Definition|Fixpoint|Instance|Proposition)\s+([\w']+)")
ERR = re.compile(r'File "\./theories/(\w+)\.v", line (\d+), characters[^\n]*\n(?:Error|Syntax|Timeout|Anomaly)')
COQC = "ulimit -v 9000000; coqc -q -Q theories Verif -set 'Default Timeout=60' "

def sh(cmd, cwd, timeout=1500):
    try:
        p = subprocess.run(cmd, cwd=cwd, shell=True, stdout=subprocess.PIPE, stderr=subprocess.STDOUT, timeout=timeout)
        return p.returncode, p.stdout.decode("utf8", "replace")
    except subprocess.TimeoutExpired:
        return 99, "timeout"

def modules():
    return sorted(x[:-2] for x in os.listdir(os.path.join(SRC, "theories")) if x.endswith(".v"))

def file_deps():
    d = {}
    for m in modules():
        t = open(os.path.join(SRC, "theories", m + ".v")).read()
        d[m] = set()
        for x in re.finditer(r"From Verif Require (?:Import|Export)?\s*([^.]*)\.", t):
            d[m] |= set(x.group(1).split())
    return d

def above(deps, m):
    """modules depending on [m], itself included, in dependency order"""
    memo = {}
    def uses(x):
        if x not in memo:
            memo[x] = x == m or any(uses(y) for y in deps[x])
        return memo[x]
    order, seen = [], set()
    def visit(x):
        if x in seen: return
        seen.add(x)
        for y in sorted(deps[x]): visit(y)
        if uses(x): order.append(x)
    for x in sorted(deps): visit(x)
    return order

def lemma_graph():
    """who uses what, from the .glob files of the unchanged build: name -> set of names"""
    g = {}
    for m in modules():
        p = os.path.join(SRC, "theories", m + ".glob")
        evs = []
        for l in open(p, encoding="utf8", errors="replace"):
            a = re.match(r"(prf|thm|def|ex|coe|ind|rec|lemma|fix)\s+(\d+):\d+ \S+ (\S+)$", l)
            r = re.match(r"R(\d+):\d+ Verif\.(\w+) \S+ (\S+) \w+$", l)
            if a: evs.append((int(a.group(2)), "d", m + "." + a.group(3)))
            elif r: evs.append((int(r.group(1)), "r", r.group(2) + "." + r.group(3)))
        cur = None
        for _, k, n in sorted(evs):
            if k == "d":
                cur = n; g.setdefault(cur, set())
            elif cur:
                g[cur].add(n)
    return g

def close_proof(path, line):
    """Admit the proof containing [line] (1-based); return its kind and name."""
    ls = open(path).read().split("\n")
    i = line - 1
    while i >= 0 and not START.match(ls[i]):
        i -= 1
    if i < 0:
        return None
    kind, name = START.match(ls[i]).groups()
    text = "\n".join(ls[i:])
    m = re.search(r"(?<![\w'])Proof\b[^.]*\.", text)
    e = re.search(r"(?<![\w'])(Qed|Defined)\.", text)
    if not m or not e or m.start() > e.start():
        return None
    upto = text[:e.end()].count("\n") + i + 1
    if line > upto or kind in ("Definition", "Fixpoint", "Instance"):
        return None
    if line - 1 - i < text[:m.start()].count("\n"):
        return None                     # the statement itself
    new = text[:m.start()] + "Proof. Admitted." + text[e.end():]
    open(path, "w").write("\n".join(ls[:i]) + ("\n" if i else "") + new)
    return kind, name

def failed_line(path, e, out):
    """the line of the failed proof: the end of a section reports the proofs in it by name"""
    m = re.search(r"\(in proof ([\w']+)\)", out)
    if m:
        for i, l in enumerate(open(path).read().split("\n")):
            s = START.match(l)
            if s and s.group(2) == m.group(1):
                rest = open(path).read().split("\n")[i:]
                return i + 1 + next(j for j, x in enumerate(rest) if re.search(r"(?<![\w'])Proof\b", x))
    return int(e.group(2))

def check(mod):
    """check the proofs of one file of the scratch copy"""
    failed = []
    for _ in range(ROUNDS):
        rc, out = sh(COQC + "-vok theories/%s.v" % mod, SCRATCH)
        if rc == 0:
            return failed, None
        m = ERR.search(out)
        if not m or m.group(1) != mod:
            return failed, "%s: %s" % (mod, out[-300:])
        p = os.path.join(SCRATCH, "theories", mod + ".v")
        r = close_proof(p, failed_line(p, m, out))
        if r is None:
            return failed, "%s:%s outside a proof: %s" % (mod, m.group(2), out[-400:])
        failed.append((mod,) + r)
    return failed, None

def run(mut, deps, graph):
    shutil.rmtree(SCRATCH, ignore_errors=True)
    os.makedirs(os.path.join(SCRATCH, "theories"))
    mod = mut["file"][:-2]
    todo = above(deps, mod)
    for m in modules():
        exts = [".v"] if m in todo else [".v", ".vo"]
        for e in exts:
            shutil.copy2(os.path.join(SRC, "theories", m + e), os.path.join(SCRATCH, "theories", m + e))
    f = os.path.join(SCRATCH, "theories", mut["file"])
    s = open(f).read()
    if s.count(mut["old"]) != 1:
        return {"error": "old text occurs %d times" % s.count(mut["old"])}
    open(f, "w").write(s.replace(mut["old"], mut["new"]))
    failed, notes = [], []
    for m in todo:
        rc, out = sh(COQC + "-vos theories/%s.v" % m, SCRATCH)
        while rc:
            e = ERR.search(out)
            p = os.path.join(SCRATCH, "theories", m + ".v")
            r = close_proof(p, failed_line(p, e, out)) if e else None
            if r is None:
                return {"error": "statement of %s" % m, "tail": out[-500:]}
            failed.append((m,) + r)
            rc, out = sh(COQC + "-vos theories/%s.v" % m, SCRATCH)
    # lemmas first; the files of theorems only when all lemmas stand
    for group in ([m for m in todo if not m.startswith("T_")], [m for m in todo if m.startswith("T_")]):
        if failed and not os.environ.get("MUT_FULL"):
            break
        with ThreadPoolExecutor(JOBS) as ex:
            for fl, n in ex.map(check, group):
                failed += fl
                if n: notes.append(n)
    bad = {m + "." + n for m, k, n in failed}
    memo = {}
    def rests(x, path=()):
        if x in bad: return True
        if x in memo: return memo[x]
        memo[x] = False
        memo[x] = any(rests(y) for y in graph.get(x, ()))
        return memo[x]
    kinds = {}
    for m in modules():
        for x in re.finditer(r"^\s*(Theorem|Corollary|Lemma)\s+(C\d\d_[\w']+)", open(os.path.join(SRC, "theories", m + ".v")).read(), re.M):
            kinds[m + "." + x.group(2)] = x.group(2)
    direct = [n for m, k, n in failed if re.match(r"C\d\d_", n) and k != "Example"]
    dependent = [n for q, n in sorted(kinds.items()) if n not in direct and rests(q)]
    r = {"theorems": direct + dependent,
         "direct": direct,
         "lemmas": [n for _, k, n in failed if not re.match(r"C\d\d_", n) and k != "Example"],
         "examples": [n for _, k, n in failed if k == "Example"]}
    if notes: r["notes"] = notes
    return r

def main():
    muts = json.load(open(sys.argv[1]))
    want = set(sys.argv[2:])
    done = set()
    if os.path.exists(LOG) and not want:
        done = {json.loads(l).get("id") for l in open(LOG) if l.strip()}
    deps, graph = file_deps(), lemma_graph()
    for m in muts:
        if want and m["id"] not in want or m["id"] in done:
            continue
        r = run(m, deps, graph)
        if "error" in r:
            print("??", m["id"], r, flush=True)
            continue
        verdict = "killed" if r["theorems"] else ("examples only" if r["examples"] or r["lemmas"] else "SURVIVED")
        print(verdict, m["id"], "|", m["edit"], "| T:", len(r["theorems"]), r["direct"][:4], r["theorems"][:5], "L:", r["lemmas"][:4], "E:", r["examples"][:3], r.get("notes", ""), flush=True)
        if os.environ.get("MUT_DRY") or r.get("notes"):
            continue
        line = {"id": m["id"], "definition": m["file"] + ": " + m.get("def", ""), "edit": m["edit"], "old": m["old"], "new": m["new"],
                "breaks": m["breaks"], "outcome": verdict, "failed_theorems": r["theorems"], "failed_directly": r["direct"], "failed_lemmas": r["lemmas"],
                "failed_examples": r["examples"], "tightened": m.get("tightened", [])}
        with open(LOG, "a") as o:
            o.write(json.dumps(line) + "\n")

main()
