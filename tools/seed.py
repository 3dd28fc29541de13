#!/usr/bin/env python3
"""Runs wrong-program experiments in a scratch copy (never in /verif).

usage: seed.py experiments.py [workdir]
experiments.py contains calls  E(file, definition, old, new, claim).
For each experiment: copy rocq/, replace `old` by `new` in theories/<file>, rebuild every file that
depends on it.  When a proof fails, that lemma is replaced by an Admitted stub *in the scratch copy* and the
build continues, so that Print Assumptions at the end tells exactly which final theorems rest on a
broken lemma.  One JSON line per experiment goes to seeded/LOG.jsonl."""
import json, os, re, shutil, subprocess, sys
root = os.path.dirname(os.path.dirname(os.path.abspath(__file__)))
work = sys.argv[2] if len(sys.argv) > 2 else "/tmp/seed_work"
exps = []
def E(file, definition, old, new, claim): exps.append((file, definition, old, new, claim))
exec(compile(open(sys.argv[1]).read(), sys.argv[1], "exec"))
def sh(c, cwd, t=900):
    try:
        p = subprocess.run(c, shell=True, cwd=cwd, capture_output=True, text=True, timeout=t)
        return p.returncode, p.stdout + p.stderr
    except subprocess.TimeoutExpired:
        return 124, "TIMEOUT"
def deps(cwd):
    _, o = sh("coqdep -Q theories Verif theories/*.v 2>/dev/null", cwd)
    d = {}
    for l in o.splitlines():
        m = re.match(r"theories/(\w+)\.vo .*?: (.*)", l)
        if m: d[m.group(1)] = {x for x in re.findall(r"theories/(\w+)\.vo\b", m.group(2))}
    return d
HEAD = re.compile(r"^(?:Local |Global |#\[[^\]]*\] *)*(Lemma|Theorem|Example|Corollary|Fact|Remark|Definition|Instance|Fixpoint)\s+([\w']+)", re.M)
def stub(path, line):
    """replace by Admitted the proof containing `line`; returns the name"""
    L = open(path).read().split("\n")
    i = line - 1
    j = i
    while j >= 0 and not re.match(r"^\s*(Local |Global )?(Lemma|Theorem|Example|Corollary|Fact|Remark)\b", L[j]): j -= 1
    if j < 0: return None
    name = re.match(r"^\s*(?:Local |Global )?\w+\s+([\w']+)", L[j]).group(1)
    k = j
    while k < len(L) and not re.search(r"\b(Qed|Defined|Admitted)\.", L[k]): k += 1
    if k < i: return None
    txt = "\n".join(L[j:k + 1])
    m = re.search(r"\bProof\b", txt)
    if not m: return None
    new = txt[:m.start()] + "Admitted."
    # keep the number of lines so that later positions stay readable
    L[j:k + 1] = new.split("\n")
    open(path, "w").write("\n".join(L))
    return name
os.makedirs(work, exist_ok=True)
# built snapshot of the committed sources; experiments start from it
base = os.path.join(work, "base")
if not os.path.exists(os.path.join(base, ".done")):
    shutil.rmtree(base, ignore_errors=True); os.makedirs(base)
    sh(f"git -C {root} archive HEAD rocq | tar x -C {base}", "/")
    rc, o = sh("coq_makefile -f _CoqProject -o Makefile && make -j2", base + "/rocq", 4000)
    assert rc == 0, o[-2000:]
    open(os.path.join(base, ".done"), "w").write("")
base += "/rocq"
D = deps(base)
def closure(f):
    out = {f}
    ch = True
    while ch:
        ch = False
        for k, v in D.items():
            if k not in out and v & out: out.add(k); ch = True
    order = []
    def visit(x):
        if x in order: return
        for y in sorted(D[x] & out): visit(y)
        order.append(x)
    for x in sorted(out): visit(x)
    return order
for (file, definition, old, new, claim) in exps:
    w = os.path.join(work, "rocq")
    shutil.rmtree(w, ignore_errors=True)
    shutil.copytree(base, w)
    f = file[:-2]
    p = os.path.join(w, "theories", file)
    s = open(p).read()
    # the edit is made inside the named definition (its first occurrence of `old`)
    h = re.search(r"^\s*(?:Definition|Fixpoint)\s+%s\b" % re.escape(definition), s, re.M)
    at = s.find(old, h.start() if h else 0)
    nxt = re.compile(r"^\s*(?:Definition|Fixpoint)\s", re.M).search(s, h.end()) if h else None
    if at < 0 or (nxt and at >= nxt.start()) or (not h and s.count(old) != 1):
        print("BAD EXPERIMENT", file, definition, s.count(old)); continue
    open(p, "w").write(s[:at] + new + s[at + len(old):])
    order = closure(f)
    # the edited model's own family first; the other dependants only when nothing there failed
    fam = "Properties_" + f.split("_")[1]
    if fam in order:
        need, todo = set(), [fam]
        while todo:
            y = todo.pop()
            if y not in need: need.add(y); todo += list(D[y])
        first = [x for x in order if x in need]
        rest = [x for x in order if x not in need]
    else:
        first, rest = order, []
    for x in order:
        for ext in ("vo", "vok", "vos", "glob"):
            q = os.path.join(w, "theories", x + "." + ext)
            if os.path.exists(q): os.remove(q)
    broken, hard, axs = [], None, {}
    for x in first + [None] + rest:
        if x is None:
            if any(n.startswith("C") for n in broken) or any(re.search(r"\b%s\b" % re.escape(l), b) for b in axs.values() for l in broken): break
            continue
        for attempt in range(200):
            rc, o = sh(f"ulimit -v 9000000; timeout 300 coqc -Q theories Verif theories/{x}.v", w, 400)
            if rc == 0: break
            m = re.search(r'File "\./theories/(\w+)\.v", line (\d+), characters \d+-\d+:\s*\n(?:In nested.*\n)?Error', o)
            ms = re.findall(r'File "\./theories/(\w+)\.v", line (\d+)', o)
            if not ms: hard = (x, o[-300:]); break
            nm = stub(os.path.join(w, "theories", x + ".v"), int(ms[-1][1]))
            if nm is None: hard = (x, o[-400:]); break
            broken.append(nm)
        if hard: break
        if x.startswith("Properties"):
            names = re.findall(r"^Print Assumptions ([\w']+)\.", open(os.path.join(w, "theories", x + ".v")).read(), re.M)
            blocks = re.split(r"(?m)^(?=Axioms:|Closed under)", o)[1:]
            for nme, b in zip(names, blocks): axs[nme] = b
    failed = sorted(n for n, b in axs.items() if n in broken or any(re.search(r"\b%s\b" % re.escape(l), b) for l in broken))
    exs = sorted(n for n in broken if re.match(r"C\d+_", n) and n not in failed)
    rec = dict(definition=definition, file="rocq/theories/" + file, edit={"old": old, "new": new}, breaks=claim,
               theorems_failed=failed, examples_failed=exs, lemmas_failed=[b for b in broken if b not in failed and b not in exs],
               theorems_tightened=[])
    if hard: rec["build_stopped"] = hard[0] + ": " + hard[1]
    with open(root + "/seeded/LOG.jsonl", "a") as g: g.write(json.dumps(rec) + "\n")
    print(definition, "|", claim, "| failed:", failed, "| examples:", exs, "| hard:", hard)
    sys.stdout.flush()
