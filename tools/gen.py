#!/usr/bin/env python3
"""Regenerates properties.jsonl, MANIFEST.json and the per-property part of
DESIGN.md from the records in tools/records/*.py (one P(...) call per property)
and the hand-written tools/design_head.md / tools/design_tail.md."""
import glob, json, os
root = os.path.dirname(os.path.dirname(os.path.abspath(__file__)))
props, claims, plans = [], [], []
S = lambda t: " ".join(t.split())
import re
allthms = []
for g in sorted(glob.glob(os.path.join(root, "rocq/theories/Properties_*.v"))):
    allthms += re.findall(r"^\s*Theorem\s+([\w']+)", open(g).read(), re.M)
def P(id, title, statement, quantifier, why, anchors, plan, status=None, theorems=None, note=None):
    """theorems: by default every Theorem of Properties_*.v whose name starts with '<id>_'"""
    if theorems is None: theorems = [t for t in allthms if t.startswith(id + "_")]
    if status is None: status = "proved" if theorems else "partial"
    if note is None: note = plan if theorems else "planned, not yet proved"
    props.append(dict(id=id, title=S(title), statement=S(statement), quantifier=S(quantifier),
                      why_tests_cant=S(why), anchors=list(anchors)))
    claims.append(dict(property=id, status=status, theorems=list(theorems), note=S(note)))
    plans.append((id, S(title), S(plan), status, list(theorems)))
for f in sorted(glob.glob(os.path.join(root, "tools/records/*.py"))):
    exec(compile(open(f).read(), f, "exec"))
ids = [p["id"] for p in props]
assert len(ids) == len(set(ids)), [i for i in ids if ids.count(i) > 1]
key = lambda i: int(i[1:])
props.sort(key=lambda d: key(d["id"])); claims.sort(key=lambda d: key(d["property"])); plans.sort(key=lambda t: key(t[0]))
with open(os.path.join(root, "properties.jsonl"), "w") as f:
    for p in props: f.write(json.dumps(p) + "\n")
with open(os.path.join(root, "MANIFEST.json"), "w") as f:
    json.dump({"claims": claims}, f, indent=1); f.write("\n")
rd = lambda n: open(os.path.join(root, "tools", n)).read() if os.path.exists(os.path.join(root, "tools", n)) else ""
with open(os.path.join(root, "DESIGN.md"), "w") as f:
    f.write(rd("design_head.md"))
    f.write("\n## Per-property plan\n\nStatus `proved` means the theorem named is checked by the build; theorem names ending in `_refuted` prove the negation of a claim the code breaks, `_partial` a weaker statement.\n\n")
    for i, t, pl, st, th in plans:
        f.write(f"* **{i} {t}** ({st}{': ' + ', '.join('`%s`' % x for x in th) if th else ''}). {pl}\n")
    f.write("\n" + rd("design_tail.md"))
# every theorem named in a claim must exist in the sources
src = "".join(open(g).read() for g in glob.glob(os.path.join(root, "rocq/theories/*.v")))
names = set(re.findall(r"^\s*(?:Theorem|Lemma|Corollary)\s+([\w']+)", src, re.M))
for c in claims:
    for t in c["theorems"]:
        if t not in names: print("MISSING theorem", t, "for", c["property"])
print(len(props), "properties;", sum(c["status"] == "proved" for c in claims), "proved,",
      sum(c["status"] == "partial" for c in claims), "partial,",
      sum(c["status"] == "not_applicable" for c in claims), "n/a")
