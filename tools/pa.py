#!/usr/bin/env python3
"""Rewrites the trailing 'Print Assumptions' block of each Properties_*.v so that it covers every theorem."""
import glob, os, re, sys
root = os.path.dirname(os.path.dirname(os.path.abspath(__file__)))
for g in sorted(glob.glob(os.path.join(root, "rocq/theories/Properties_*.v"))):
    s = open(g).read()
    body = re.sub(r"(\n*Print Assumptions [\w']+\.)+\s*$", "", s).rstrip() + "\n"
    names = re.findall(r"^\s*Theorem\s+([\w']+)", body, re.M)
    new = body + "\n" + "".join(f"Print Assumptions {n}.\n" for n in names)
    if new != s: open(g, "w").write(new)
# _CoqProject
order = [l.strip() for l in open(os.path.join(root, "rocq/_CoqProject")) if l.startswith("theories/")]
have = sorted("theories/" + os.path.basename(f) for f in glob.glob(os.path.join(root, "rocq/theories/*.v")))
if set(order) != set(have):
    with open(os.path.join(root, "rocq/_CoqProject"), "w") as f:
        f.write("-Q theories Verif\n" + "".join(h + "\n" for h in have))
