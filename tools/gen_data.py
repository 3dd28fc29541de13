#!/usr/bin/env python3
"""Writes rocq/theories/Data_*.v: the literal tables of /repo as Coq rational lists.
The sources are parsed as text (ast); nothing of /repo is executed.  Number literals are copied verbatim."""
import ast, os
root = os.path.dirname(os.path.dirname(os.path.abspath(__file__)))
out = root + "/rocq/theories/"
def load(f):
    src = open("/repo/fluids/" + f).read()
    return src, ast.parse(src)
def lit(src, n):
    if isinstance(n, ast.Constant) and isinstance(n.value, str): raise Exception("str")
    if isinstance(n, ast.Constant):
        s = ast.get_source_segment(src, n)
        if s.startswith("."): s = "0" + s
        if s.endswith("."): s = s + "0"
        return s.replace("E", "e").replace(".e", ".0e")
    if isinstance(n, ast.UnaryOp) and isinstance(n.op, ast.USub): return "-" + lit(src, n.operand)
    raise Exception(ast.dump(n))
def lst(src, n):
    if isinstance(n, ast.List):
        if n.elts and isinstance(n.elts[0], ast.List): return "[" + ";\n ".join(lst(src, e) for e in n.elts) + "]"
        if n.elts and isinstance(n.elts[0], ast.Name): return "[" + "; ".join(e.id for e in n.elts) + "]"
        return "[" + "; ".join(lit(src, e) for e in n.elts) + "]"
    if isinstance(n, ast.Tuple): return "(" + ", ".join(lst(src, e) if isinstance(e, (ast.List, ast.Tuple, ast.Name)) else lit(src, e) for e in n.elts) + ")"
    if isinstance(n, ast.Name): return n.id
    if isinstance(n, ast.BinOp) and isinstance(n.op, ast.Add): return "(%s ++ %s)" % (lst(src, n.left), lst(src, n.right))
    if isinstance(n, ast.Subscript) and isinstance(n.slice, ast.Slice):
        lo = n.slice.lower and lit(src, n.slice.lower); up = n.slice.upper and lit(src, n.slice.upper)
        e = lst(src, n.value)
        if up: e = "(firstn %s%%nat %s)" % (up, e)
        if lo: e = "(skipn %s%%nat %s)" % (lo, e)
        return e
    if isinstance(n, ast.ListComp):  # [float(v) for v in range(a, b)]
        a = [lit(src, x) for x in n.generators[0].iter.args]
        a = ["0"] + a if len(a) == 1 else a
        return "(map inject_Z (map Z.of_nat (seq %s%%nat (%s - %s)%%nat)))" % (a[0], a[1], a[0])
    raise Exception(ast.dump(n)[:200])
HEADER = """(** Generated by tools/gen_data.py from /repo/fluids/%s: the literal tables, verbatim. *)
From Coq Require Import List QArith ZArith String.
Import ListNotations.
Local Open Scope Q_scope.

"""
def emit(f, name, only=None, extra=""):
    src, tree = load(f)
    o = [HEADER % f]
    done = set()
    for st in tree.body:
        if not isinstance(st, (ast.Assign, ast.AnnAssign)) or st.value is None: continue
        tgs = st.targets if isinstance(st, ast.Assign) else [st.target]
        for t in tgs:
            if not isinstance(t, ast.Name): continue
            if only is not None and t.id not in only: continue
            if t.id == "__all__": continue
            if isinstance(st.value, ast.Dict):
                rows = []
                for k, v in zip(st.value.keys, st.value.values):
                    els = v.elts
                    els = [e for e in els if not (isinstance(e, ast.Constant) and isinstance(e.value, bool))]
                    if all(isinstance(e, ast.Name) for e in els): r = "(" + ", ".join(e.id for e in els) + ")"
                    else: r = "[" + "; ".join("None" if isinstance(e, ast.Constant) and e.value is None else "Some (%s)" % lit(src, e) for e in els) + "]"
                    rows.append('("%s"%%string, %s)' % (k.value.replace('"', '""'), r))
                o.append("(** %s:%d-%d *)\nDefinition %s := [%s].\n" % (f, st.lineno, st.end_lineno, t.id, ";\n  ".join(rows)))
                done.add(t.id); continue
            try: e = lst(src, st.value)
            except Exception as ex:
                if only is not None: raise
                continue
            ty = ": list Q " if isinstance(st.value, ast.List) and st.value.elts and isinstance(st.value.elts[0], ast.Constant) else ""
            o.append("(** %s:%d-%d *)\nDefinition %s %s:= %s.\n" % (f, st.lineno, st.end_lineno, t.id, ty, e))
            done.add(t.id)
    if only is not None: assert set(only) == done, set(only) - done
    open(out + name + ".v", "w").write("".join(o) + extra)
emit("piping.py", "Data_Piping")
emit("pump.py", "Data_Pump", ["VFD_efficiencies", "VFD_efficiency_loads", "VFD_efficiency_powers", "nema_sizes_hp", "nema_high_P", "nema_min_P",
  "_to_1", "_to_5", "_to_10", "_to_25", "_to_60", "_to_infty", "_efficiency_lists", "_efficiency_ones"] +
  ["nema_high_full_%s_%dp" % (a, b) for a in ("open", "closed") for b in (2, 4, 6)] +
  ["nema_min_full_%s_%dp" % (a, b) for a in ("open", "closed") for b in (2, 4, 6, 8)])
emit("safety_valve.py", "Data_Safety", ["API526_A_sq_inch", "_KSH_Pa_7E", "_KSH_tempKs_7E", "_KSH_factors_7E", "_KSH_Pa_10E", "_KSH_K_10E", "_KSH_factors_10E",
  "Kb_16_over_x", "Kb_16_over_y", "Kb_10_over_x", "Kb_10_over_y", "Kw_x", "Kw_y"])

# friction.py 3763-4015: wall roughness dictionaries
def friction_tables():
    src, tree = load("friction.py")
    env = {}
    for st in tree.body:
        if isinstance(st, (ast.Assign, ast.AnnAssign)) and isinstance(st.value, ast.Dict):
            t = st.targets[0] if isinstance(st, ast.Assign) else st.target
            if isinstance(t, ast.Name): env[t.id] = st.value
    def s(n):
        assert isinstance(n, ast.Constant) and isinstance(n.value, str) and '"' not in n.value
        return '"%s"' % n.value
    def opt(n):
        return "None" if isinstance(n, ast.Constant) and n.value is None else "Some %s" % lit(src, n)
    o = [HEADER % "friction.py", "Local Open Scope string_scope.\nLocal Open Scope Q_scope.\n\n"]
    rows = []
    for d in ("tunnels", "wood_plywood_glass", "concretes", "steels"):    # HHR_roughness_dicts, 3996
        for k, v in zip(env[d].keys, env[d].values):
            sub = env[v.id]
            for k2, v2 in zip(sub.keys, sub.values):
                rows.append('("%s, %s", (%s, %s, %s))' % (k.value, k2.value, *[opt(e) for e in v2.elts]))
    o.append("(** friction.py:3763-4002, [HHR_roughness]: name, (minimum, maximum, average) in m *)\n"
             "Definition HHR_roughness : list (string * (option Q * option Q * option Q)) :=\n [" + ";\n  ".join(rows) + "].\n\n")
    o.append("(** friction.py:3979-3983 *)\nDefinition roughness_table : list (string * Q) :=\n [" +
             ";\n  ".join("(%s, %s)" % (s(k), lit(src, v)) for k, v in zip(env["_roughness"].keys, env["_roughness"].values)) + "].\n\n")
    o.append("(** friction.py:4009-4015: average roughness, A and B (inches) *)\nDefinition Farshad_roughness : list (string * (Q * Q * Q)) :=\n [" +
             ";\n  ".join("(%s, (%s))" % (s(k), ", ".join(lit(src, e) for e in v.elts)) for k, v in zip(env["_Farshad_roughness"].keys, env["_Farshad_roughness"].values)) + "].\n")
    open(out + "Data_Friction.v", "w").write("".join(o))
friction_tables()
