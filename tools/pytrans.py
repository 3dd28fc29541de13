#!/usr/bin/env python3
"""Translate straight-line numeric Python functions of /repo into Gallina definitions over R.

Each function becomes a definition in the [result] monad of Base.v:
 - floats are exact reals; a division, square root, logarithm or non-integer power that Python
   would refuse becomes an [Err];
 - `if` becomes `if ... then ... else`; `raise X` becomes `Err X`;
 - arguments that may be None have type [option R];
 - float overflow and rounding are not represented.
The output is committed; this script only saves typing and keeps line numbers right.
"""
import ast, re, sys, math
from fractions import Fraction
from decimal import Decimal

REPO = '/repo/fluids/'
RES = {'at','end','in','let','fun','match','with','then','else','if','return','as','of','for','Type','Set','Prop',
       'exists','forall','where','using','by','S','O','I','C','is','Ok','Err','exp','ln','sqrt','pow','sin','cos','tan','nth','PI','R','Z','N','Q','D','P'}
CONST = {'pi': 'PI', 'pi_inv': '(/ PI)', 'g': '9.80665', 'R': '8.31446261815324', 'gas_constant': '8.31446261815324', 'inch': '0.0254',
         'deg2rad': '(PI / 180)', 'rad2deg': '(180 / PI)'}
FUN1 = {'sqrt': ('psqrt', True), 'log': ('plog', True), 'log10': ('plog10', True), 'exp': ('exp', False),
        'sin': ('sin', False), 'cos': ('cos', False), 'tan': ('tan', False), 'atan': ('atan', False),
        'acos': ('pacos', True), 'asin': ('pasin', True), 'abs': ('Rabs', False), 'fabs': ('Rabs', False),
        'radians': ('radians', False), 'degrees': ('degrees', False), 'cbrt': ('pcbrt', True), 'float': ('', False),
        'tanh': ('tanh', False), 'sinh': ('sinh', False), 'cosh': ('cosh', False), 'log1p': ('plog1p', True), 'acosh': ('pacosh', True)}

class Unsupported(Exception): pass

def lit(s):
    """A numeric literal, exact."""
    if isinstance(s, int) and not isinstance(s, bool): return str(s) if s >= 0 else '(%d)' % s
    d = Decimal(s)
    if d == d.to_integral_value():
        return str(int(d)) if d >= 0 else '(%d)' % int(d)
    t = format(d, 'f')
    t = t.rstrip('0')
    return t if d >= 0 else '(%s)' % t

def cname(n, coq={}):
    n = n.replace('.', '_')
    return n + '_' if n in RES else n

class Fn:
    pass
REG = {}   # python name -> Fn(coqname, params [(name, type, default)], ret)

def ann_type(a):
    if a is None: return None
    s = ast.unparse(a).replace('"', '').replace("'", '')
    parts = [p.strip() for p in s.split('|')]
    opt = 'None' in parts
    parts = [p for p in parts if p != 'None']
    if not parts: return 'option R'
    b = parts[0]
    t = {'float': 'R', 'int': 'R', 'bool': 'bool', 'str': 'string'}.get(b)
    if t is None: return None
    return ('option ' + t) if opt else t

class Tr:
    def __init__(self, mod, node, src, over):
        self.mod, self.node, self.src, self.over = mod, node, src, over
        self.n = 0
        self.locals = set()
        self.user = set() if node is None else {n.id for n in ast.walk(node) if isinstance(n, ast.Name)} | {n.arg for n in ast.walk(node) if isinstance(n, ast.arg)}
    def fresh(self):
        self.n += 1
        while 't%d' % self.n in self.user: self.n += 1
        return 't%d' % self.n
    # expressions: return (binds, text, type); binds: list of (var, monadic text) or ('opt', var)
    def expr(self, e, env):
        if isinstance(e, ast.Constant):
            if e.value is None: return [], 'None', 'none'
            if isinstance(e.value, bool): return [], 'true' if e.value else 'false', 'bool'
            if isinstance(e.value, (int, float)):
                seg = ast.get_source_segment(self.src, e)
                if seg is None: seg = repr(e.value)
                return [], lit(seg.replace('_', '')), 'R'
            if isinstance(e.value, str): return [], '"%s"%%string' % e.value.replace('"','""'), 'string'
            raise Unsupported('const')
        if isinstance(e, ast.Name):
            if e.id in env:
                t, c = env[e.id]
                return [], c, t
            if e.id in self.locals and e.id not in self.over.get('const', {}):
                self.n += 1; x = 't%d' % self.n
                return [(x, 'Err UnboundLocalError')], x, 'R'
            if e.id in self.over.get('const', {}): return [], self.over['const'][e.id], 'R'
            if e.id in CONST and CONST[e.id]: return [], CONST[e.id], 'R'
            m = modconst(self.mod, e.id)
            if m is not None:
                src2, node2, mod2 = m
                fr = exactval(mod2, node2)
                if fr is not None: return [], frlit(fr), 'R'
                return Tr(mod2, None, src2, {}).expr(node2, {})
            raise Unsupported('name ' + e.id)
        if isinstance(e, ast.UnaryOp):
            if isinstance(e.op, ast.USub):
                b, t, _ = self.num(e.operand, env)
                return b, '(- %s)' % t, 'R'
            if isinstance(e.op, ast.UAdd): return self.num(e.operand, env)
            if isinstance(e.op, ast.Not):
                b, t, ty = self.expr(e.operand, env)
                if ty != 'bool': raise Unsupported('not on ' + ty)
                return b, '(negb %s)' % t, 'bool'
        if isinstance(e, ast.BinOp):
            return self.binop(e, env)
        if isinstance(e, ast.Compare): return self.compare(e, env)
        if isinstance(e, ast.BoolOp):
            bs, ts = [], []
            for v in e.values:
                b, t, ty = self.expr(v, env)
                if ty != 'bool': raise Unsupported('boolop on ' + ty)
                if b and bs is not None and len(ts) > 0: raise Unsupported('effect in boolop')
                bs += b; ts.append(t)
            unit, zero = ('true', 'false') if isinstance(e.op, ast.And) else ('false', 'true')
            if not bs:
                if zero in ts: return [], zero, 'bool'
                ts = [t for t in ts if t != unit]
                if not ts: return [], unit, 'bool'
                if len(ts) == 1: return [], ts[0], 'bool'
            op = ' && ' if isinstance(e.op, ast.And) else ' || '
            return bs, '(' + op.join(ts) + ')%bool', 'bool'
        if isinstance(e, ast.Call): return self.call(e, env)
        if isinstance(e, ast.IfExp):
            x = self.fresh()
            code, ty = self.ifexp(e, env)
            return [(x, code)], x, ty
        if isinstance(e, ast.Subscript) and isinstance(e.value, ast.Name) and e.value.id not in env:
            m = modconst(self.mod, e.value.id)
            try: i = ast.literal_eval(e.slice)
            except Exception: i = None
            if m is not None and isinstance(m[1], (ast.List, ast.Tuple)) and isinstance(i, int):
                return [], frlit(exactval(m[2], m[1].elts[i])), 'R'
        if isinstance(e, ast.Tuple):
            bs, ts, tys = [], [], []
            for v in e.elts:
                b, t, ty = self.expr(v, env)
                bs += b; ts.append(t); tys.append(ty)
            return bs, '(' + ', '.join(ts) + ')', ('tuple', tys)
        raise Unsupported(type(e).__name__)
    def ifexp(self, e, env):
        tys = []
        def br(x):
            def k(env2):
                b, t, ty = self.expr(x, env2)
                tys.append(ty)
                return self.wrap(b, 'Ok %s' % self.par(t))
            return k
        code = self.cond(e.test, env, br(e.body), br(e.orelse))
        return '(' + code + ')', tys[0]
    def par(self, t):
        if re.fullmatch(r'[\w.]+', t) or (t.startswith('(') and self.balanced(t)): return t
        return '(' + t + ')'
    def balanced(self, t):
        d = 0
        for i, ch in enumerate(t):
            if ch == '(': d += 1
            if ch == ')':
                d -= 1
                if d == 0 and i != len(t) - 1: return False
        return t.endswith(')')
    def num2(self, l, r, env):
        """two operands: both are evaluated before either is rejected for not being a number"""
        b1, t1, y1 = self.expr(l, env)
        b2, t2, y2 = self.expr(r, env)
        c1, t1, _ = self.num(l, env, (t1, y1))
        c2, t2, _ = self.num(r, env, (t2, y2))
        return b1 + b2 + c1 + c2, t1, t2
    def num(self, e, env, done=None):
        b, t, ty = self.expr(e, env) if done is None else ([],) + done
        if ty == 'R': return b, t, 'R'
        if isinstance(ty, str) and ty == 'option R':
            x = self.fresh()
            return b + [(x, 'match %s with Some v => Ok v | None => Err TypeError end' % t)], x, 'R'
        if ty == 'bool':
            return b, '(if %s then 1 else 0)' % t, 'R'
        if ty == 'none':
            x = self.fresh()
            return b + [(x, 'Err TypeError')], x, 'R'
        raise Unsupported('not a number: %s' % (ty,))
    def isconst(self, e, env={}):
        """nonzero literal value or None"""
        try:
            ns = {'pi': math.pi, '__builtins__': {}}
            for n in ast.walk(e):
                if isinstance(n, ast.Name):
                    if n.id in env: return None
                    if n.id != 'pi': ns[n.id] = constval(self.mod, n.id)
            v = eval(compile(ast.fix_missing_locations(ast.Expression(e)), '', 'eval'), ns)
            return v if isinstance(v, (int, float)) else None
        except Exception: return None
    def binop(self, e, env):
        op = e.op
        if isinstance(op, ast.Pow):
            k = self.isconst(e.right, env)
            if k is not None and float(k) == int(k) and isinstance(k, (int, float)):
                k = int(k)
                b1, t1, _ = self.num(e.left, env)
                if k >= 0: return b1, '(%s ^ %d)' % (t1, k), 'R'
                x = self.fresh()
                return b1 + [(x, 'pdiv 1 (%s ^ %d)' % (t1, -k))], x, 'R'
            b1, t1, t2 = self.num2(e.left, e.right, env); b2 = []
            x = self.fresh()
            return b1 + b2 + [(x, 'ppow %s %s' % (self.par(t1), self.par(t2)))], x, 'R'
        b1, t1, t2 = self.num2(e.left, e.right, env); b2 = []
        if isinstance(op, ast.Div):
            k = self.isconst(e.right, env)
            if k is not None and k != 0: return b1 + b2, '(%s / %s)' % (t1, t2), 'R'
            x = self.fresh()
            return b1 + b2 + [(x, 'pdiv %s %s' % (self.par(t1), self.par(t2)))], x, 'R'
        o = {ast.Add: '+', ast.Sub: '-', ast.Mult: '*'}.get(type(op))
        if o is None: raise Unsupported('op ' + type(op).__name__)
        return b1 + b2, '(%s %s %s)' % (t1, o, t2), 'R'
    def compare(self, e, env):
        if len(e.ops) > 1:
            vals = [e.left] + e.comparators
            parts = [ast.Compare(vals[i], [e.ops[i]], [vals[i+1]]) for i in range(len(e.ops))]
            return self.expr(ast.BoolOp(ast.And(), parts), env)
        op, l, r = e.ops[0], e.left, e.comparators[0]
        if isinstance(op, (ast.Is, ast.IsNot)):
            b, t, ty = self.expr(l, env)
            if not (isinstance(r, ast.Constant) and r.value is None):
                if isinstance(r, ast.Constant) and isinstance(r.value, bool) and ty == 'bool':
                    v = t if r.value == isinstance(op, ast.Is) else '(negb %s)' % t
                    return b, v, 'bool'
                raise Unsupported('is')
            pos = isinstance(op, ast.Is)
            if ty == 'none': return b, 'true' if pos else 'false', 'bool'
            if not (isinstance(ty, str) and ty.startswith('option')):
                return b, 'false' if pos else 'true', 'bool'
            return b, '(match %s with Some _ => %s | None => %s end)' % (t, 'false' if pos else 'true', 'true' if pos else 'false'), 'bool'
        if isinstance(op, (ast.In, ast.NotIn)) and isinstance(r, ast.Name) and r.id not in env:
            m = modconst(self.mod, r.id)
            if m is not None and isinstance(m[1], (ast.Tuple, ast.List, ast.Set)): r = m[1]
            elif m is not None and isinstance(m[1], ast.Call) and m[1].args and isinstance(m[1].args[0], (ast.Tuple, ast.List, ast.Set)): r = m[1].args[0]
            elif m is not None and isinstance(m[1], ast.Dict): r = ast.List(m[1].keys)
        if isinstance(op, (ast.In, ast.NotIn)) and isinstance(r, (ast.Tuple, ast.List, ast.Set)):
            parts = [ast.Compare(l, [ast.Eq()], [x]) for x in r.elts]
            b, t, _ = self.expr(ast.BoolOp(ast.Or(), parts), env) if len(parts) > 1 else self.expr(parts[0], env)
            return b, (t if isinstance(op, ast.In) else '(negb %s)' % t), 'bool'
        bl, tl, tyl = self.expr(l, env)
        br, tr, tyr = self.expr(r, env)
        if tyl == tyr and tyl in ('option string', 'option R') and isinstance(op, (ast.Eq, ast.NotEq)):
            tt = '(opt_eqb %s %s %s)' % ('String.eqb' if tyl == 'option string' else 'Reqb', tl, tr)
            return bl + br, tt if isinstance(op, ast.Eq) else '(negb %s)' % tt, 'bool'
        if tyl == 'string' or tyr == 'string':
            if tyl == 'option string': tt = '(match %s with Some v => String.eqb v %s | None => false end)' % (tl, tr)
            elif tyr == 'option string': raise Unsupported('streq')
            else: tt = '(String.eqb %s %s)' % (tl, tr)
            if isinstance(op, ast.Eq): return bl + br, tt, 'bool'
            if isinstance(op, ast.NotEq): return bl + br, '(negb %s)' % tt, 'bool'
            raise Unsupported('string order')
        if tyl == 'bool' and tyr == 'bool':
            return bl + br, '(Bool.eqb %s %s)' % (tl, tr), 'bool'
        if 'option R' in (tyl, tyr) and isinstance(op, (ast.Eq,)) and tyr == 'R':
            return bl + br, '(match %s with Some v => Reqb v %s | None => false end)' % (tl, self.par(tr)), 'bool'
        if 'none' in (tyl, tyr) and isinstance(op, (ast.Eq, ast.NotEq)) and tyl != tyr and 'option' not in str(tyl) + str(tyr):
            return bl + br, 'false' if isinstance(op, ast.Eq) else 'true', 'bool'
        bl, tl, tr = self.num2(l, r, env); br = []
        a, b = self.par(tl), self.par(tr)
        t = {ast.Lt: 'Rltb %s %s' % (a, b), ast.Gt: 'Rltb %s %s' % (b, a), ast.LtE: 'Rleb %s %s' % (a, b),
             ast.GtE: 'Rleb %s %s' % (b, a), ast.Eq: 'Reqb %s %s' % (a, b), ast.NotEq: 'negb (Reqb %s %s)' % (a, b)}.get(type(op))
        if t is None: raise Unsupported('cmp')
        return bl + br, '(' + t + ')', 'bool'
    def call(self, e, env):
        if isinstance(e.func, ast.Attribute):
            raise Unsupported('attr call')
        f = e.func.id if isinstance(e.func, ast.Name) else None
        if f in ('min', 'max') and len(e.args) >= 2 and not e.keywords:
            bs, ts = [], []
            for a in e.args:
                b, t, _ = self.num(a, env); bs += b; ts.append(self.par(t))
            r = ts[0]
            for t in ts[1:]: r = '(%s %s %s)' % ('Rmin' if f == 'min' else 'Rmax', r, t)
            return bs, r, 'R'
        if f in self.over.get('oracle', {}):
            bs, ts = [], []
            for a in e.args:
                b, t, _ = self.expr(a, env); bs += b; ts.append(self.par(t))
            for kw in e.keywords:
                b, t, _ = self.expr(kw.value, env); bs += b; ts.append(self.par(t))
            x = self.fresh()
            return bs + [(x, '%s %s' % (f, ' '.join(ts)))], x, self.over['oracle'][f]
        if f in self.over.get('stub', ()):
            x = self.fresh()
            return [(x, 'Err NotImplementedError')], x, 'R'
        if f in self.over.get('solver', ()):
            # root finder as a parameter: first argument a module function of the unknown, second the starting point(s)
            fn = REG[e.args[0].id]
            bs, ts, rest = [], [], []
            for a in e.args[1:]:
                b, t, _ = self.num(a, env); bs += b; ts.append(self.par(t))
            extra = [k for k in e.keywords if k.arg != 'args']
            if extra and not self.over.get('solver_opts'): raise Unsupported('solver option ' + extra[0].arg)
            for k in e.keywords:
                if k.arg == 'args':
                    for (p, ty, d), a in zip(fn.params[1:], k.value.elts): rest.append(self.coerce(a, ty, env, bs))
            if len(rest) != len(fn.params) - 1: raise Unsupported('solver args')
            x = self.fresh()
            return bs + [(x, '%s (fun x_ => %s) %s' % (f, ' '.join([fn.coq] + fn.pre + ['x_'] + rest), ' '.join(ts)))], x, 'R'
        if f == 'horner' and len(e.args) == 2:
            b, t, _ = self.num(e.args[1], env)
            return b, '(horner %s %s)' % (self.rlist(e.args[0], env), self.par(t)), 'R'
        if f == 'interp':
            b, t, _ = self.num(e.args[0], env)
            kw = {k.arg: k.value for k in e.keywords}
            if set(kw) - {'extrapolate'}: raise Unsupported('interp options')
            ex = 'true' if kw and kw['extrapolate'].value is True else 'false'
            bs = list(b)
            xs, ys = self.rlist(e.args[1], env, bs), self.rlist(e.args[2], env, bs)
            x = self.fresh()
            return bs + [(x, 'interp %s %s %s None None %s' % (self.par(t), xs, ys, ex))], x, 'R'
        if f == 'splev' and len(e.args) == 2 and not e.keywords:
            b, t, _ = self.num(e.args[0], env)
            k = data_tck(self.mod, e.args[1].id)
            x = self.fresh()
            n = cname(e.args[1].id)
            return b + [(x, 'py_splev %s (map Q2R %s_t) (map Q2R %s_c) %d 0' % (self.par(t), n, n, k[0]))], x, 'R'
        if f == 'bisplev' and len(e.args) == 3 and not e.keywords:
            b, t1, t2 = self.num2(e.args[0], e.args[1], env)
            x = self.fresh()
            n = cname(e.args[2].id)
            k = data_tck(self.mod, e.args[2].id)
            if k == 'linear': m = 'bisplev_linear (map Q2R %s_x) (map Q2R %s_y) (map (map Q2R) %s_z) %s %s' % (n, n, n, self.par(t1), self.par(t2))
            else: m = 'bisplev (map Q2R %s_tx) (map Q2R %s_ty) (map Q2R %s_c) %d %d %s %s' % (n, n, n, k[0], k[1], self.par(t1), self.par(t2))
            return b + [(x, m)], x, 'R'
        if f is not None and f not in REG and f not in FUN1 and f not in env:
            m = modconst(self.mod, f)
            if m is not None and isinstance(m[1], ast.Lambda):
                lam = m[1]; env2 = {}; bs = []
                for a, v in zip(lam.args.args, e.args):
                    b, t, _ = self.num(v, env); bs += b
                    env2[a.arg] = ('R', self.par(t))
                sub = Tr(m[2], None, m[0], {}); sub.n = self.n; sub.user = self.user
                b, t, ty = sub.expr(lam.body, env2); self.n = sub.n
                return bs + b, t, ty
        if f in FUN1 and len(e.args) == 1 and f not in REG:
            b, t, _ = self.num(e.args[0], env)
            c, eff = FUN1[f]
            if c == '': return b, t, 'R'
            if not eff: return b, '(%s %s)' % (c, self.par(t)), 'R'
            x = self.fresh()
            return b + [(x, '%s %s' % (c, self.par(t)))], x, 'R'
        if f in REG:
            fn = REG[f]
            vals = {}
            bs = []
            for (p, ty, d), a in zip(fn.params, e.args): vals[p] = a
            for k in e.keywords:
                if k.arg is None: raise Unsupported('**')
                vals[k.arg] = k.value
            ts = []
            # python evaluates arguments in call order
            done = {}
            order = [p for p, _, _ in fn.params[:len(e.args)]] + [k.arg for k in e.keywords]
            types = {p: ty for p, ty, _ in fn.params}
            for p in order:
                if p not in types: raise Unsupported('no parameter %s in %s' % (p, f))
                done[p] = self.coerce(vals[p], types[p], env, bs)
            for p, ty, d in fn.params:
                if p in done: ts.append(done[p])
                else:
                    if d is None: raise Unsupported('missing arg %s of %s' % (p, f))
                    ts.append(d)
            x = self.fresh()
            return bs + [(x, '%s %s' % (fn.coq, ' '.join(fn.pre + ts)))], x, fn.ret
        raise Unsupported('call ' + str(f))
    def rlist(self, e, env, bs=None):
        """a list argument: a module table or a literal list of numbers"""
        if isinstance(e, ast.Name) and e.id not in env:
            data_list(self.mod, e.id)
            return '(map Q2R %s)' % cname(e.id)
        if isinstance(e, ast.List):
            ts = []
            for v in e.elts:
                b, t, _ = self.num(v, env)
                if b and bs is None: raise Unsupported('effect in list')
                bs += b; ts.append(t)
            return '[' + '; '.join(ts) + ']'
        raise Unsupported('list argument')
    def coerce(self, a, ty, env, bs):
        b, t, t0 = self.expr(a, env)
        bs += b
        if t0 == ty: return self.par(t)
        if ty.startswith('option'):
            if t0 == 'none': return 'None'
            if 'option ' + str(t0) == ty: return '(Some %s)' % self.par(t)
        if t0 == 'option R' and ty == 'R':
            x = self.fresh(); bs.append((x, 'match %s with Some v => Ok v | None => Err TypeError end' % t)); return x
        if t0 == 'none' and ty == 'R': raise Unsupported('None for R')
        raise Unsupported('coerce %s to %s' % (t0, ty))
    def wrap(self, binds, body):
        for x, m in reversed(binds):
            if m.startswith('Err ') and re.fullmatch(r'Err \w+', m): body = m
            elif body == 'Ok %s' % x:
                body = m
            else:
                body = '%s <- %s ;;\n%s' % (x, m, body)
        return body
    # conditions with narrowing
    def optvars(self, e, env):
        return any(isinstance(n, ast.Name) and n.id in env and str(env[n.id][0]).startswith('option') for n in ast.walk(e))
    def cond(self, e, env, kt, kf):
        if isinstance(e, ast.Compare) and len(e.ops) == 1 and isinstance(e.ops[0], (ast.In, ast.NotIn)) and isinstance(e.left, ast.Constant) \
           and e.left.value is None and isinstance(e.comparators[0], (ast.List, ast.Tuple, ast.Set)):
            inn = isinstance(e.ops[0], ast.In)
            parts = [ast.Compare(x, [ast.Is() if inn else ast.IsNot()], [ast.Constant(None)]) for x in e.comparators[0].elts]
            e = ast.BoolOp(ast.Or() if inn else ast.And(), parts) if len(parts) > 1 else parts[0]
        if isinstance(e, ast.UnaryOp) and isinstance(e.op, ast.Not):
            return self.cond(e.operand, env, kf, kt)
        if isinstance(e, ast.BoolOp) and (self.optvars(e, env) or self.effects(e, env)):
            first, rest = e.values[0], e.values[1:]
            r = rest[0] if len(rest) == 1 else ast.BoolOp(e.op, rest)
            if isinstance(e.op, ast.And):
                return self.cond(first, env, lambda v: self.cond(r, v, kt, kf), kf)
            return self.cond(first, env, kt, lambda v: self.cond(r, v, kt, kf))
        if isinstance(e, ast.Compare) and len(e.ops) == 1 and isinstance(e.ops[0], (ast.Is, ast.IsNot)) and isinstance(e.left, ast.Name) \
           and isinstance(e.comparators[0], ast.Constant) and e.comparators[0].value is None:
            v = e.left.id
            if v not in env: raise Unsupported('is none on ' + v)
            ty, c = env[v]
            ks, kn = (kf, kt) if isinstance(e.ops[0], ast.Is) else (kt, kf)
            if ty == 'none': return kn(env)
            if not str(ty).startswith('option'):
                return ks(env)
            env2 = dict(env); env2[v] = (ty[7:], c)
            env3 = dict(env); env3[v] = ('none', 'None')
            return 'match %s with\n| Some %s => %s\n| None => %s\nend' % (c, c, ks(env2), kn(env3))
        if isinstance(e, ast.Name) and e.id in env and str(env[e.id][0]).startswith('option'):
            ty, c = env[e.id]
            if ty != 'option R': raise Unsupported('truth of ' + ty)
            env2 = dict(env); env2[e.id] = ('R', c)
            env3 = dict(env); env3[e.id] = ('none', 'None')
            return 'match %s with\n| Some %s => if Reqb %s 0 then %s else %s\n| None => %s\nend' % (c, c, c, kf(env2), kt(env2), kf(env3))
        if isinstance(e, ast.Name) and e.id in env and env[e.id][0] == 'R':
            return 'if Reqb %s 0 then %s\nelse %s' % (env[e.id][1], kf(env), kt(env))
        if isinstance(e, ast.Name) and e.id in env and env[e.id][0] == 'none':
            return kf(env)
        b, t, ty = self.expr(e, env)
        if ty != 'bool': raise Unsupported('cond type %s' % (ty,))
        if t == 'true' and not b: return kt(env)
        if t == 'false' and not b: return kf(env)
        return self.wrap(b, 'if %s then %s\nelse %s' % (t, kt(env), kf(env)))
    def effects(self, e, env):
        n = self.n
        try:
            b, _, _ = self.expr(e, env)
            return bool(b)
        except Unsupported as x:
            return True
        finally:
            self.n = n
    # statements
    def returns(self, stmts):
        for s in stmts:
            if isinstance(s, ast.Return): return True
            if isinstance(s, ast.If) and (self.returns(s.body) or self.returns(s.orelse)): return True
        return False
    def alwaysret(self, stmts):
        for s in stmts:
            if isinstance(s, (ast.Return, ast.Raise)): return True
            if isinstance(s, ast.If) and s.orelse and self.alwaysret(s.body) and self.alwaysret(s.orelse): return True
        return False
    def assigned(self, stmts):
        r = []
        for s in stmts:
            if isinstance(s, ast.Assign):
                for t in s.targets:
                    for n in (t.elts if isinstance(t, ast.Tuple) else [t]):
                        if isinstance(n, ast.Name) and n.id not in r: r.append(n.id)
            elif isinstance(s, (ast.AugAssign, ast.AnnAssign)):
                if s.target.id not in r: r.append(s.target.id)
            elif isinstance(s, ast.If):
                for n in self.assigned(s.body) + self.assigned(s.orelse):
                    if n not in r: r.append(n)
        return r
    def reads(self, n):
        return {x.id for x in ast.walk(n) if isinstance(x, ast.Name) and isinstance(x.ctx, ast.Load)}
    def used(self, stmts, out=frozenset()):
        """names live on entry to stmts: read before they are written on some path"""
        live = set(out)
        for s in reversed(stmts):
            if isinstance(s, ast.If):
                live = self.reads(s.test) | self.used(s.body, live) | self.used(s.orelse, live)
            elif isinstance(s, (ast.Return, ast.Raise)):
                live = self.reads(s)
            elif isinstance(s, ast.Assign):
                w = {x.id for t in s.targets for x in ast.walk(t) if isinstance(x, ast.Name)}
                live = (live - w) | self.reads(s.value)
            elif isinstance(s, ast.AugAssign):
                live = live | {s.target.id} | self.reads(s.value)
            else:
                live = live | self.reads(s)
        return live
    def block(self, stmts, env, k=None):
        """code for stmts; k(env) for what follows (None at function level)"""
        if not stmts:
            if k is None: raise Unsupported('falls off the end')
            return k(env)
        s, rest = stmts[0], stmts[1:]
        if isinstance(s, ast.Expr) and isinstance(s.value, ast.Constant): return self.block(rest, env, k)
        if isinstance(s, ast.Pass): return self.block(rest, env, k)
        if isinstance(s, ast.Return):
            b, t, ty = self.expr(s.value, env)
            self.rets.append(ty)
            if ty == 'option R':
                pass
            return self.wrap(b, 'Ok %s' % self.par(t))
        if isinstance(s, ast.Raise):
            x = s.exc.func.id if isinstance(s.exc, ast.Call) else s.exc.id
            return 'Err %s' % {'Exception': 'RuntimeError'}.get(x, x)
        if isinstance(s, ast.AnnAssign) and s.value is not None:
            s = ast.Assign([s.target], s.value)
        if isinstance(s, ast.Assign):
            if len(s.targets) != 1:
                if all(isinstance(t, ast.Name) for t in s.targets):
                    new = [ast.Assign([s.targets[-1]], s.value)] + [ast.Assign([t], ast.Name(s.targets[-1].id, ast.Load())) for t in s.targets[:-1]]
                    return self.block(new + rest, env, k)
                raise Unsupported('targets')
            tgt = s.targets[0]
            if isinstance(tgt, ast.Tuple):
                if not isinstance(s.value, ast.Tuple):
                    b, t, ty = self.expr(s.value, env)
                    if not (isinstance(ty, tuple) and ty[0] == 'tuple'): raise Unsupported('unpack')
                    env2 = dict(env); names = []
                    for n, yy in zip(tgt.elts, ty[1]):
                        env2[n.id] = (yy, cname(n.id)); names.append(cname(n.id))
                    return self.wrap(b, "let '(%s) := %s in\n%s" % (', '.join(names), t, self.block(rest, env2, k)))
                if any(n.id in self.used([ast.Expr(v)]) for n in tgt.elts for v in s.value.elts):
                    tmp = [n.id + '_new' for n in tgt.elts]
                    new = [ast.Assign([ast.Name(t, ast.Store())], v) for t, v in zip(tmp, s.value.elts)] + \
                          [ast.Assign([n], ast.Name(t, ast.Load())) for t, n in zip(tmp, tgt.elts)]
                    return self.block(new + rest, env, k)
                new = [ast.Assign([a], b) for a, b in zip(tgt.elts, s.value.elts)]
                return self.block(new + rest, env, k)
            if not isinstance(tgt, ast.Name): raise Unsupported('target')
            b, t, ty = self.expr(s.value, env)
            env2 = dict(env)
            c = cname(tgt.id)
            env2[tgt.id] = (ty, c)
            if ty == 'none':
                env2[tgt.id] = ('none', 'None')
                return self.block(rest, env2, k)
            if b and b[-1][0] == t:
                b = b[:-1] + [(c, b[-1][1])]
                return self.wrap(b, self.block(rest, env2, k))
            return self.wrap(b, 'let %s := %s in\n%s' % (c, t, self.block(rest, env2, k)))
        if isinstance(s, ast.AugAssign):
            return self.block([ast.Assign([s.target], ast.BinOp(ast.Name(s.target.id, ast.Load()), s.op, s.value))] + rest, env, k)
        if isinstance(s, ast.If):
            # X is None: X = e
            if not s.orelse and len(s.body) == 1 and isinstance(s.body[0], ast.Assign) and isinstance(s.test, ast.Compare) \
               and isinstance(s.test.ops[0], ast.Is) and isinstance(s.test.left, ast.Name) and isinstance(s.body[0].targets[0], ast.Name) \
               and s.body[0].targets[0].id == s.test.left.id and s.test.left.id in env and str(env[s.test.left.id][0]).startswith('option'):
                v = s.test.left.id; ty, c = env[v]
                env3 = dict(env); env3[v] = ('none', 'None')
                b, t, ty2 = self.expr(s.body[0].value, env3)
                env2 = dict(env); env2[v] = (ty[7:], c)
                if not b:
                    return 'let %s := match %s with Some v => v | None => %s end in\n%s' % (c, c, t, self.block(rest, env2, k))
                return '%s <- match %s with Some v => Ok v | None => %s end ;;\n%s' % (c, c, self.wrap(b, 'Ok %s' % self.par(t)), self.block(rest, env2, k))
            if (not s.orelse and self.alwaysret(s.body)) or self.returns(s.body) or self.returns(s.orelse):
                kk = lambda v: self.block(rest, v, k)
                return self.cond(s.test, env, lambda v: self.block(s.body, v, kk), lambda v: self.block(s.orelse, v, kk) if s.orelse else kk(v))
            if not rest and k is not None:
                return self.cond(s.test, env, lambda v: self.block(s.body, v, k), lambda v: self.block(s.orelse, v, k) if s.orelse else k(v))
            # join
            out = self.live if k is not None else set()
            names = [n for n in self.assigned([s]) if n in self.used(rest, out)]
            small = sum(1 for _ in ast.walk(ast.Module(rest, []))) < 25
            nested = sum(isinstance(x, ast.If) for x in ast.walk(s))
            if small and k is None and nested <= 1:
                kk = lambda v: self.block(rest, v, k)
                return self.cond(s.test, env, lambda v: self.block(s.body, v, kk), lambda v: self.block(s.orelse, v, kk) if s.orelse else kk(v))
            if not names:
                # effects only
                code = self.cond(s.test, env, lambda v: self.block(s.body, v, lambda _: 'Ok tt'), lambda v: self.block(s.orelse, v, lambda _: 'Ok tt') if s.orelse else 'Ok tt')
                return '_ <- (%s) ;;\n%s' % (code, self.block(rest, env, k))
            types = {}
            def fin(v):
                outs = []
                for n in names:
                    if n not in v:
                        return 'Err UnboundLocalError'
                    types.setdefault(n, set()).add(v[n][0] if isinstance(v[n][0], str) else 'tuple')
                    outs.append(v[n])
                return ('FIN', outs)
            # two passes to settle types
            save = self.n
            marker = {}
            def fin1(v):
                if any(n not in v for n in names): marker['unbound'] = True; return 'X'
                for n in names: types.setdefault(n, set()).add(v[n][0])
                return 'X'
            oldlive = self.live; self.live = self.used(rest, out)
            self.cond(s.test, env, lambda v: self.block(s.body, v, fin1), lambda v: self.block(s.orelse, v, fin1) if s.orelse else fin1(v))
            self.n = save
            if 'unbound' in marker:
                # some path leaves a live name unset: repeat the continuation, which fails where it reads it
                self.live = oldlive
                kk = lambda v: self.block(rest, v, k)
                return self.cond(s.test, env, lambda v: self.block(s.body, v, kk), lambda v: self.block(s.orelse, v, kk) if s.orelse else kk(v))
            final = {}
            for n in names:
                ts = types.get(n, set())
                if len(ts) == 1: final[n] = list(ts)[0]
                elif ts <= {'R', 'none', 'option R'}: final[n] = 'option R'
                else: raise Unsupported('join types %s %s' % (n, ts))
            def fin2(v):
                if any(n not in v for n in names): return 'Err UnboundLocalError'
                outs = []
                for n in names:
                    t, c = v[n]
                    if final[n] == 'option R' and t == 'R': c = '(Some %s)' % self.par(c)
                    outs.append(c)
                return 'Ok ' + (outs[0] if len(outs) == 1 else '(' + ', '.join(outs) + ')')
            code = self.cond(s.test, env, lambda v: self.block(s.body, v, fin2), lambda v: self.block(s.orelse, v, fin2) if s.orelse else fin2(v))
            self.live = oldlive
            env2 = dict(env)
            for n in names: env2[n] = (final[n], cname(n))
            # variables not live afterwards but reassigned keep nothing
            pat = cname(names[0]) if len(names) == 1 else "'(" + ', '.join(cname(n) for n in names) + ')'
            return '%s <- (%s) ;;\n%s' % (pat, code, self.block(rest, env2, k))
        raise Unsupported(type(s).__name__)
    def run(self, coq=None):
        f = self.node
        self.rets = []; self.live = set()
        self.locals = set(self.assigned(f.body))
        over = self.over
        params = []
        args = f.args.args
        defs = [None] * (len(args) - len(f.args.defaults)) + list(f.args.defaults)
        env = {}
        for a, d in zip(args, defs):
            ty = over.get('types', {}).get(a.arg) or ann_type(a.annotation)
            isnone = isinstance(d, ast.Constant) and d.value is None
            if ty is None: ty = 'option R' if isnone else 'R'
            if isnone and not ty.startswith('option'): ty = 'option ' + ty
            if a.arg in over.get('fix', {}):
                env[a.arg] = over['fix'][a.arg]; continue
            dv = None
            if d is not None:
                if isnone: dv = 'None'
                else:
                    b, t, t0 = self.expr(d, {})
                    dv = self.par(t) if not (ty.startswith('option') and t0 != 'none') else '(Some %s)' % t
            env[a.arg] = (ty, cname(a.arg))
            params.append((a.arg, ty, dv))
        body = self.block(f.body, env)
        ret = set(map(str, self.rets))
        fn = Fn(); fn.coq = coq or cname(f.name); fn.params = params; fn.ret = self.rets[0] if self.rets else 'R'
        pre = over.get('pre', []); fn.pre = [p for p, _ in pre]
        sig = ' '.join(['(%s : %s)' % p for p in pre] + ['(%s : %s)' % (cname(p), t) for p, t, _ in params])
        def cty(t): return t if isinstance(t, str) else '(' + ' * '.join(cty(x) for x in t[1]) + ')'
        # first executable line
        st = [s for s in f.body if not (isinstance(s, ast.Expr) and isinstance(s.value, ast.Constant))]
        lo, hi = st[0].lineno, f.end_lineno
        note = over.get('note', '')
        com = '(** fluids/%s:%d-%d [%s].%s *)' % (self.mod, lo, hi, f.name, (' ' + note) if note else '')
        rt = cty(fn.ret)
        if over.get('ret'): rt = over['ret']
        code = '%s\nDefinition %s %s : result %s :=\n%s.' % (com, fn.coq, sig, rt if ' ' not in rt or rt.startswith('(') else '(' + rt + ')', indent(body))
        REG[f.name] = fn
        return code

def indent(code):
    out = []; d = 1
    for ln in code.split('\n'):
        ln = ln.strip()
        if ln.startswith('end'): d = max(1, d - 1)
        out.append('  ' * d + ln)
        if ln.startswith('match') and 'end' not in ln: d += 1
        elif re.search(r'(=>|then|else|\() ?match [^|]* with$', ln): d += 1
    return '\n'.join(out)

# tables: module-level lists and spline coefficients, emitted before the function that uses them
DATA = {}      # coq name -> definition text
EMITTED = set()
def qlit(src, e):
    if isinstance(e, ast.UnaryOp) and isinstance(e.op, ast.USub): return '(-%s)' % qlit(src, e.operand)
    seg = ast.get_source_segment(src, e).replace('_', '')
    t = lit(seg)
    return t
def qlst(src, e):
    if e.elts and isinstance(e.elts[0], (ast.List, ast.Tuple)): return '[' + ';\n   '.join(qlst(src, x) for x in e.elts) + ']'
    return '[' + '; '.join(qlit(src, x) for x in e.elts) + ']'
def data_def(name, ty, src, e, mod):
    if name not in DATA:
        DATA[name] = '(** fluids/%s:%d-%d *)\nDefinition %s : %s := (%s)%%Q.' % (mod, e.lineno, e.end_lineno, name, ty, qlst(src, e))
def data_list(mod, name):
    m = modconst(mod, name)
    if m is None or not isinstance(m[1], (ast.List, ast.Tuple)): raise Unsupported('table ' + name)
    data_def(cname(name), 'list Q', m[0], m[1], m[2])
def data_tck(mod, name):
    m = modconst(mod, name)
    if m is None: raise Unsupported('tck ' + name)
    src, e, mod2 = m
    n = cname(name)
    if isinstance(e, ast.Call) and e.func.id == 'implementation_optimize_tck': e = e.args[0]
    if isinstance(e, ast.Call) and e.func.id == 'tck_interp2d_linear':
        for suf, a, ty in zip('xyz', e.args, ('list Q', 'list Q', 'list (list Q)')):
            mm = modconst(mod2, a.id)
            data_def(n + '_' + suf, ty, mm[0], mm[1], mm[2])
        return 'linear'
    if isinstance(e, (ast.List, ast.Tuple)):
        el = e.elts
        if len(el) == 3:
            data_def(n + '_t', 'list Q', src, el[0], mod2); data_def(n + '_c', 'list Q', src, el[1], mod2)
            return (el[2].value,)
        if len(el) == 5:
            for suf, a in zip(('tx', 'ty', 'c'), el): data_def(n + '_' + suf, 'list Q', src, a, mod2)
            return (el[3].value, el[4].value)
    raise Unsupported('tck ' + name)

_cache = {}
def load(mod):
    if mod not in _cache:
        src = open(REPO + mod).read()
        tree = ast.parse(src)
        fns = {}
        for n in ast.walk(tree):
            if isinstance(n, ast.FunctionDef): fns.setdefault(n.name, n)
        _cache[mod] = (src, fns)
    return _cache[mod]

def modconst(mod, name, seen=()):
    """(source, expression, module) of a module-level constant, following fluids-internal imports"""
    if (mod, name) in seen: return None
    src = load(mod)[0]
    tree = ast.parse(src)
    hit = None
    for n in tree.body:
        if isinstance(n, ast.Assign):
            for t in n.targets:
                if isinstance(t, ast.Name) and t.id == name: hit = (src, n.value, mod)
                if isinstance(t, ast.Tuple) and isinstance(n.value, ast.Tuple):
                    for a, b in zip(t.elts, n.value.elts):
                        if isinstance(a, ast.Name) and a.id == name: hit = (src, b, mod)
        if isinstance(n, ast.AnnAssign) and isinstance(n.target, ast.Name) and n.target.id == name and n.value is not None: hit = (src, n.value, mod)
    if hit: return hit
    for n in tree.body:
        if isinstance(n, ast.ImportFrom) and any((a.asname or a.name) == name for a in n.names):
            m = (n.module or '').replace('fluids.', '')
            import os
            if m == "constants": m = "constants/constants"
            if os.path.exists(REPO + m.replace('.', '/') + '.py'): return modconst(m.replace('.', '/') + '.py', name, seen + ((mod, name),))
    return None
def exactval(mod, e):
    """exact rational value of a constant expression, or None"""
    if isinstance(e, ast.Constant) and isinstance(e.value, (int, float)) and not isinstance(e.value, bool):
        seg = ast.get_source_segment(load(mod)[0], e)
        return Fraction(Decimal(seg.replace('_', ''))) if seg else None
    if isinstance(e, ast.Name):
        m = modconst(mod, e.id)
        return exactval(m[2], m[1]) if m else None
    if isinstance(e, ast.UnaryOp) and isinstance(e.op, ast.USub):
        v = exactval(mod, e.operand); return None if v is None else -v
    if isinstance(e, ast.BinOp):
        a, b = exactval(mod, e.left), exactval(mod, e.right)
        if a is None or b is None: return None
        if isinstance(e.op, ast.Add): return a + b
        if isinstance(e.op, ast.Sub): return a - b
        if isinstance(e.op, ast.Mult): return a * b
        if isinstance(e.op, ast.Div) and b != 0: return a / b
        if isinstance(e.op, ast.Pow) and b.denominator == 1 and abs(b) < 100: return a ** int(b)
    return None
def frlit(f):
    d = f.denominator
    n2 = n5 = 0
    while d % 2 == 0: d //= 2; n2 += 1
    while d % 5 == 0: d //= 5; n5 += 1
    if d == 1:
        k = max(n2, n5)
        v = abs(f) * 10 ** k; assert v.denominator == 1
        t = str(int(v)).rjust(k + 1, '0')
        t = t if k == 0 else t[:-k] + '.' + t[-k:]
        return t if f >= 0 else '(- %s)' % t
    return '(%s%d / %d)' % ('-' if f < 0 else '', abs(f.numerator), f.denominator)
def constval(mod, name):
    m = modconst(mod, name)
    if m is None: raise Unsupported('name ' + name)
    ns = {'__builtins__': {}, 'pi': math.pi}
    for n in ast.walk(m[1]):
        if isinstance(n, ast.Name) and n.id != 'pi': ns[n.id] = constval(m[2], n.id)
    return eval(compile(ast.fix_missing_locations(ast.Expression(m[1])), '', 'eval'), ns)

def translate(mod, name, **over):
    src, fns = load(mod)
    return Tr(mod, fns[name], src, over).run(over.get('coq'))

HEAD = '''(** %s
    Generated by tools/pytrans.py from /repo/fluids, function by function: floats are exact reals,
    a division, root, logarithm or power that Python refuses is an [Err]; float rounding and overflow
    are not represented.  Module constants are inlined with their exact rational value. *)
From Coq Require Import Reals String List Bool.
From Verif Require Import Base Model_Real.%s
Import ListNotations.
Open Scope R_scope.

'''
def write(out, title, items, imports=''):
    defs, bad = [], []
    for it in items:
        if isinstance(it, str): defs.append(it); continue
        mod, name, over = it[0], it[1], (it[2] if len(it) > 2 else {})
        try:
            before = set(DATA)
            code = translate(mod, name, **over)
            for d in DATA:
                if d not in EMITTED: EMITTED.add(d); defs.append(DATA[d])
            defs.append(code)
        except Unsupported as e:
            bad.append((mod, name, str(e)))
    open(out, 'w').write(HEAD % (title, imports) + '\n\n'.join(defs) + '\n')
    for b in bad: print('UNSUPPORTED', *b)
    return bad
