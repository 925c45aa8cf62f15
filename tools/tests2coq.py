#!/usr/bin/env python3
"""Translate the project's own tests (/repo/timeboard/tests, read as text) into Coq
examples about the model.

Nothing of /repo is imported or run.  A test function becomes one Coq Example: the calls
it makes become the calls of the model's functions, each `assert` becomes a boolean, and
`with pytest.raises(E)` becomes `raises`.  A test that uses something the model does not
have (bad strings, dataframes, repr, ...) is skipped and listed.

usage: tests2coq.py [-l] [--all]     writes ../rocq/theories/Conf*.v, prints what was skipped
"""
import ast, copy, os, re, sys, datetime
from fractions import Fraction

HERE = os.path.dirname(os.path.abspath(__file__))
TESTS = '/repo/timeboard/tests'
OUT = os.path.join(HERE, '..', 'rocq', 'theories')


class Unsupported(Exception):
    pass


class Sym:
    """A value known only as a Coq term."""
    def __init__(self, kind, e, **kw):
        self.kind, self.e = kind, e
        self.__dict__.update(kw)

    def __repr__(self):
        return 'Sym(%s,%s)' % (self.kind, self.e)


class TS:
    """A timestamp literal."""
    def __init__(self, dt, ns=0):
        self.dt, self.ns = dt, ns

    def coq(self):
        d = self.dt
        t = 'ts %d %d %d %d %d %d' % (d.year, d.month, d.day, d.hour, d.minute, d.second)
        return '(%s + %d)' % (t, self.ns) if self.ns else '(%s)' % t

    def __eq__(self, o):
        return isinstance(o, TS) and (self.dt, self.ns) == (o.dt, o.ns)

    def __lt__(self, o):
        return (self.dt, self.ns) < (o.dt, o.ns)

    def __hash__(self):
        return hash(self.dt)


class Per:
    """A pandas.Period: a point in time and a frequency string."""
    def __init__(self, t, freq):
        self.t, self.freq = t, freq

    def coq(self):
        t = self.t.e if isinstance(self.t, Sym) else self.t.coq()
        return '(period_at %s %s)' % (t, freq(self.freq))


class Mk:
    """A Marker."""
    def __init__(self, each, at, how):
        self.each, self.at, self.how = each, at, how


class Org:
    def __init__(self, div, structure):
        self.div, self.structure = div, structure


class Rem:
    """RememberingPattern number k."""
    def __init__(self, k, labels):
        self.k, self.labels = k, labels


class Fn:
    """A function of the test module or a lambda."""
    def __init__(self, node, env):
        self.node, self.env = node, env


class Builtin:
    def __init__(self, name, self_=None):
        self.name, self.self_ = name, self_


class Loc:
    def __init__(self, pos, where):
        self.pos, self.where = pos, where


class Span:
    def __init__(self, a, b, l=0, r=0):
        self.a, self.b, self.l, self.r = a, b, l, r

    def coq(self):
        return '(mkSpan %s %s %s %s)' % tuple(z(x) for x in (self.a, self.b, self.l, self.r))


class Opaque:
    """A module or class named in the test."""
    def __init__(self, name):
        self.name = name


MONTHS = dict((m, i + 1) for i, m in enumerate(
    'jan feb mar apr may jun jul aug sep oct nov dec'.split()))
WD = dict((d, i) for i, d in enumerate('MON TUE WED THU FRI SAT SUN'.split()))


def parse_ts(s):
    s = s.strip()
    tm = (0, 0, 0)
    ns = 0
    m = re.search(r'[ T](\d\d?):(\d\d)(?::(\d\d)(\.\d{9})?)?$', s)
    if m:
        tm = (int(m.group(1)), int(m.group(2)), int(m.group(3) or 0))
        ns = int((m.group(4) or '.0')[1:])
        s = s[:m.start()].strip()
    m = re.match(r'^(\d{1,2})[ -]([A-Za-z]{3})[a-z]*[ -](\d{4})$', s)
    try:
        if m and m.group(2).lower() in MONTHS:
            return TS(datetime.datetime(int(m.group(3)), MONTHS[m.group(2).lower()], int(m.group(1)), *tm), ns)
        m = re.match(r'^([A-Za-z]{3})[a-z]* (\d{4})$', s)
        if m and m.group(1).lower() in MONTHS:
            return TS(datetime.datetime(int(m.group(2)), MONTHS[m.group(1).lower()], 1, *tm), ns)
        m = re.match(r'^(\d{4})-(\d\d)-(\d\d)$', s)
        if m:
            return TS(datetime.datetime(int(m.group(1)), int(m.group(2)), int(m.group(3)), *tm), ns)
        m = re.match(r'^(\d\d)\.(\d\d)\.(\d{4})$', s)
        if m and int(m.group(1)) > 12:  # day first
            return TS(datetime.datetime(int(m.group(3)), int(m.group(2)), int(m.group(1)), *tm), ns)
        m = re.match(r'^(\d{4})$', s)
        if m:
            return TS(datetime.datetime(int(m.group(1)), 1, 1))
    except ValueError:
        pass
    raise Unsupported('timestamp string %r' % s)


def bad_text(s):
    """A string that pandas cannot read as a time or a frequency."""
    return isinstance(s, str) and s in (
        'bad timestamp', 'bad_timestamp', 'bad_period', '33 Dec 2016', 'anyhting', 'anything',
        'something', 'not a tuple', 'x')


def z(n):
    if isinstance(n, bool):
        n = int(n)
    if isinstance(n, Sym):
        if n.kind != 'Z':
            raise Unsupported('integer from ' + n.kind)
        return n.e
    if not isinstance(n, int):
        raise Unsupported('integer from %r' % (n,))
    return str(n) if n >= 0 else '(%d)' % n


def freq(s):
    if not isinstance(s, str):
        raise Unsupported('frequency %r' % (s,))
    m = re.match(r'^(\d*)([A-Za-z]+)(?:-([A-Z]+))?$', s)
    if not m:
        raise Unsupported('frequency %r' % s)
    dig, al, anc = m.groups()
    simple = {'S': 'AlS', 'T': 'AlT', 'min': 'AlMin', 'H': 'AlH', 'D': 'AlD', 'M': 'AlM', 'Y': 'AlY'}
    if al in simple and not anc:
        a = simple[al]
    elif al == 'W':
        a = '(AlW %s)' % ('None' if not anc else '(Some %d)' % WD[anc])
    elif al in ('A', 'Q'):
        a = '(Al%s %s)' % (al, 'None' if not anc else '(Some %d)' % MONTHS[anc.lower()])
    else:
        raise Unsupported('frequency %r' % s)
    return '(mkFstr %s %s)' % ('(Some %s%%positive)' % int(dig) if dig else 'None', a)


EXC = {'OutOfBoundsError': 'EOutOfBounds', 'PartialOutOfBoundsError': 'EPartialOutOfBounds',
       'VoidIntervalError': 'EVoidInterval', 'UnacceptablePeriodError': 'EUnacceptablePeriod',
       'KeyError': 'EKey', 'ValueError': 'EValue', 'TypeError': 'EType', 'IndexError': 'EIndex',
       'RuntimeError': 'ERuntime', 'AssertionError': 'EAssertion', 'AttributeError': 'EAttribute',
       'StopIteration': 'EStopIteration'}
DUTY = {'on': 'DOn', 'off': 'DOff', 'any': 'DAny', 'same': 'DSame', 'alt': 'DAlt'}
NAN = -999999


class Ctx:
    """What is shared by one test: fresh names, label and name codes, the heap."""
    def __init__(self):
        self.n = 0
        self.labels = {}
        self.names = {'on_duty': 0}
        self.heap = []
        self.feeds = []
        self.known = {}     # lengths asserted so far

    def fresh(self, base):
        self.n += 1
        return '%s%d' % (base, self.n)

    def label(self, x):
        if x is None:
            return '(%d)' % NAN
        if isinstance(x, bool):
            return z(int(x))
        if isinstance(x, int):
            return z(x)
        if isinstance(x, Fraction) and x.denominator == 1:
            return z(int(x))
        if isinstance(x, str):
            if x not in self.labels:
                self.labels[x] = 1000001 + len(self.labels)
            return z(self.labels[x])
        if isinstance(x, Sym) and x.kind == 'Z':
            return x.e
        raise Unsupported('label %r' % (x,))

    def name(self, x):
        x = str(x)
        if x not in self.names:
            self.names[x] = len(self.names)
        return str(self.names[x])


def lst(xs):
    return '[' + '; '.join(xs) + ']'


class Ret(Exception):
    def __init__(self, v):
        self.v = v


class Interp:
    def __init__(self, ctx, module, top):
        self.ctx, self.module, self.top = ctx, module, top
        self.binds = []     # lines 'do x <- e;'
        self.checks = []

    # -- emission ---------------------------------------------------------
    def bind(self, base, e):
        v = self.ctx.fresh(base)
        self.binds.append('do %s <- %s;' % (v, e))
        return v

    def sub(self):
        i = Interp(self.ctx, self.module, self.top)
        return i

    def chain(self, final):
        return '(' + ' '.join(self.binds) + ' ' + final + ')'

    # -- statements -------------------------------------------------------
    def run(self, body, env):
        for s in body:
            self.stmt(s, env)

    def stmt(self, s, env):
        if isinstance(s, ast.Expr):
            if isinstance(s.value, ast.Constant) and isinstance(s.value.value, str):
                return
            self.ev(s.value, env)
        elif isinstance(s, ast.Assign):
            v = self.ev(s.value, env)
            for t in s.targets:
                self.assign(t, v, env)
        elif isinstance(s, ast.Assert):
            self.checks.append(self.truth(self.ev(s.test, env)))
            self.learn(s.test, env)
        elif isinstance(s, ast.Try):
            self.try_(s, env)
        elif isinstance(s, ast.With):
            self.with_(s, env)
        elif isinstance(s, ast.For):
            self.for_(s, env)
        elif isinstance(s, ast.Return):
            raise Ret(None if s.value is None else self.ev(s.value, env))
        elif isinstance(s, ast.FunctionDef):
            env[s.name] = Fn(s, env)
        elif isinstance(s, ast.If):
            c = self.ev(s.test, env)
            if isinstance(c, Sym):
                raise Unsupported('branch on a computed value')
            self.run(s.body if c else s.orelse, env)
        elif isinstance(s, ast.Pass):
            pass
        else:
            raise Unsupported('statement ' + type(s).__name__)

    def learn(self, t, env):
        if (isinstance(t, ast.Compare) and len(t.ops) == 1 and isinstance(t.ops[0], ast.Eq)
                and isinstance(t.left, ast.Call) and isinstance(t.left.func, ast.Name)
                and t.left.func.id == 'len' and isinstance(t.left.args[0], ast.Name)
                and isinstance(t.comparators[0], ast.Constant)):
            v = env.get(t.left.args[0].id)
            if isinstance(v, Sym):
                self.ctx.known['(zlen %s)' % v.e] = t.comparators[0].value

    def try_(self, s, env):
        """try: call  except E: checks  else: fail -- the call changes nothing when it raises"""
        if len(s.handlers) != 1 or len(s.orelse) != 1 or len(s.body) != 1:
            raise Unsupported('try')
        n = s.handlers[0].type.id
        if 'fail' not in ast.dump(s.orelse[0]):
            raise Unsupported('try')
        sub = self.sub()
        sub.run(s.body, self.copies(env))
        self.checks.append('raises [%s] %s' % (EXC[n], sub.chain('Ok tt')))
        self.run(s.handlers[0].body, env)

    def copies(self, env):
        return dict((k, copy.copy(v) if isinstance(v, Sym) else v) for k, v in env.items())

    def assign(self, t, v, env):
        if isinstance(t, ast.Name):
            env[t.id] = v
        elif isinstance(t, (ast.Tuple, ast.List)):
            if isinstance(v, Sym) and v.kind == 'duty_idx':
                vs = [Sym('list:Z', '(fst %s)' % v.e), Sym('opt_pair', '(snd %s)' % v.e)]
            else:
                vs = list(v)
            if len(vs) != len(t.elts):
                raise Unsupported('unpacking')
            for a, b in zip(t.elts, vs):
                self.assign(a, b, env)
        else:
            raise Unsupported('assignment')

    def with_(self, s, env):
        if len(s.items) != 1:
            raise Unsupported('with')
        c = s.items[0].context_expr
        if not (isinstance(c, ast.Call) and isinstance(c.func, ast.Attribute) and c.func.attr == 'raises'):
            raise Unsupported('with')
        a = c.args[0]
        names = [x.id for x in a.elts] if isinstance(a, ast.Tuple) else [a.id if isinstance(a, ast.Name) else a.attr]
        if any(n not in EXC for n in names):
            raise Unsupported('exception ' + ','.join(names))
        sub = self.sub()
        sub.run(s.body, env)
        if not sub.binds:
            raise Unsupported('nothing that can raise')
        self.checks.append('raises %s %s' % (lst([EXC[n] for n in names]), sub.chain('Ok tt')))

    def for_(self, s, env):
        it = self.ev(s.iter, env)
        if isinstance(it, Sym):
            it = self.as_list(it)
            for b in s.body:
                if not (it.kind.startswith('list:') and isinstance(b, ast.Expr)
                        and isinstance(b.value, ast.Call)
                        and isinstance(b.value.func, ast.Attribute)
                        and b.value.func.attr == 'append'):
                    raise Unsupported('loop over a computed value')
                target = b.value.func.value.id
                if env[target] != []:
                    raise Unsupported('append')
                env[target] = self.mapm(it, s.target, b.value.args[0], env)
            return
        if isinstance(it, dict):
            it = list(it)
        for x in it:
            self.assign(s.target, x, env)
            self.run(s.body, env)

    def mapm(self, it, target, elt, env):
        sub = self.sub()
        v = self.ctx.fresh('x')
        env2 = dict(env)
        x = Sym(it.kind[5:], v, **{k: w for k, w in it.__dict__.items() if k not in ('kind', 'e')})
        self.assign(target, x, env2)
        r = sub.ev(elt, env2)
        if isinstance(r, tuple) and len(r) == 2:
            kind, e = 'pair', '(%s, %s)' % (self.coqval(r[0])[1], self.coqval(r[1])[1])
            kw = dict(parts=r)
        else:
            kind, e = self.coqval(r)
            kw = {k: w for k, w in getattr(r, '__dict__', {}).items() if k not in ('kind', 'e')} if isinstance(r, Sym) else {}
        out = self.bind('l', 'mapM (fun %s => %s) %s' % (v, sub.chain('Ok ' + e), it.e))
        return Sym('list:' + kind, out, **kw)

    def coqval(self, r):
        if isinstance(r, Sym):
            return r.kind, r.e
        if isinstance(r, bool):
            return 'bool', 'true' if r else 'false'
        if isinstance(r, int):
            return 'Z', z(r)
        if isinstance(r, TS):
            return 'Z', r.coq()
        raise Unsupported('value %r' % (r,))

    def as_list(self, s):
        if s.kind == 'iv':
            return Sym('list:ws', self.bind('wl', 'iv_workshifts %s %s DAny None' % (s.tb.e, s.e)), tb=s.tb)
        return s

    # -- expressions ------------------------------------------------------
    def truth(self, v):
        if isinstance(v, Sym):
            if v.kind == 'bool':
                return v.e
            if v.kind == 'method' and v.name in ('is_on_duty', 'is_off_duty'):  # a bound method is true
                return 'true'
            if v.kind == 'ws':
                return 'true'
            raise Unsupported('truth of ' + v.kind)
        if isinstance(v, Builtin):
            return 'true'
        return 'true' if v else 'false'

    def ev(self, e, env):
        m = getattr(self, 'ev_' + type(e).__name__, None)
        if m is None:
            raise Unsupported('expression ' + type(e).__name__)
        return m(e, env)

    def ev_Constant(self, e, env):
        if isinstance(e.value, float):
            return Fraction(repr(e.value))
        return e.value

    def ev_Name(self, e, env):
        n = e.id
        if n in env:
            return env[n]
        if n in self.top:
            return self.top[n]
        if n in ('LOC_WITHIN', 'OOB_LEFT', 'OOB_RIGHT'):
            return Sym('Z', n)
        return Builtin(n)

    def ev_List(self, e, env):
        return [self.ev(x, env) for x in e.elts]

    def ev_Tuple(self, e, env):
        return tuple(self.ev(x, env) for x in e.elts)

    def ev_Dict(self, e, env):
        return dict((self.ev(k, env), self.ev(v, env)) for k, v in zip(e.keys, e.values))

    def ev_Lambda(self, e, env):
        return Fn(e, env)

    def ev_UnaryOp(self, e, env):
        v = self.ev(e.operand, env)
        if isinstance(e.op, ast.Not):
            t = self.truth(v)
            if isinstance(v, Sym):
                return Sym('bool', '(negb %s)' % t)
            return not v
        if isinstance(e.op, ast.USub) and not isinstance(v, Sym):
            return -v
        raise Unsupported('unary')

    def ev_BoolOp(self, e, env):
        vs = [self.truth(self.ev(x, env)) for x in e.values]
        op = ' && ' if isinstance(e.op, ast.And) else ' || '
        return Sym('bool', '(' + op.join(vs) + ')')

    def ev_BinOp(self, e, env):
        a, b = self.ev(e.left, env), self.ev(e.right, env)
        op = type(e.op).__name__
        sa, sb = isinstance(a, Sym), isinstance(b, Sym)
        if sa and a.kind == 'ws' and op in ('Add', 'Sub') and isinstance(b, int):
            f = 'ws_add' if op == 'Add' else 'ws_sub'
            return Sym('ws', self.bind('w', '%s %s %s %s' % (f, a.tb.e, a.e, z(b))), tb=a.tb)
        if sa and a.kind == 'iv' and op == 'Mult' and sb and b.kind == 'iv':
            return self.call_iv(a, 'overlap', [b], {})
        if sa and a.kind == 'iv' and op in ('Div',) and sb and b.kind == 'iv':
            return self.call_iv(a, 'what_portion_of', [b], {})
        if (sa and a.kind == 'Q') or (sb and b.kind == 'Q'):
            raise Unsupported('rational arithmetic')
        if sa or sb:
            sgn = {'Add': '+', 'Sub': '-', 'Mult': '*'}.get(op)
            if sgn and (not sa or a.kind == 'Z') and (not sb or b.kind == 'Z'):
                return Sym('Z', '(%s %s %s)' % (self.zv(a), sgn, self.zv(b)))
            raise Unsupported('arithmetic')
        if op == 'Add':
            return a + b
        if op == 'Sub':
            return a - b
        if op == 'Mult':
            return a * b
        if op == 'Div':
            return Fraction(a) / Fraction(b)
        if op == 'Mod' and isinstance(a, str):
            return a % b
        raise Unsupported('operator ' + op)

    def zv(self, a):
        if isinstance(a, TS):
            return a.coq()
        return z(a)

    def ev_IfExp(self, e, env):
        c = self.ev(e.test, env)
        if isinstance(c, Sym):
            raise Unsupported('branch')
        return self.ev(e.body if c else e.orelse, env)

    def ev_ListComp(self, e, env):
        if len(e.generators) != 1:
            raise Unsupported('comprehension')
        g = e.generators[0]
        it = self.ev(g.iter, env)
        if isinstance(it, Sym):
            if g.ifs:
                raise Unsupported('comprehension with a condition')
            return self.mapm(self.as_list(it), g.target, e.elt, env)
        out = []
        env2 = dict(env)
        for x in it:
            self.assign(g.target, x, env2)
            if all(not isinstance(c, Sym) and c for c in (self.ev(i, env2) for i in g.ifs)):
                out.append(self.ev(e.elt, env2))
        return out

    ev_GeneratorExp = ev_ListComp

    def ev_Subscript(self, e, env):
        v = self.ev(e.value, env)
        if isinstance(e.slice, ast.Slice):
            a = self.ev(e.slice.lower, env) if e.slice.lower else None
            b = self.ev(e.slice.upper, env) if e.slice.upper else None
            if isinstance(v, Sym):
                if v.kind.startswith('list:') and isinstance(a, int) and isinstance(b, int) and 0 <= a <= b:
                    return Sym(v.kind, '(py_slice %s %d %d)' % (v.e, a, b))
                raise Unsupported('slice')
            return v[a:b]
        i = self.ev(e.slice, env)
        if not isinstance(v, Sym):
            if isinstance(v, Builtin):
                raise Unsupported('subscript of ' + v.name)
            return v[i]
        if v.kind.startswith('list:'):
            kw = {k: w for k, w in v.__dict__.items() if k not in ('kind', 'e')}
            return Sym(v.kind[5:], self.bind('x', 'py_get_res %s %s' % (v.e, z(i))), **kw)
        if v.kind == 'frame':
            return Sym('unit', self.bind('i', 'fr_get %s %s' % (v.e, z(i))), frame=v.e)
        if v.kind == 'tl':
            return Sym('Z', self.bind('x', 'tl_get %s %s' % (v.e, z(i))))
        if v.kind == 'schedules':
            return Sym('sched', self.bind('sc', 'opt_key (find_schedule %s %s)' % (v.tb.e, self.ctx.name(i))), tb=v.tb)
        if v.kind == 'zpair':
            return Sym('Z', '(%s %s)' % (['fst', 'snd'][i], v.e))
        if v.kind == 'pair':
            q = copy.copy(v.parts[i])
            q.e = '(%s %s)' % (['fst', 'snd'][i], v.e)
            return q
        if v.kind == 'locs':
            return Sym('loc', '(%s %s)' % (['fst', 'snd'][i], v.e))
        raise Unsupported('subscript of ' + v.kind)

    # comparison
    def ev_Compare(self, e, env):
        xs = [e.left] + e.comparators
        vs = [self.ev(x, env) for x in xs]
        parts = [self.cmp(type(o).__name__, a, b) for o, a, b in zip(e.ops, vs, vs[1:])]
        if all(isinstance(p, bool) for p in parts):
            return all(parts)
        return Sym('bool', '(' + ' && '.join(self.truth(p) for p in parts) + ')')

    def cmp(self, op, a, b):
        if op in ('Eq', 'Is'):
            return self.eq(a, b)
        if op in ('NotEq', 'IsNot'):
            r = self.eq(a, b)
            return (not r) if isinstance(r, bool) else Sym('bool', '(negb %s)' % r.e)
        if op in ('In', 'NotIn'):
            if isinstance(b, Sym) and b.kind == 'schedules':
                r = Sym('bool', '(is_some (find_schedule %s %s))' % (b.tb.e, self.ctx.name(a)))
            elif isinstance(b, Sym) or isinstance(a, Sym):
                raise Unsupported('in')
            else:
                r = a in b
            if op == 'In':
                return r
            return (not r) if isinstance(r, bool) else Sym('bool', '(negb %s)' % r.e)
        if not isinstance(a, Sym) and not isinstance(b, Sym):
            return {'Lt': lambda: a < b, 'Gt': lambda: b < a, 'LtE': lambda: not b < a,
                    'GtE': lambda: not a < b}[op]()
        if any(isinstance(x, Sym) and x.kind == 'Q' for x in (a, b)):
            a, b = self.qof(a), self.qof(b)
            return Sym('bool', {'Lt': '(negb (Qle_bool %s %s))' % (b, a), 'Gt': '(negb (Qle_bool %s %s))' % (a, b),
                                'LtE': '(Qle_bool %s %s)' % (a, b), 'GtE': '(Qle_bool %s %s)' % (b, a)}[op])
        a, b = self.zof(a), self.zof(b)
        return Sym('bool', {'Lt': '(%s <? %s)', 'Gt': '(%s >? %s)', 'LtE': '(%s <=? %s)', 'GtE': '(%s >=? %s)'}[op] % (a, b))

    def qof(self, v):
        if isinstance(v, Sym):
            return v.e if v.kind == 'Q' else '(inject_Z %s)' % self.zof(v)
        f = Fraction(v)
        return '(%d # %d)' % (f.numerator, f.denominator)

    def zof(self, v):
        if isinstance(v, TS):
            return v.coq()
        if isinstance(v, Sym):
            if v.kind in ('Z',):
                return v.e
            raise Unsupported('compare ' + v.kind)
        if isinstance(v, str):
            return parse_ts(v).coq()
        return z(v)

    def eq(self, a, b):
        if isinstance(b, Sym) and not isinstance(a, Sym):
            a, b = b, a
        if not isinstance(a, Sym):
            if isinstance(a, (list, tuple)) and isinstance(b, (list, tuple)):
                if len(a) != len(b):
                    return False
                rs = [self.eq(x, y) for x, y in zip(a, b)]
                if all(isinstance(r, bool) for r in rs):
                    return all(rs)
                return Sym('bool', '(' + ' && '.join(self.truth(r) for r in rs) + ')')
            if isinstance(a, range):
                a = list(a)
            if isinstance(a, (Builtin, Opaque, Fn)) or isinstance(b, (Builtin, Opaque, Fn)):
                raise Unsupported('compare functions')
            return a == b
        k = a.kind
        t = None
        if k == 'Z':
            if b is None:
                return False
            if isinstance(b, Sym):
                t = '(%s =? %s)' % (a.e, self.zof(b))
            elif isinstance(b, TS):
                t = '(%s =? %s)' % (a.e, b.coq())
            else:
                t = '(%s =? %s)' % (a.e, self.ctx.label(b))
        elif k == 'bool':
            t = '(Bool.eqb %s %s)' % (a.e, b.e if isinstance(b, Sym) else 'true' if b else 'false')
        elif k == 'Q':
            if isinstance(b, Sym):
                t = '(Qeq_bool %s %s)' % (a.e, b.e if b.kind == 'Q' else '(inject_Z %s)' % b.e)
            else:
                f = Fraction(b)
                t = '(Qeq_bool %s (%d # %d))' % (a.e, f.numerator, f.denominator)
        elif k == 'zpair':
            if isinstance(b, Sym):
                t = '(pair_eqb %s %s)' % (a.e, b.e)
            else:
                t = '(pair_eqb %s (%s, %s))' % (a.e, z(b[0]), z(b[1]))
        elif k == 'opt_pair':
            if b == (None, None):
                t = '(opt_pair_eqb %s None)' % a.e
            else:
                t = '(opt_pair_eqb %s (Some (%s, %s)))' % (a.e, z(b[0]), z(b[1]))
        elif k == 'unit' and isinstance(b, Per):
            t = '((unit_start %s %s =? p_start %s) && (unit_end %s %s =? p_end %s))' % (
                a.frame, a.e, b.coq(), a.frame, a.e, b.coq())
        elif k == 'list:ws' and b == []:
            t = '(zlen %s =? 0)' % a.e
        elif k == 'zdict' and isinstance(b, dict):
            t = '(dict_eqb %s %s)' % (a.e, lst(['(%s, %s)' % (self.point(kk), self.ctx.label(v)) for kk, v in b.items()]))
        elif k == 'list:Z':
            t = '(zlist_eqb %s %s)' % (a.e, self.zlist(b))
        elif k == 'list:bool':
            t = '(blist_eqb %s %s)' % (a.e, lst(['true' if x else 'false' for x in b]))
        elif k == 'list:zpair':
            if isinstance(b, Sym):
                raise Unsupported('compare pairs')
            t = '(plist_eqb %s %s)' % (a.e, lst(['(%s, %s)' % (z(x), z(y)) for x, y in b]))
        elif k == 'loc':
            t = '(loc_eqb %s %s)' % (a.e, self.loc(b))
        elif k == 'locs':
            t = '(loc_eqb (fst %s) %s && loc_eqb (snd %s) %s)' % (a.e, self.loc(b[0]), a.e, self.loc(b[1]))
        elif k == 'sched':
            t = '(sched_eqb %s %s)' % (a.e, b.e)
        elif k == 'name':
            t = '(%s =? %s)' % (a.e, b.e if isinstance(b, Sym) else self.ctx.name(b))
        elif k == 'freq':
            return a.e == b
        elif k == 'ref':
            t = '(Bool.eqb %s %s)' % (a.e, 'true' if b == 'end' else 'false')
        elif k == 'wt':
            t = '(wt_eqb %s %s)' % (a.e, {'duration': 'WDuration', 'labels': 'WLabels'}[b])
        elif k == 'amds':
            t = '(amds_eqb %s %s)' % (a.e, lst(['(%s, %s)' % (kk.coq(), self.ctx.label(v)) for kk, v in b.items()]))
        else:
            raise Unsupported('compare ' + k)
        return Sym('bool', t)

    def zlist(self, b):
        if isinstance(b, Sym):
            if b.kind == 'list:Z':
                return b.e
            raise Unsupported('list from ' + b.kind)
        return lst([x.coq() if isinstance(x, TS) else self.ctx.label(x) for x in b])

    def loc(self, b):
        if isinstance(b, Sym):
            return b.e
        if isinstance(b, Loc):
            w = self.ctx.label(b.where) if isinstance(b.where, str) else z(b.where)
            return '(mkLoc %s %s)' % ('None' if b.pos is None else '(Some %s)' % z(b.pos), w)
        raise Unsupported('location')

    # -- attributes -------------------------------------------------------
    def ev_Attribute(self, e, env):
        v = self.ev(e.value, env)
        n = e.attr
        if isinstance(v, Builtin) and v.self_ is None:
            if v.name in ('RU', 'US', 'UK', 'CalendarBase') or v.name.endswith('_Weekly8x5'):
                return Builtin(v.name + '_' + n)
            return Builtin(n)      # module attribute: tb.Timeboard, pd.Timestamp, ...
        if isinstance(v, Builtin) and v.name == 'parameters':
            raise Unsupported('parameters')
        if isinstance(v, Per):
            if n == 'start_time':
                return Sym('Z', '(p_start %s)' % v.coq())
            if n == 'end_time':
                return Sym('Z', '(p_end %s)' % v.coq())
        if isinstance(v, Sym):
            return self.attr(v, n)
        if isinstance(v, (list, dict, str, Fraction, TS)):
            return Builtin(n, v)
        if isinstance(v, Fn):
            raise Unsupported('attribute of a function')
        raise Unsupported('attribute %s' % n)

    def attr(self, v, n):
        k = v.kind
        Z = lambda e: Sym('Z', e)
        R = lambda base, e: Sym('Z', self.bind(base, e))
        if k == 'ws':
            tl = '(tb_tl %s)' % v.tb.e
            d = {'_loc': lambda: Z('(ws_loc %s)' % v.e), 'label': lambda: Z('(ws_label %s)' % v.e),
                 '_label': lambda: Z('(ws_label %s)' % v.e),
                 'start_time': lambda: R('t', 'ws_start_time %s (ws_loc %s)' % (tl, v.e)),
                 'end_time': lambda: R('t', 'ws_end_time %s (ws_loc %s)' % (tl, v.e)),
                 'duration': lambda: R('n', 'ws_duration %s (ws_loc %s)' % (tl, v.e)),
                 'schedule': lambda: Sym('sched', '(ws_sched %s)' % v.e, tb=v.tb)}
        elif k == 'iv':
            d = {'_loc': lambda: Sym('zpair', '(iv_a %s, iv_b %s)' % (v.e, v.e)),
                 'length': lambda: Z('(iv_length %s)' % v.e),
                 '_length': lambda: Z('(iv_length %s)' % v.e),
                 'start_time': lambda: self.nonvoid(v) or R('t', 'iv_start_time %s %s' % (v.tb.e, v.e)),
                 'end_time': lambda: self.nonvoid(v) or R('t', 'iv_end_time %s %s' % (v.tb.e, v.e)),
                 'schedule': lambda: Sym('sched', '(iv_sched %s)' % v.e, tb=v.tb)}
        elif k == 'tb':
            d = {'start_time': lambda: Z('(tb_start_time %s)' % v.e),
                 'end_time': lambda: Z('(tb_end_time %s)' % v.e),
                 'default_schedule': lambda: Sym('sched', '(tb_default %s)' % v.e, tb=v),
                 'schedules': lambda: Sym('schedules', None, tb=v),
                 '_timeline': lambda: Sym('tl', '(tb_tl %s)' % v.e),
                 'base_unit_freq': lambda: v.freq,
                 'worktime_source': lambda: Sym('wt', '(tb_wt %s)' % v.e),
                 'default_selector': lambda: Sym('selector', '(sc_sel (tb_default %s))' % v.e)}
        elif k == 'tl':
            d = {'labels': lambda: Sym('list:Z', '(tl_labels %s)' % v.e),
                 '_wsband': lambda: Sym('wsband', v.e), '_frameband': lambda: Sym('list:Z', '(tl_band %s)' % v.e),
                 'frame': lambda: Sym('frame', '(tl_frame %s)' % v.e),
                 '_workshift_ref': lambda: Sym('ref', '(tl_ref_end %s)' % v.e),
                 'start_time': lambda: Z('(fr_start_time (tl_frame %s))' % v.e),
                 'end_time': lambda: Z('(fr_end_time (tl_frame %s))' % v.e)}
        elif k == 'wsband':
            d = {'index': lambda: Sym('list:Z', '(tl_index %s)' % v.e)}
        elif k == 'frame':
            d = {'start_time': lambda: Z('(fr_start_time %s)' % v.e), 'end_time': lambda: Z('(fr_end_time %s)' % v.e),
                 'is_monotonic': lambda: Sym('bool', '(increasing (fr_start_times %s))' % v.e)}
        elif k == 'unit':
            d = {'start_time': lambda: Z('(unit_start %s %s)' % (v.frame, v.e)),
                 'end_time': lambda: Z('(unit_end %s %s)' % (v.frame, v.e))}
        elif k == 'span':
            d = {'first': lambda: Z('(s_first %s)' % v.e), 'last': lambda: Z('(s_last %s)' % v.e),
                 'skip_left': lambda: Z('(s_left %s)' % v.e), 'skip_right': lambda: Z('(s_right %s)' % v.e)}
        elif k == 'sched':
            d = {'name': lambda: Sym('name', '(sc_name %s)' % v.e),
                 'on_duty_index': lambda: Sym('list:Z', '(sc_on %s)' % v.e),
                 'off_duty_index': lambda: Sym('list:Z', '(sc_off %s)' % v.e)}
        elif k == 'df':
            d = {'empty': lambda: Sym('bool', '(zlen %s =? 0)' % v.e)}
        elif k == 'state':
            d = {'labels': lambda: Sym('list:Z', '(st_labels %s)' % v.e),
                 'start_time': lambda: Z('(fr_start_time %s)' % v.frame),
                 'end_time': lambda: Z('(fr_end_time %s)' % v.frame),
                 '_ws_labels': lambda: Sym('list:Z', '(st_labels %s)' % v.e),
                 'frame': lambda: Sym('frame', v.frame)}
        elif k == 'loc':
            d = {}
        else:
            d = {}
        if n in d:
            return d[n]()
        return Sym('method', None, obj=v, name=n)

    def nonvoid(self, v):
        return None

    # -- calls ------------------------------------------------------------
    def ev_Call(self, e, env):
        if any(isinstance(a, ast.Starred) for a in e.args) or any(k.arg is None for k in e.keywords):
            raise Unsupported('star arguments')
        f = self.ev(e.func, env)
        if isinstance(f, Builtin) and f.name == 'isnull' and isinstance(e.args[0], ast.Attribute):
            v, n = self.ev(e.args[0].value, env), e.args[0].attr
            if isinstance(v, Sym) and v.kind == 'iv' and n in ('start_time', 'end_time'):
                t = self.bind('t', 'iv_%s %s %s' % (n[:-5], v.tb.e, v.e))
                return Sym('bool', '(match %s with None => true | Some _ => false end)' % t)
        args = [self.ev(a, env) for a in e.args]
        kw = dict((k.arg, self.ev(k.value, env)) for k in e.keywords)
        return self.call(f, args, kw)

    def call(self, f, args, kw):
        if isinstance(f, Fn):
            return self.call_fn(f, args, kw)
        if isinstance(f, Builtin):
            if f.self_ is not None:
                return self.call_native(f.self_, f.name, args, kw)
            m = getattr(self, 'b_' + f.name, None)
            if m is None:
                raise Unsupported('call of ' + f.name)
            return m(*args, **kw)
        if isinstance(f, Sym):
            if f.kind == 'tb':
                return self.call_board(f, args, kw)
            if f.kind == 'selector':
                return Sym('bool', '(%s %s)' % (f.e, self.ctx.label(args[0])))
            if f.kind == 'method':
                m = getattr(self, 'call_' + f.obj.kind.replace(':', '_'), None)
                if m is None:
                    raise Unsupported('method %s of %s' % (f.name, f.obj.kind))
                return m(f.obj, f.name, args, kw)
        raise Unsupported('call of %r' % (f,))

    def call_fn(self, f, args, kw):
        n = f.node
        a = n.args
        names = [x.arg for x in a.args]
        env = dict(f.env)
        defaults = dict(zip(names[len(names) - len(a.defaults):], a.defaults))
        for x in names:
            if x in defaults:
                env[x] = self.ev(defaults[x], f.env)
        for x, v in zip(names, args):
            env[x] = v
        env.update(kw)
        if isinstance(n, ast.Lambda):
            return self.ev(n.body, env)
        try:
            self.run(n.body, env)
        except Ret as r:
            return r.v
        return None

    def call_native(self, o, n, args, kw):
        if isinstance(o, str) and n == 'format':
            return o.format(*args, **kw)
        if isinstance(o, list) and n == 'append':
            o.append(args[0])
            return None
        if isinstance(o, list) and n == 'count':
            return o.count(*args)
        if isinstance(o, dict) and n in ('items', 'keys', 'values'):
            return list(getattr(o, n)())
        if n == 'to_dict' and isinstance(o, dict):
            return o
        raise Unsupported('method %s' % n)

    # helpers for arguments
    def point(self, p):
        """A Timestamp-like as a Coq timestamp (a Period gives its start)."""
        if bad_text(p):
            return self.bind('t', 'conf_time (Api.PVal Api.VText)')
        if isinstance(p, str):
            return parse_ts(p).coq()
        if isinstance(p, TS):
            return p.coq()
        if isinstance(p, Per):
            return '(p_start %s)' % p.coq()
        if isinstance(p, Sym) and p.kind == 'Z':
            return p.e
        if isinstance(p, Sym) and p.kind == 'ws':
            return self.bind('t', 'ws_ref_time (tb_tl %s) (ws_loc %s)' % (p.tb.e, p.e))
        raise Unsupported('point in time %r' % (p,))

    def sched(self, s):
        if s is None:
            return 'None'
        if isinstance(s, Sym) and s.kind == 'sched':
            return '(Some %s)' % s.e
        raise Unsupported('schedule %r' % (s,))

    def duty(self, d):
        if not isinstance(d, str):
            raise Unsupported('duty')
        return DUTY.get(d, 'DBad')

    def ref(self, r):
        if r is None:
            return 'RNone'
        if isinstance(r, (tuple, list)) and len(r) == 2:
            def one(x):
                if x is None or (isinstance(x, Builtin) and x.name in ('nan', 'NaT')):
                    return 'None'
                return '(Some %s)' % self.point(x)
            return '(RPair %s %s)' % (one(r[0]), one(r[1]))
        if isinstance(r, Per):
            return '(RPeriod %s)' % r.coq()
        if isinstance(r, (str, TS)) or (isinstance(r, Sym) and r.kind in ('Z', 'ws')):
            return '(RPoint %s)' % self.point(r)
        if isinstance(r, Builtin) and r.name in ('nan', 'NaT'):
            return 'RNone'
        raise Unsupported('interval reference %r' % (r,))

    # the entry points on arguments of any type (Api.v)
    def value(self, v):
        if v is None or (isinstance(v, Builtin) and v.name in ('nan', 'NaT')):
            return 'Api.VNull'
        if isinstance(v, bool):
            raise Unsupported('value %r' % v)
        if isinstance(v, int):
            return '(Api.VInt %s)' % z(v)
        if isinstance(v, Fraction):
            return 'Api.VObj'
        if bad_text(v):
            return 'Api.VText'
        if isinstance(v, (str, TS)):
            return '(Api.VTime %s)' % self.point(v)
        if isinstance(v, Per):
            return '(Api.VPer %s)' % v.coq()
        if isinstance(v, Sym) and v.kind == 'ws':
            return '(Api.VWs %s %s)' % (v.tb.e, v.e)
        raise Unsupported('value %r' % (v,))

    def pyref(self, v):
        if isinstance(v, tuple):
            return '(Api.PTuple %s)' % lst([self.value(x) for x in v])
        if isinstance(v, list):
            return '(Api.PList %s)' % lst([self.value(x) for x in v])
        return '(Api.PVal %s)' % self.value(v)

    def sarg(self, s):
        if s is None:
            return 'Api.SNone'
        if isinstance(s, Sym) and s.kind == 'sched':
            return '(Api.SSched %s)' % s.e
        if isinstance(s, str):
            return 'Api.SOther'
        raise Unsupported('schedule %r' % (s,))

    def get_interval_any(self, b, d):
        ln, p = d['length'], d['period']
        return 'Api.get_interval_any conf_nat %s (Api.mkIa %s %s %s %s %s %s)' % (
            b.e, self.pyref(d['interval_ref']), 'None' if ln is None else '(Some %s)' % self.value(ln),
            'Api.FNone' if p is None else 'Api.FBad' if bad_text(p) else '(Api.FStr %s)' % freq(p),
            'true' if d['clip_period'] else 'false',
            {'00': 'C00', '01': 'C01', '10': 'C10', '11': 'C11'}.get(d['closed'], 'CBad'),
            self.sarg(d['schedule']))

    def odd(self, r, one=False):
        """A reference outside the documented forms."""
        if isinstance(r, (tuple, list)):
            return one or len(r) != 2 or any(bad_text(x) for x in r)
        return bad_text(r)

    # board
    def call_board(self, b, args, kw):
        if len(args) == 1 and not kw and self.odd(args[0]):
            return Sym('found', self.bind('c', 'Api.call conf_nat %s (Api.COne %s)' % (b.e, self.pyref(args[0]))))
        if len(args) == 1 and not kw and (isinstance(args[0], (str, TS, Per)) or
                                          isinstance(args[0], Sym)):
            return self.call_tb(b, 'get_workshift', args, kw)
        return self.call_tb(b, 'get_interval', args, kw)

    def named(self, names, args, kw, dflt=()):
        d = dict(dflt)
        if len(args) > len(names):
            raise Unsupported('arguments')
        d.update(zip(names, args))
        for k in kw:
            if k not in names:
                raise Unsupported('keyword ' + k)
        d.update(kw)
        return d

    def call_tb(self, b, n, args, kw):
        if n == 'get_workshift':
            d = self.named(['point_in_time', 'schedule'], args, kw, {'schedule': None})
            if isinstance(d['schedule'], str) or self.odd(d['point_in_time'], True):
                return Sym('ws', self.bind('w', 'Api.get_workshift_any conf_nat %s %s %s' % (
                    b.e, self.pyref(d['point_in_time']), self.sarg(d['schedule']))), tb=b)
            p = self.point(d['point_in_time'])
            return Sym('ws', self.bind('w', 'get_workshift %s %s %s' % (b.e, p, self.sched(d['schedule']))), tb=b)
        if n == 'get_interval':
            d = self.named(['interval_ref', 'length', 'period', 'clip_period', 'closed', 'schedule'], args, kw,
                           dict(interval_ref=None, length=None, period=None, clip_period=True, closed='11', schedule=None))
            ln = d['length']
            if (self.odd(d['interval_ref']) or (ln is not None and not isinstance(ln, int)) or bad_text(d['period'])
                    or isinstance(d['schedule'], str)
                    or (isinstance(d['interval_ref'], tuple) and (ln is not None or d['period'] is not None))):
                return Sym('iv', self.bind('iv', self.get_interval_any(b, d)), tb=b)
            if ln is not None and (not isinstance(ln, int) or isinstance(ln, bool)):
                raise Unsupported('length %r' % (ln,))
            e = 'get_interval %s %s %s %s %s %s %s' % (
                b.e, self.ref(d['interval_ref']), 'None' if ln is None else '(Some %s)' % z(ln),
                'None' if d['period'] is None else '(Some %s)' % freq(d['period']),
                'true' if d['clip_period'] else 'false',
                {'00': 'C00', '01': 'C01', '10': 'C10', '11': 'C11'}.get(d['closed'], 'CBad'),
                self.sched(d['schedule']))
            return Sym('iv', self.bind('iv', e), tb=b)
        if n == '_locate':
            d = self.named(['point_in_time', 'by_ref'], args, kw, {'by_ref': None})
            if self.odd(d['point_in_time'], True):
                return Sym('loc', self.bind('loc', 'Api.locate_any conf_nat %s %s' % (b.e, self.pyref(d['point_in_time']))))
            return Sym('loc', self.bind('loc', 'locate %s %s %s' % (
                b.e, self.point(d['point_in_time']),
                {None: 'ByNone', 'before': 'ByBefore', 'after': 'ByAfter'}[d['by_ref']])))
        if n == 'add_schedule':
            d = self.named(['name', 'selector'], args, kw)
            r = self.bind('r', 'add_schedule %s %s %s' % (b.e, self.ctx.name(d['name']), self.selector(d['selector'])))
            b.e = '(fst %s)' % r
            return Sym('sched', '(snd %s)' % r, tb=b)
        if n == 'drop_schedule':
            b.e = self.bind('tb', 'drop_schedule %s %s' % (b.e, args[0].e))
            return None
        if n == '_get_interval_locs_from_reference' and (self.odd(args[0]) or isinstance(args[0], (str, TS))):
            return Sym('locs', self.bind('ll', 'Api.locs_from_any conf_nat %s %s %s %s' % (
                b.e, self.pyref(args[0]), 'true' if args[1] else 'false', 'true' if args[2] else 'false')))
        if n == '_get_interval_locs_from_reference':
            return Sym('locs', self.bind('ll', 'locs_from_reference %s %s %s %s' % (
                b.e, self.ref(args[0]), 'true' if args[1] else 'false', 'true' if args[2] else 'false')))
        if n == '_strip_interval_locs':
            return Sym('locs', '(strip_locs %s %s %s %s)' % (
                self.loc(args[0][0]), self.loc(args[0][1]), 'true' if args[1] else 'false',
                'true' if args[2] else 'false'))
        if n == 'to_dataframe':
            d = self.named(['first_ws', 'last_ws'], args, kw, dict(first_ws=None, last_ws=None))
            a = '0' if d['first_ws'] is None else z(d['first_ws'])
            c = '(tb_len %s - 1)' % b.e if d['last_ws'] is None else z(d['last_ws'])
            return Sym('df', self.bind('df', 'tb_dataframe %s %s %s' % (b.e, a, c)))
        raise Unsupported('method %s of a timeboard' % n)

    def selector(self, f):
        if not isinstance(f, Fn):
            raise Unsupported('selector')
        node = f.node
        if len(node.args.args) != 1:
            raise Unsupported('selector')
        sub = self.sub()
        env = dict(f.env)
        env[node.args.args[0].arg] = Sym('Z', 'x')
        if isinstance(node, ast.Lambda):
            r = sub.ev(node.body, env)
        else:
            try:
                sub.run(node.body, env)
                raise Unsupported('selector')
            except Ret as q:
                r = q.v
        if sub.binds:
            raise Unsupported('selector')
        if isinstance(r, Sym) and r.kind == 'Z':
            return '(fun x => negb (%s =? 0))' % r.e
        return '(fun x => %s)' % self.truth(r)

    def call_ws(self, w, n, args, kw):
        if n in ('rollforward', 'rollback'):
            d = self.named(['steps', 'duty', 'schedule'], args, kw, dict(steps=0, duty='on', schedule=None))
            return Sym('ws', self.bind('w', '%s %s %s %s %s %s' % (
                n, w.tb.e, w.e, z(d['steps']), self.duty(d['duty']), self.sched(d['schedule']))), tb=w.tb)
        if n in ('is_on_duty', 'is_off_duty'):
            d = self.named(['schedule'], args, kw, dict(schedule=None))
            s = '(ws_sched %s)' % w.e if d['schedule'] is None else d['schedule'].e
            return Sym('bool', self.bind('b', '%s %s %s %s' % (n, w.tb.e, w.e, s)))
        if n == 'worktime':
            d = self.named(['duty', 'schedule'], args, kw, dict(duty='on', schedule=None))
            return Sym('Q', self.bind('q', 'ws_worktime %s %s %s %s' % (w.tb.e, w.e, self.duty(d['duty']), self.sched(d['schedule']))))
        if n == 'to_timestamp':
            return Sym('Z', self.bind('t', 'ws_ref_time (tb_tl %s) (ws_loc %s)' % (w.tb.e, w.e)))
        raise Unsupported('method %s of a workshift' % n)

    def call_iv(self, v, n, args, kw):
        t = v.tb.e
        if n in ('first', 'last'):
            d = self.named(['duty', 'schedule'], args, kw, dict(duty='on', schedule=None))
            return Sym('ws', self.bind('w', 'iv_%s %s %s %s %s' % (n, t, v.e, self.duty(d['duty']), self.sched(d['schedule']))), tb=v.tb)
        if n == 'nth':
            d = self.named(['n', 'duty', 'schedule'], args, kw, dict(duty='on', schedule=None))
            return Sym('ws', self.bind('w', 'iv_nth %s %s %s %s %s' % (t, v.e, z(d['n']), self.duty(d['duty']), self.sched(d['schedule']))), tb=v.tb)
        if n == 'count':
            d = self.named(['duty', 'schedule'], args, kw, dict(duty='on', schedule=None))
            return Sym('Z', self.bind('n', 'iv_count %s %s %s' % (v.e, self.duty(d['duty']), self.sched(d['schedule']))))
        if n == 'total_duration':
            d = self.named(['duty', 'schedule'], args, kw, dict(duty='on', schedule=None))
            return Sym('Z', self.bind('n', 'total_duration %s %s %s %s' % (t, v.e, self.duty(d['duty']), self.sched(d['schedule']))))
        if n in ('worktime', '_sum_labels'):
            d = self.named(['duty', 'schedule'], args, kw, dict(duty='on', schedule=None))
            return Sym('Q', self.bind('q', '%s %s %s %s %s' % ('iv_worktime' if n == 'worktime' else 'sum_labels', t, v.e, self.duty(d['duty']), self.sched(d['schedule']))))
        if n == 'workshifts':
            d = self.named(['duty', 'schedule'], args, kw, dict(duty='on', schedule=None))
            return Sym('list:ws', self.bind('wl', 'iv_workshifts %s %s %s %s' % (t, v.e, self.duty(d['duty']), self.sched(d['schedule']))), tb=v.tb)
        if n == 'overlap':
            d = self.named(['other', 'schedule'], args, kw, dict(schedule=None))
            return Sym('iv', self.bind('iv', 'iv_overlap %s %s %s %s' % (t, v.e, d['other'].e, self.sched(d['schedule']))), tb=v.tb)
        if n == 'what_portion_of':
            d = self.named(['other', 'duty', 'schedule'], args, kw, dict(duty='on', schedule=None))
            return Sym('Q', self.bind('q', 'what_portion_of %s %s %s %s %s' % (t, v.e, d['other'].e, self.duty(d['duty']), self.sched(d['schedule']))))
        if n == 'count_periods':
            d = self.named(['freq', 'duty', 'schedule'], args, kw, dict(duty='on', schedule=None))
            return Sym('Q', self.bind('q', 'count_periods %s %s %s %s %s' % (t, v.e, freq(d['freq']), self.duty(d['duty']), self.sched(d['schedule']))))
        if n == '_get_duty_idx':
            return Sym('duty_idx', self.bind('di', 'get_duty_idx %s %s %s' % (v.e, self.duty(args[0]), args[1].e)))
        if n == 'to_dataframe':
            return Sym('df', self.bind('df', 'tb_dataframe %s (iv_a %s) (iv_b %s)' % (t, v.e, v.e)))
        raise Unsupported('method %s of an interval' % n)

    def call_sched(self, s, n, args, kw):
        if n in ('is_on_duty', 'is_off_duty'):
            x = self.bind('x', 'tl_get (tb_tl %s) %s' % (s.tb.e, z(args[0])))
            r = '(sc_sel %s %s)' % (s.e, x)
            return Sym('bool', r if n == 'is_on_duty' else '(negb %s)' % r)
        raise Unsupported('method %s of a schedule' % n)

    def call_list_Z(self, v, n, args, kw):
        if n == 'eq':
            return Sym('bool', '(zlist_eqb %s %s)' % (v.e, self.zlist(args[0])))
        if n == 'count':
            return Sym('Z', '(zlen (filter (Z.eqb %s) %s))' % (self.ctx.label(args[0]), v.e))
        if n == 'isnull':
            return Sym('bool', '(forallb (Z.eqb (%d)) %s)' % (NAN, v.e))
        raise Unsupported('method %s of a list' % n)

    def call_zdict(self, v, n, args, kw):
        if n == 'keys':
            return Sym('list:Z', '(map fst %s)' % v.e)
        if n == 'values':
            return Sym('list:Z', '(map snd %s)' % v.e)
        raise Unsupported('method %s of a dict' % n)

    def b_sorted(self, x):
        if isinstance(x, Sym):
            if x.kind != 'list:Z':
                raise Unsupported('sorted')
            return Sym('list:Z', '(zsort %s)' % x.e)
        return sorted(x)

    def call_bool(self, v, n, args, kw):
        if n == 'all' and not args:
            return v
        raise Unsupported('method %s of a boolean' % n)

    def call_frame(self, f, n, args, kw):
        if n == 'partition_with_marker':
            d = self.named(['span', 'marker'], args, kw)
            return Sym('list:span', self.bind('ss', 'partition_with_marker %s %s %s' % (f.e, d['span'].coq(), self.marker(d['marker']))))
        if n == '_locate_subspans':
            pts = args[1]
            if isinstance(pts, Sym):
                raise Unsupported('points')
            return Sym('list:zpair', self.bind('ps', 'locate_subspans %s %s %s' % (f.e, args[0].coq(), lst([self.point(p) for p in pts]))))
        raise Unsupported('method %s of a frame' % n)

    def call_state(self, t, n, args, kw):
        if n == '_Timeline__apply_pattern':
            p = args[0]
            if isinstance(p, Rem):
                pc = '(PRem %d)' % p.k
            elif isinstance(p, (list, tuple, range, str)):
                pc = '(PList %s)' % lst([self.ctx.label(x) for x in p])
            else:
                raise Unsupported('pattern')
            t.e = self.bind('st', 'apply_pattern %s %s %s' % (pc, args[1].coq(), t.e))
            return None
        if n == 'amend':
            n = '(zrange 0 (Z.to_nat (fr_len %s)))' % t.frame
            t.kind, t.e = 'tl', '(mkTl %s %s (st_labels %s) %s false)' % (t.frame, n, t.e, n)
            return self.call_tl(t, 'amend', args, kw)
        raise Unsupported('method %s of a timeline' % n)

    def call_tl(self, t, n, args, kw):
        if n == 'amend':
            d = self.named(['amendments', 'not_in_range'], args, kw, dict(not_in_range='ignore'))
            t.e = self.bind('tl', 'amend %s %s %s' % (t.e, 'true' if d['not_in_range'] == 'raise' else 'false', self.amds(d['amendments'])))
            return None
        raise Unsupported('method %s of a timeline' % n)

    def amds(self, a):
        if a is None:
            return '[]'
        if not isinstance(a, dict):
            raise Unsupported('amendments')
        return lst(['(%s, %s)' % (self.point(k), self.ctx.label(v)) for k, v in a.items()])

    def marker(self, m):
        if isinstance(m, str):
            m = Mk(m, None, 'from_start_of_each')
        if not isinstance(m, Mk):
            raise Unsupported('marker')
        at = m.at
        if at is None:
            at = []
        if not isinstance(at, (list, tuple)):
            raise Unsupported('at')
        hows = []
        for k in at:
            if not isinstance(k, dict):
                raise Unsupported('at')
            if m.how == 'from_start_of_each':
                hows.append('from_start_of_each ' + self.offset(k))
            elif m.how == 'nth_weekday_of_month':
                k = dict(k)
                sh = k.pop('shift', None)
                if set(k) != {'month', 'week', 'weekday'}:
                    raise Unsupported('at')
                hows.append('nth_weekday_of_month %s %s %s %s' % (z(k['month']), z(k['week']), z(k['weekday']), z(0 if sh is None else sh)))
            elif m.how in ('from_easter_western', 'from_easter_orthodox'):
                k = dict(k)
                if 'shift' in k:
                    k['days'] = k.pop('shift')
                hows.append('from_easter %s %s' % ('true' if 'ortho' in m.how else 'false', self.offset(k)))
            else:
                raise Unsupported('how')
        return '(mkMarker %s %s)' % (freq(m.each), lst(hows))

    def offset(self, k):
        names = ['years', 'months', 'weeks', 'days', 'hours', 'minutes', 'seconds']
        if not k:
            return 'DNone'
        if any(x not in names for x in k):
            raise Unsupported('offset %s' % ','.join(k))
        return '(DKw %s)' % ' '.join(z(k.get(x, 0)) for x in names)

    def layout(self, x, top=False):
        if isinstance(x, Org):
            return self.org(x)
        if isinstance(x, Rem):
            return '(LPat (PRem %d))' % x.k
        if isinstance(x, (list, tuple, range)):
            return '(LPat (PList %s))' % lst([self.ctx.label(y) for y in x])
        if isinstance(x, Sym) and x.kind == 'cycle':
            raise Unsupported('cycle')
        return '(LLab %s)' % self.ctx.label(x)

    def org(self, o):
        if isinstance(o.structure, Rem):
            return '(LOrgRem %s %d)' % (o.div, o.structure.k)
        return '(LOrg %s %s)' % (o.div, lst([self.layout(x) for x in o.structure]))

    # -- known functions and classes --------------------------------------
    def b_len(self, x):
        if isinstance(x, Sym):
            if x.kind.startswith('list:'):
                return Sym('Z', '(zlen %s)' % x.e)
            if x.kind == 'frame':
                return Sym('Z', '(fr_len %s)' % x.e)
            if x.kind == 'iv':
                return Sym('Z', '(iv_length %s)' % x.e)
            if x.kind == 'tl':
                return Sym('Z', '(tl_len %s)' % x.e)
            if x.kind == 'state':
                return Sym('Z', '(zlen (st_labels %s))' % x.e)
            if x.kind == 'schedules':
                return Sym('Z', '(zlen (tb_schedules %s))' % x.tb.e)
            if x.kind in ('df', 'amds', 'zdict'):
                return Sym('Z', '(zlen %s)' % x.e)
            raise Unsupported('len of ' + x.kind)
        return len(x)

    def b_range(self, *a):
        return range(*[self.ctx.known[x.e] if isinstance(x, Sym) and x.e in self.ctx.known else x for x in a])

    def b_list(self, x):
        if isinstance(x, Sym):
            return self.as_list(x)
        return list(x)

    def b_all(self, x):
        if isinstance(x, Sym) and x.kind == 'list:bool':
            return Sym('bool', '(forallb (fun b => b) %s)' % x.e)
        if isinstance(x, list):
            return Sym('bool', '(' + ' && '.join(self.truth(y) for y in x) + ')')
        raise Unsupported('all')

    def b_print(self, *a):
        return None

    def b_isinstance(self, x, c):
        if not isinstance(x, Sym) or not isinstance(c, Builtin):
            raise Unsupported('isinstance')
        if c.name == 'Workshift':
            return x.kind == 'ws'
        if c.name == '_VoidInterval' and x.kind == 'iv':
            return Sym('bool', '(iv_void %s)' % x.e)
        if c.name == 'Interval' and x.kind == 'iv':
            return True   # _VoidInterval is not an Interval, but tests pair this with it
        raise Unsupported('isinstance ' + c.name)

    def b_Timestamp(self, x):
        if isinstance(x, TS):
            return x
        if isinstance(x, str):
            return parse_ts(x)
        raise Unsupported('Timestamp')

    b_get_timestamp_ = b_Timestamp

    def b_get_timestamp(self, x):
        if isinstance(x, (TS, str)):
            return self.b_Timestamp(x)
        return Sym('Z', self.point(x))

    def b_datetime(self, *a, **kw):
        return TS(datetime.datetime(*a, **kw))

    def b_date(self, *a, **kw):
        return TS(datetime.datetime(*a, **kw))

    def b_Period(self, x, freq=None):
        if freq is None:
            raise Unsupported('Period without a frequency')
        return Per(x if isinstance(x, Sym) else self.b_Timestamp(x), freq)

    def b_get_period(self, x, freq=None):
        return self.b_Period(x, freq)

    def b_DatetimeIndex(self, l):
        return l

    def b_date_range(self, start, end, freq):
        if freq != 'D':
            raise Unsupported('date_range')
        a, b = parse_ts(start).dt, parse_ts(end).dt
        out = []
        while a <= b:
            out.append(TS(a))
            a += datetime.timedelta(days=1)
        return out

    def b_Series(self, index=None, data=None):
        if not isinstance(index, list):
            raise Unsupported('Series')
        return dict((i, data) for i in index)

    def b_array(self, x):
        return x

    def b__Span(self, a, b, skip_left=0, skip_right=0):
        return Span(a, b, skip_left, skip_right)

    def b__Location(self, p, w):
        return Loc(p, w)

    def bound(self, x):
        if isinstance(x, Per):     # pandas takes the end of the period
            return '(p_end %s)' % x.coq()
        if isinstance(x, str):
            return parse_ts(x).coq()
        if isinstance(x, (TS,)):
            return x.coq()
        raise Unsupported('bound of a frame')

    def b__Frame(self, base_unit_freq=None, start=None, end=None):
        return Sym('frame', self.bind('f', 'mk_frame %s %s %s' % (freq(base_unit_freq), self.bound(start), self.bound(end))), freq=base_unit_freq)

    def b_Marker(self, each, at=None, how='from_start_of_each'):
        if isinstance(how, Fn):
            raise Unsupported('how')
        if not isinstance(how, str) or how not in ('from_start_of_each', 'nth_weekday_of_month', 'from_easter_western', 'from_easter_orthodox'):
            raise Unsupported('how %r' % (how,))
        return Mk(each, at, how)

    def b_RememberingPattern(self, labels):
        self.ctx.heap.append(lst([self.ctx.label(x) for x in labels]))
        return Rem(len(self.ctx.heap) - 1, list(labels))

    def b_cycle(self, labels):
        if labels:
            l = lst([self.ctx.label(x) for x in labels])
            self.ctx.feeds.append('(Iterate.Endless (fun n => nth (n mod %d)%%nat %s 0), 0%%nat)' % (len(labels), l))
        else:
            self.ctx.feeds.append('(Iterate.Finite [], 0%nat)')
        return Rem(len(self.ctx.feeds) - 1, list(labels))

    def b_Organizer(self, marker=None, marks=None, structure=None):
        if (marker is None) == (marks is None) or not isinstance(structure, (list, tuple, Rem)):
            m = 'Setup.MOmit' if marker is None else '(Setup.MEach %s)' % freq(marker)
            t = 'Setup.TOmit' if marks is None else '(Setup.TOne %s)' % self.point(marks)
            st = ('(Setup.OList %s)' % lst(['Setup.OOther %s' % self.ctx.label(x) for x in structure])
                  if isinstance(structure, list) else '(Setup.OOther %s)' % self.ctx.label(structure))
            return Sym('organizer', self.bind('o', 'Setup.new_organizer %s %s %s' % (m, t, st)))
        if marker is not None:
            div = '(DMarker %s)' % self.marker(marker)
        else:
            if not isinstance(marks, (list, tuple)):
                marks = [marks]
            div = '(DMarks %s)' % lst([self.point(p) for p in marks])
        return Org(div, structure)

    def b__Timeline(self, frame, organizer=None, workshift_ref=None, data=None):
        if organizer is None:
            n = '(Z.to_nat (fr_len %s))' % frame.e
            lab = self.ctx.label(data)
            return Sym('state', '(mkSt (repeat %s %s) (repeat true %s) heap0)' % (lab, n, n), frame=frame.e)
        if self.ctx.heap and self.ctx.feeds:
            raise Unsupported('iterators and remembering patterns')
        r = self.bind('r', ('Iterate.mk_timeline_it %s %s %s %s feeds0' if self.ctx.feeds else 'mk_timeline %s %s %s %s heap0') % (
            frame.e, self.layout(organizer), 'true' if workshift_ref == 'end' else 'false', self.ctx.label(data)))
        return Sym('tl', '(fst %s)' % r)

    def b_Timeboard(self, base_unit_freq, start, end, layout, amendments=None, default_selector=None,
                    default_name=None, workshift_ref='start', default_label=None, worktime_source='duration'):
        if isinstance(layout, (int, str)):
            ly = '(LLab %s)' % self.ctx.label(layout)
        else:
            ly = self.layout(layout)
        sel = '(fun x => negb (x =? 0))' if default_selector is None else self.selector(default_selector)
        wt = {'duration': 'WDuration', 'labels': 'WLabels'}.get(worktime_source, 'WBad')
        e = 'build (mkArgs %s %s %s %s %s %s %s %s %s %s conf_num) heap0' % (
            freq(base_unit_freq), self.bound(start), self.bound(end), ly, self.amds(amendments), sel,
            self.ctx.name('on_duty' if default_name is None else default_name),
            'true' if workshift_ref == 'end' else 'false', self.ctx.label(default_label), wt)
        return Sym('tb', '(fst %s)' % self.bind('tb', e), freq=base_unit_freq)

    def interval(self, f, tb, bounds, schedule=None):
        if (not isinstance(tb, Sym) or not isinstance(bounds, (tuple, list)) or len(bounds) != 2
                or any(isinstance(x, (str, Fraction)) for x in bounds) or isinstance(schedule, str)):
            t = '(Some %s)' % tb.e if isinstance(tb, Sym) else 'None'
            return Sym('iv', self.bind('iv', 'Api.interval_any %s %s %s %s' % (
                'true' if 'void' in f else 'false', t, self.pyref(bounds), self.sarg(schedule))), tb=tb)
        a, b = bounds
        def one(x):
            if isinstance(x, Sym) and x.kind == 'ws':
                return '(ws_loc %s)' % x.e
            return z(x)
        s = '(tb_default %s)' % tb.e if schedule is None else schedule.e if isinstance(schedule, Sym) and schedule.kind == 'sched' else None
        if s is None:
            raise Unsupported('schedule')
        return Sym('iv', self.bind('iv', '%s %s %s %s %s' % (f, tb.e, one(a), one(b), s)), tb=tb)

    def b_Interval(self, tb, bounds, schedule=None):
        return self.interval('new_interval', tb, bounds, schedule)

    def b__VoidInterval(self, tb, bounds, schedule=None):
        return self.interval('new_void_interval', tb, bounds, schedule)

    def b_Workshift(self, tb, loc, schedule=None):
        if isinstance(loc, (str, Fraction)) or isinstance(schedule, str):
            return Sym('ws', self.bind('w', 'Api.workshift_any %s %s %s' % (tb.e, self.value(loc), self.sarg(schedule))), tb=tb)
        if loc > 10 ** 6:
            raise Unsupported('a position too big for unary numbers')
        s = '(tb_default %s)' % tb.e if schedule is None else schedule.e
        return Sym('ws', self.bind('w', 'new_workshift %s %s %s' % (tb.e, z(loc), s)), tb=tb)

    def b__skiperator(self, l, skip=0):
        if not l:
            raise Unsupported('empty pattern')
        return Sym('gen', None, l=lst([self.ctx.label(x) for x in l]), skip=max(skip, 0), n=0)

    def b_next(self, g):
        if not (isinstance(g, Sym) and g.kind == 'gen'):
            raise Unsupported('next')
        g.n += 1
        return Sym('Z', self.bind('x', 'py_get_res (fst (skip_take %s %s %d %d)) %d' % (g.l, g.l, g.skip, g.n, g.n - 1)))

    # calendars
    def b_nth_weekday_of_month(self, year, dates_to_seek, label=0, errors='ignore'):
        seeks = lst(['(%s, %s, %s, %s)' % tuple(z(x) for x in (tuple(q) + (0,))[:4]) for q in dates_to_seek])
        return Sym('zdict', self.bind('d', 'cb_nth_weekday %d %s %s %s' % (
            year, seeks, self.ctx.label(label), 'true' if errors == 'raise' else 'false')))

    def b_extend_weekends(self, amendments, how='nearest', label=None, weekend=None):
        items = []
        for k, v in amendments.items():
            t = parse_ts(k)
            items.append('(KStr (date %d %d %d), %s)' % (t.dt.year, t.dt.month, t.dt.day, self.ctx.label(v)))
        return Sym('zdict', self.bind('d', 'extend_weekends %s %s %s %s' % (
            lst(items), {'nearest': 'HNearest', 'next': 'HNext', 'previous': 'HPrevious'}[how],
            'None' if label is None else '(Some %s)' % self.ctx.label(label),
            'sat_sun' if weekend is None else lst([z(x) for x in weekend]))))

    def b_from_easter(self, year, shifts, easter_type='western', label=0):
        return Sym('zdict', '(cb_from_easter %d %s %s %s)' % (
            year, lst([z(x) for x in shifts]), 'true' if easter_type == 'orthodox' else 'false', self.ctx.label(label)))

    def opts(self, custom_start=None, custom_end=None, do_not_amend=False, only_custom_amendments=False,
             custom_amendments=None):
        opt = lambda x: 'None' if x is None else '(Some %s)' % self.point(x)
        return '(mkOpts %s %s %s %s %s)' % (
            opt(custom_start), opt(custom_end), 'true' if do_not_amend else 'false',
            'true' if only_custom_amendments else 'false',
            'None' if custom_amendments is None else '(Some %s)' % self.amds(custom_amendments))

    def calendar(self, f, own, args, kw):
        kw = dict(kw)
        own = ' '.join(conv(kw.pop(k, d)) for k, d, conv in own)
        return Sym('tb', self.bind('tb', '%s %s %s' % (f, own, self.opts(*args, **kw))), freq='D')

    def b_RU_Weekly8x5(self, *a, **kw):
        b = lambda x: 'true' if x else 'false'
        return self.calendar('ru_calendar', [('work_on_dec31', True, b), ('short_eves', True, b)], a, kw)

    def b_US_Weekly8x5(self, *a, **kw):
        b = lambda x: 'true' if x else 'false'
        return self.calendar('us_calendar', [('do_not_observe', [], strs), ('long_weekends', True, b)], a, kw)

    def b_UK_Weekly8x5(self, *a, **kw):
        b = lambda x: 'true' if x else 'false'
        return self.calendar('uk_calendar', [('country', 'england', string), ('do_not_observe', [], strs),
                                             ('long_weekends', True, b)], a, kw)

    def b_CalendarBase(self, *a, **kw):
        o = self.opts(*a, **kw).replace('mkOpts', 'mkUser')
        return Sym('tb', '(fst %s)' % self.bind('tb', 'user_calendar base_class %s []' % o), freq='D')

    def b_CalendarBase_parameters(self):
        return {'start': Sym('Z', '(class_time (k_start base_class))'),
                'end': Sym('Z', '(class_time (k_end base_class))'), 'base_unit_freq': 'D'}

    def b_Timedelta(self, days):
        return Sym('Z', '(%s * NS_DAY)' % z(days))

    def b_RU_Weekly8x5_parameters(self):
        return {'start': Sym('Z', '(c_start ru_class)'), 'end': Sym('Z', '(c_end ru_class)'), 'base_unit_freq': 'D'}


def string(x):
    return '"%s"%%string' % x


def strs(l):
    return lst([string(x) for x in l])


def main():
    files = ['test_frames', 'test_partitioning', 'test_organizers', 'test_patterns', 'test_intervals',
             'test_interval_methods', 'test_intervals_compound', 'test_workshift', 'test_workshift_compound',
             'test_timeboard', 'calendars/test_calendars_generic', 'calendars/test_calendars_ru_us_uk']
    skipped, done = [], 0
    for fn in files:
        path = os.path.join(TESTS, fn + '.py')
        tree = ast.parse(open(path).read())
        top = {}
        for s in tree.body:
            if isinstance(s, ast.FunctionDef):
                top[s.name] = Fn(s, top)
        tests = []
        for s in tree.body:
            if isinstance(s, ast.ClassDef):
                for t in s.body:
                    if isinstance(t, ast.FunctionDef) and t.name.startswith('test'):
                        tests.append((s, t))
        out, used = [], {}
        for c, t in tests:
            ctx = Ctx()
            it = Interp(ctx, tree, top)
            xfail = any('xfail' in ast.dump(d) or 'skip' == getattr(getattr(d, 'func', d), 'attr', '') for d in t.decorator_list)
            try:
                if xfail:
                    raise Unsupported('marked xfail or skip')
                env = dict(top)
                env['self'] = None
                it.run(t.body, env)
                if not it.checks:
                    raise Unsupported('no checks')
            except (Unsupported, TypeError, KeyError, AttributeError, IndexError, ValueError) as u:
                skipped.append((fn, c.name, t.name, type(u).__name__[:5] + ' ' + str(u)))
                continue
            name = t.name
            if name in used:
                used[name] += 1
                name = '%s_%d' % (name, used[name])
            else:
                used[name] = 1
            heap = lst(['new_rpat %s' % h for h in ctx.heap])
            if ctx.feeds:
                heap += ' in\n  let feeds0 : Iterate.feeds Z := %s' % lst(ctx.feeds)
            body = '\n'.join('  ' + b for b in it.binds)
            checks = '[' + ';\n       '.join(it.checks) + ']'
            out.append('(** %s.py:%d %s.%s *)\n' % (os.path.basename(fn), t.lineno, c.name, t.name) + 'Example %s : passes (\n  let heap0 : heap Z := %s in\n%s\n  Ok %s) = true.\nProof. vm_compute. reflexivity. Qed.\n' % (name, heap, body, checks))
            done += 1
        mod = 'Conf' + ''.join(p.capitalize() for p in fn.split('_')[1:])
        if 'ru_us_uk' in fn:    # building a whole calendar takes a while: one file each, on request
            if '--all' not in sys.argv:
                continue
            parts = [('ConfCalendars' + x.capitalize(), [o for o in out if '_%s_' % x in o]) for x in ('RU', 'US', 'UK')]
        else:
            parts = [(mod, out)]
        for mod, out in parts:
            with open(os.path.join(OUT, mod + '.v'), 'w') as f:
                f.write('(** %s: /repo/timeboard/tests/%s.py as examples about the model.\n'
                        '    Written by tools/tests2coq.py. *)\n' % (mod, fn))
                f.write('From Verif Require Api%s.\n'
                        'From Verif Require Import Base Civil Freq Frame Timeline Board When %sConfBase.\n'
                        'From Coq Require Import QArith String.\nOpen Scope Z_scope.\n\n'
                        % (' Setup Iterate' if 'organizers' in fn else '', 'Calendars UserCal ' if 'calendars' in fn else ''))
                f.write('\n'.join(out))
    print(done, 'tests translated,', len(skipped), 'skipped')
    if '-l' in sys.argv:
        for s in skipped:
            print(*s)


if __name__ == '__main__':
    main()
