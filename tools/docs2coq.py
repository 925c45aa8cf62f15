#!/usr/bin/env python3
"""Translate the examples of the project's documentation (/repo/doc/source/*.rst, README.rst
and the docstrings of /repo/timeboard, read as text) into Coq examples about the model.

Nothing of /repo is imported or run.  A statement after `>>>` becomes calls of the model's
functions (the translation of expressions is that of tests2coq.py), and what is printed
below it becomes a check: a number, a truth value, the text of a workshift, an interval or
a timeboard with its table, or the exception.  The checks that need the same timeboard make
one Coq Example.  Statements the translator does not know are skipped and listed.

usage: docs2coq.py [-l] [--all]     writes ../rocq/theories/ConfDocs*.v
"""
import ast, copy, os, re, sys
from fractions import Fraction
import tests2coq as T
from tests2coq import Interp, Ctx, Sym, TS, Unsupported, lst, z, freq, parse_ts, EXC, OUT

REPO = '/repo'
SOURCES = [
    ('ConfDocsMaking', ['doc/source/making_a_timeboard.rst']),
    ('ConfDocsDoing', ['doc/source/doing_calculations.rst']),
    ('ConfDocsCode', ['timeboard/core.py', 'timeboard/interval.py', 'timeboard/timeboard.py', 'timeboard/workshift.py',
                      'timeboard/calendars/RU.py', 'timeboard/calendars/UK.py', 'timeboard/calendars/US.py',
                      'timeboard/calendars/calendarbase.py', 'doc/source/using_preconfigured.rst']),
    ('ConfDocsQuick', ['doc/source/quick_start.rst', 'README.rst']),
]
# What the documentation shows and the code does not do: the check is negated.
WRONG = {('interval.py', 641): 'PartialOutOfBoundsError is raised, not OutOfBoundsError',
         ('RU.py', 153): 'the end of the year 2021, since the calendar was extended',
         ('UK.py', 172): 'the end of the year 2020, since the calendar was extended',
         ('US.py', 136): 'the end of the day, 23:59:59'}
# Slips of the documentation, corrected before the translation.
TYPOS = {
    ('making_a_timeboard.rst', 1025): [('2017-10-02 20:00:00', '2017-10-02 02:00:00'), ('102', '120')],
    ('doing_calculations.rst', 520): [('(1, 15)', '((1, 15))')],
    ('doing_calculations.rst', 561): [('ws_ref_ref', 'workshift_ref')],
    ('doing_calculations.rst', 884): [('.what_portion_of', 'X_in_staff.what_portion_of')],
    ('doing_calculations.rst', 917): [('decade', 'Y_in_staff')]}
# Examples that take too long for the proof checker: with --all only, in ConfDocsLong.v
LONG = set()


class Missing:
    pass


class DocInterp(Interp):
    def sub(self):
        return DocInterp(self.ctx, self.module, self.top)

    def ev_Name(self, e, env):
        v = Interp.ev_Name(self, e, env)
        if isinstance(v, Missing):
            raise Unsupported('%s, which was not translated' % e.id)
        return v

    def ev_Set(self, e, env):
        return [self.ev(x, env) for x in e.elts]

    def b_Timeboard(self, *a, **kw):
        b = Interp.b_Timeboard(self, *a, **kw)
        # a RememberingPattern goes on from where the previous timeboard left it
        if 'PRem' not in self.binds[-1] and 'OrgRem' not in self.binds[-1]:
            return b
        v = b.e[len('(fst '):-1]
        self.binds[-1] = re.sub(r'heap0;$', self.ctx.hp + ';', self.binds[-1])
        self.ctx.hp = '(snd %s)' % v
        return b

    def params(self, k):
        return {'start': Sym('Z', '(c_start %s)' % k), 'end': Sym('Z', '(c_end %s)' % k)}

    def b_US_Weekly8x5_parameters(self):
        return self.params('us_class')

    def b_UK_Weekly8x5_parameters(self):
        return self.params('uk_class')

    def b_print(self, x):
        return x


def sessions(path):
    """Lists of (line number, code, output lines); a session of a module is one docstring."""
    lines = open(path).read().split('\n')
    if path.endswith('.py'):
        tree = ast.parse('\n'.join(lines))
        for n in ast.walk(tree):
            if isinstance(n, (ast.FunctionDef, ast.ClassDef, ast.Module)) and ast.get_docstring(n):
                d = n.body[0]
                yield chunks(lines, d.lineno - 1, d.end_lineno)
    else:
        yield chunks(lines, 0, len(lines))


def chunks(lines, a, b):
    out = []
    i = a
    while i < b:
        m = re.match(r'^( *)>>> ?(.*)$', lines[i].replace('"""', ''))
        if not m:
            i += 1
            continue
        ind, code, at = len(m.group(1)), [m.group(2)], i + 1
        i += 1
        depth = lambda: sum(c.count(x) for c in code for x in '([{') - sum(c.count(x) for c in code for x in ')]}')
        while i < b and (re.match(r'^ *\.\.\. ', lines[i]) or (depth() > 0 and lines[i].strip())):
            code.append(re.sub(r'^ *\.\.\. ', '    ', lines[i]))
            i += 1
        res = []
        while i < b and lines[i].strip() and '>>>' not in lines[i] and '"""' not in lines[i]:
            res.append(lines[i][ind:].rstrip())
            i += 1
        if any('BLANKLINE' in r for r in res) and i < b and re.match(r'^ *\[\d+ rows', lines[i]):
            res.append(lines[i].strip())
        out.append((at, '\n'.join(code).strip(), res))
    return out


PER = r"(\d{4}-\d\d(?:-\d\d)?(?: \d\d:\d\d)?)(?:/[-0-9]+)?"
SHIFT = r"(?:(\d+)x)?'(\w+)' at " + PER


class Reader:
    def __init__(self, it):
        self.it = it

    def time(self, s):
        if re.match(r'^\d{4}-\d\d$', s):
            s += '-01'
        return parse_ts(s).coq()

    def text(self, s):
        return 'TText "%s"' % s

    def shift(self, n, f, at):
        b = '(fbase (to_freq %s))' % freq(f)
        return ([] if n is None else ['TNum %s' % n, self.text('x')]) + [
            self.text("'"), 'TFreq %s' % freq(f), self.text("' at "), 'TPeriod %s (pord %s %s)' % (b, b, self.time(at))]

    def sched(self, s):
        return [] if s is None else [self.text(', '), 'TSched %s' % self.it.ctx.name(s)]

    def tokens(self, s):
        """The text of a workshift, an interval or a timeboard as the model's tokens."""
        m = re.match(r"^Workshift\((\d+)(?:, (\w+))?\) of " + SHIFT + "$", s)
        if m:
            return 'ws', ([self.text('Workshift('), 'TNum %s' % m.group(1)] + self.sched(m.group(2)) + [self.text(') of ')]
                          + self.shift(*m.groups()[2:]))
        m = re.match(r"^Interval\(\((\d+), (\d+)\)(?:, (\w+))?\): " + SHIFT + " -> " + SHIFT + r" \[(\d+)\]$", s)
        if m:
            g = m.groups()
            return 'iv', ([self.text('Interval('), self.text('('), 'TNum ' + g[0], self.text(', '), 'TNum ' + g[1], self.text(')')]
                          + self.sched(g[2]) + [self.text('): ')] + self.shift(*g[3:6]) + [self.text(' -> ')] + self.shift(*g[6:9])
                          + [self.text(' ['), 'TNum ' + g[9], self.text(']')])
        m = re.match(r"^Interval \(\((\d+), (\d+)\)(?:, (\w+))?\): void \[0\]$", s)
        if m:
            g = m.groups()
            return 'iv', ([self.text('Interval ('), self.text('('), 'TNum ' + g[0], self.text(', '), 'TNum ' + g[1], self.text(')')]
                          + self.sched(g[2]) + [self.text('): void [0]')])
        m = re.match(r"^Timeboard of '(\w+)': " + PER + " -> " + PER + "$", s)
        if m:
            b = '(fbase (to_freq %s))' % freq(m.group(1))
            per = lambda t: 'TPeriod %s (pord %s %s)' % (b, b, self.time(t))
            return 'tb', [self.text("Timeboard of '"), 'TFreq %s' % freq(m.group(1)), self.text("': "), per(m.group(2)),
                          self.text(' -> '), per(m.group(3))]
        raise Unsupported('output %r' % s[:40])

    def shows(self, v, s):
        kind, toks = self.tokens(s)
        if v.kind != kind:
            return 'false'
        f = {'ws': 'ws_repr %s %s', 'iv': 'iv_repr %s %s', 'tb': 'tb_compact %s'}[kind]
        e = f % ((v.e,) if kind == 'tb' else (v.tb.e, v.e))
        return '(tokens_eqb %s %s)' % (self.it.bind('tx', e), lst(toks))

    def label(self, s):
        m = re.match(r'^-?\d+(\.0)?$', s)
        return self.it.ctx.label(None if s in ('NaN', 'None') else int(float(s)) if m else s)

    def rows(self, df, lines):
        """The table of a dataframe."""
        head = lines[0].split()
        if not lines[1].split()[:1] == ['loc']:
            raise Unsupported('table')
        out, n, cut = [], 0, False
        for l in lines[2:]:
            t = l.split()
            m = re.match(r'^\[(\d+) rows x (\d+) columns\]$', l.strip())
            if m:
                out.append('(zlen %s =? %s)' % (df, m.group(1)))
                continue
            if not t or 'BLANKLINE' in l:
                continue
            if t[0] == '...':
                cut = True
                continue
            n += 1
            loc, t, conds = t[0], t[1:], []
            for c in head:
                if c in ('ws_ref', 'workshift', 'start', 'end'):
                    s = t.pop(0)
                    if t and re.match(r'^\d\d:\d\d:\d\d$', t[0]):
                        s += ' ' + t.pop(0)
                    u = 'NS_SEC' if ' ' in s else 'NS_DAY'
                    col = {'ws_ref': 'ref', 'workshift': 'ref'}.get(c, c)
                    conds.append('(%s =? row_start r)' % self.time(s) if c == 'start'
                                 else 'shown %s %s (row_%s r)' % (u, self.time(s), col))
                elif c == '...':
                    if t.pop(0) != '...':
                        raise Unsupported('table')
                elif c in ('duration', 'dur.'):
                    conds.append('(%s =? row_duration r)' % z(int(t.pop(0))))
                elif c == 'label':
                    conds.append('(%s =? row_label r)' % self.label(t.pop(0)))
                else:
                    conds.append('has_flag b %s %s' % (self.it.ctx.name(c), {'True': 'true', 'False': 'false'}[t.pop(0)]))
            if t:
                raise Unsupported('table row %r' % l)
            out.append('row_at %s %s (fun r b => %s)' % (df, loc, ' && '.join(conds)))
        if not cut:
            out.append('(zlen %s =? %d)' % (df, n))
        return out

    def output(self, v, res):
        """The checks of the output lines `res` of a statement with the value `v`."""
        txt = ' '.join(r.strip() for r in res).strip()
        if any('BLANKLINE' in r for r in res):
            i = next(i for i, r in enumerate(res) if 'BLANKLINE' in r)
            checks = [self.shows(v, res[0].strip())]
            if v.kind == 'tb':
                df = self.it.bind('df', 'tb_dataframe %s 0 (tb_len %s - 1)' % (v.e, v.e))
            elif v.kind == 'iv':
                df = self.it.bind('df', 'iv_dataframe %s %s' % (v.tb.e, v.e))
            else:
                df = self.it.bind('df', 'tb_dataframe %s (ws_loc %s) (ws_loc %s)' % (v.tb.e, v.e, v.e))
            return checks + self.rows(df, res[i + 1:])
        if isinstance(v, Sym) and v.kind == 'tb' and res[-1].strip() == '...':
            return [self.shows(v, res[0].strip())]
        if isinstance(v, Sym) and v.kind in ('ws', 'iv', 'tb') and txt != '[]':
            if v.kind == 'iv' and txt.startswith('['):
                v = self.it.as_list(v)
            else:
                return [self.shows(v, txt)]
        if isinstance(v, Sym) and v.kind == 'list:ws':
            if not re.match(r'^\[.*\]$', txt):
                raise Unsupported('list')
            items = re.findall(r"Workshift\([^)]*\) of [^\]]*?(?=, Workshift|,$|\])", txt)
            l = self.it.bind('l', 'mapM (ws_repr %s) %s' % (v.tb.e, v.e))
            return ['(tokenss_eqb %s %s)' % (l, lst([lst(self.tokens(s)[1]) for s in items]))]
        if txt == 'NaT' and isinstance(v, Sym) and v.kind == 'opt':
            return ['(match %s with None => true | Some _ => false end)' % v.e]
        m = re.match(r"^Timestamp\('([^']*)'\)$", txt)
        if m:
            return [self.it.truth(self.it.eq(v, parse_ts(m.group(1))))]
        if txt.startswith('{Timestamp'):
            items = re.findall(r"Timestamp\('([^']*)'\): (-?\d+)", txt)
            return [self.it.truth(self.it.eq(v, dict((parse_ts(a), int(b)) for a, b in items)))]
        if txt in ('True', 'False'):
            return [self.it.truth(self.it.eq(v, txt == 'True'))]
        if re.match(r'^-?\d+(\.\d+)?$', txt):
            x = Fraction(txt)
            if isinstance(v, Fraction) or (isinstance(v, Sym) and v.kind == 'Q'):
                if not isinstance(v, Sym):
                    v = Sym('Q', '(%d # %d)' % (v.numerator, v.denominator))
                return ['(qclose %s (%d # %d))' % (v.e, x.numerator, x.denominator)]
            if x.denominator == 1:
                return [self.it.truth(self.it.eq(v, int(x)))]
        raise Unsupported('output %r of %r' % (txt[:40], v))


def wrap(s):
    """Break long lines between the elements of lists and conjunctions."""
    out = []
    for l in s.split('\n'):
        ind = re.match(' *', l).group() + '        '
        while len(l) > 120:
            i = max(l.rfind('; ', len(ind), 118), l.rfind('&& ', len(ind), 118))
            if i < 0:
                i = l.rfind(' ', len(ind) + 1, 118)
            if i < 0 or l.count('"', 0, i) % 2:
                break
            i = l.index(' ', i)
            out.append(l[:i])
            l = ind + l[i + 1:]
        out.append(l)
    return '\n'.join(out)


def needs(text, defs):
    """The binds, in order, that the text depends on."""
    seen = set()
    todo = re.findall(r'\b[a-z]+\d+\b', text)
    while todo:
        v = todo.pop()
        if v in seen or v not in defs:
            continue
        seen.add(v)
        todo += re.findall(r'\b[a-z]+\d+\b', defs[v])
    return seen


def main():
    files = {}
    done, skipped, wrong = 0, [], []
    for mod, paths in SOURCES:
        for p in paths:
            for chk in sessions(os.path.join(REPO, p)):
                groups = session(p, chk, skipped, wrong)
                for g in groups:
                    m = 'ConfDocsLong' if g['long'] or 'Quick' in mod else mod
                    files.setdefault(m, []).append(g['text'])
                    done += g['n']
    for mod, out in sorted(files.items()):
        if mod == 'ConfDocsLong' and '--all' not in sys.argv:
            continue
        with open(os.path.join(OUT, mod + '.v'), 'w') as f:
            f.write('(** %s: examples of the documentation about the model.\n    Written by tools/docs2coq.py. *)\n' % mod)
            f.write('From Verif Require Api.\n'
                    'From Verif Require Import Base Civil Freq Frame Timeline Board When Calendars Text ConfBase ConfDocBase.\n'
                    'From Coq Require Import QArith String.\nOpen Scope string_scope.\nOpen Scope list_scope.\nOpen Scope Z_scope.\n\n')
            f.write('\n'.join(out))
    print(done, 'outputs translated,', len(skipped), 'statements skipped')
    if '-l' in sys.argv:
        for s in skipped:
            print(*s)


def session(path, chk, skipped, wrong):
    ctx = Ctx()
    ctx.hp = 'heap0'
    it = DocInterp(ctx, None, {})
    rd = Reader(it)
    env = {}
    checks = []     # (line, text)
    for at, code, res in chk:
        if not code or code.startswith('#') or re.match(r'(import|from) ', code):
            continue
        for a, b in TYPOS.get((os.path.basename(path), at), []):
            code, res = code.replace(a, b), [r.replace(a, b) for r in res]
        try:
            tree = ast.parse(code)
        except SyntaxError:
            skipped.append((path, at, 'syntax'))
            continue
        st = tree.body[0]
        mark, hp = len(it.binds), ctx.hp
        try:
            err = re.match(r'^\s*(\w+Error)\b', res[1] if res and res[0].strip().startswith('---') else res[0]) if res else None
            if err:
                s2 = it.sub()
                s2.stmt(st, it.copies(env))
                t = 'raises [%s] %s' % (EXC[err.group(1)], s2.chain('Ok tt'))
                if (os.path.basename(path), at) in WRONG:
                    t = 'negb (%s)' % t
                checks.append((at, t))
                ctx.hp = hp
            elif isinstance(st, ast.For) and 'ws.start_time' in code and 'ws.label' in code:
                v = it.as_list(it.ev(st.iter, env))
                l = it.bind('l', 'mapM (fun w => ws_start_time (tb_tl %s) (ws_loc w)) %s' % (v.tb.e, v.e))
                rows = [re.match(r'^(\S+ \S+)\s+(\S+)$', r.strip()).groups() for r in res]
                checks.append((at, '(list_eqb Z.eqb %s %s && list_eqb Z.eqb (map ws_label %s) %s)' % (
                    l, lst([rd.time(t) for t, _ in rows]), v.e, lst([rd.label(x) for _, x in rows]))))
            elif isinstance(st, ast.Expr):
                if isinstance(st.value, ast.Attribute) and st.value.attr == 'start_time' and res == ['NaT']:
                    v = it.ev(st.value.value, env)
                    v = Sym('opt', it.bind('t', 'iv_start %s %s' % (v.tb.e, v.e)))
                else:
                    v = it.ev(st.value, env)
                if res and v is not None:
                    cs = rd.output(v, res)
                    t = ' && '.join(cs) if len(cs) == 1 else 'forallb (fun x => x) %s' % lst(cs)
                    if (os.path.basename(path), at) in WRONG:
                        t = 'negb (%s)' % t
                    checks.append((at, t))
            else:
                it.stmt(st, env)
        except (Unsupported, TypeError, KeyError, AttributeError, IndexError, ValueError) as u:
            skipped.append((path, at, type(u).__name__[:5], str(u)))
            del it.binds[mark:]
            ctx.hp = hp
            for t in getattr(st, 'targets', []):
                if isinstance(t, ast.Name):
                    env[t.id] = Missing()
    defs = {}
    for b in it.binds:
        m = re.match(r'do (\w+) <- (.*);$', b, re.S)
        defs[m.group(1)] = m.group(2)
    heap = lst(['new_rpat %s' % h for h in ctx.heap])
    groups = {}
    for at, c in checks:
        ds = needs(c, defs)
        key = tuple(sorted(d for d in ds if d.startswith('tb')))[-1:]
        groups.setdefault(key, []).append((at, c, ds))
    base = re.sub(r'\W', '_', os.path.splitext(os.path.basename(path))[0]).lower()
    for key, cs in groups.items():
        ds = set().union(*[d for _, _, d in cs])
        order = [re.match(r'do (\w+)', b).group(1) for b in it.binds]
        body = '\n'.join('  do %s <- %s;' % (v, defs[v]) for v in order if v in ds)
        body, cs = wrap(body), [(a, wrap(c), d) for a, c, d in cs]
        text = '(** %s:%s *)\nExample %s_%d : passes (\n  let heap0 : heap Z := %s in\n%s\n  Ok [%s]) = true.\nProof. vm_compute. reflexivity. Qed.\n' % (
            path, ', '.join(str(a) for a, _, _ in cs), base, cs[0][0], heap, body, ';\n       '.join(c for _, c, _ in cs))
        yield dict(text=text, n=len(cs), long=(base, cs[0][0]) in LONG or '_calendar ' in body)


if __name__ == '__main__':
    main()
