#!/usr/bin/env python3
"""List the statements of /repo/timeboard (read as text) that no comment of the model cites.

A citation is `file.py:line`, `file.py:line-line`, or further ranges after a comma, in a
comment of a model file.  Docstrings, comments and blank lines are not statements.

usage: coverage.py [-v]     -v prints the uncovered lines
"""
import ast, glob, os, re, sys

HERE = os.path.dirname(os.path.abspath(__file__))
THEORIES = os.path.join(HERE, '..', 'rocq', 'theories')
MODEL = ['Base', 'Civil', 'Freq', 'Frame', 'When', 'Timeline', 'Board', 'Calendars', 'Api', 'Setup', 'Print', 'PrintMarker', 'UserCal', 'Text',
         'Revise', 'Labels', 'Rounding', 'RoundingLabels', 'Iterate', 'Deep', 'IterMarks', 'Leftover']
REPO = '/repo/timeboard'


def citations():
    cited = {}
    for m in MODEL:
        path = os.path.join(THEORIES, m + '.v')
        if not os.path.exists(path):
            continue
        for c in re.findall(r'\(\*\*(.*?)\*\)', open(path).read(), re.S):
            for f, rest in re.findall(r'(\w+\.py):(\d+(?:-\d+)?(?:\s*,\s*\d+(?:-\d+)?)*)', c):
                for r in re.split(r'\s*,\s*', rest):
                    a, _, b = r.partition('-')
                    cited.setdefault(f, set()).update(range(int(a), int(b or a) + 1))
    return cited


def statements(path):
    """First lines of the statements, with the enclosing function."""
    out = {}

    def walk(node, where):
        body = getattr(node, 'body', None)
        if not isinstance(body, list):
            return
        for k, s in enumerate(body):
            if k == 0 and isinstance(s, ast.Expr) and isinstance(getattr(s, 'value', None), ast.Constant) \
                    and isinstance(s.value.value, str):
                continue
            here = where
            if isinstance(s, (ast.FunctionDef, ast.ClassDef)):
                here = (where + '.' if where else '') + s.name
            elif not isinstance(s, (ast.Import, ast.ImportFrom)):
                out[s.lineno] = where
            walk(s, here)
            for h in getattr(s, 'handlers', []):
                walk(h, here)
            for attr in ('orelse', 'finalbody'):
                if getattr(s, attr, None):
                    walk(ast.Module(body=getattr(s, attr), type_ignores=[]), here)
    walk(ast.parse(open(path).read()), '')
    return out


def main():
    cited = citations()
    total = missing = 0
    for path in sorted(glob.glob(REPO + '/*.py') + glob.glob(REPO + '/calendars/*.py')):
        f = os.path.basename(path)
        if f in ('__init__.py',):
            continue
        st = statements(path)
        bad = {n: w for n, w in st.items() if n not in cited.get(f, set())}
        total += len(st)
        missing += len(bad)
        print('%-18s %4d statements, %4d not cited' % (f, len(st), len(bad)))
        if '-v' in sys.argv:
            lines = open(path).read().split('\n')
            for n in sorted(bad):
                print('   %5d %-45s %s' % (n, bad[n], lines[n - 1].strip()[:70]))
    print('%d of %d statements cited' % (total - missing, total))


if __name__ == '__main__':
    main()
