#!/usr/bin/env python3
"""Check (and with -w correct) the line ranges in comments of the form
'src/file.c:A-B name' against the definition of name in /repo."""
import re, sys, glob


def ranges(path):
    out = {}
    lines = open(path).read().split('\n')
    i = 0
    while i < len(lines):
        m = re.match(r'^(?!#|typedef|\s|/|\*|\}|extern)[\w\s\*]*?\b(\w+)\(', lines[i])
        if m:
            j = i
            while j < len(lines) and lines[j] != '{' and not lines[j].endswith(';'):
                j += 1
            if j < len(lines) and lines[j] == '{':
                while lines[j] != '}':
                    j += 1
                out[m.group(1)] = (i + 1, j + 1)
            i = j
        i += 1
    return out


cache = {}
write = '-w' in sys.argv
for f in sorted(glob.glob('/verif/rocq/theories/*.v')):
    s = open(f).read()

    def fix(m):
        path, a, b, name = m.group(1), m.group(2), m.group(3), m.group(4)
        try:
            r = cache.setdefault(path, ranges('/repo/' + path))
        except FileNotFoundError:
            print(f, path, 'missing'); return m.group(0)
        if name in r and r[name] != (int(a), int(b)):
            print(f.split('/')[-1], name, (a, b), '->', r[name])
            return '%s:%d-%d %s' % (path, *r[name], name)
        return m.group(0)

    t = re.sub(r'((?:src|include)/[\w.]+):(\d+)-(\d+)\s+(\w+)', fix, s)
    if write and t != s:
        open(f, 'w').write(t)
