#!/usr/bin/env python3
"""Transcribe the tables of /repo/src/charstr.c to rocq/theories/CharstrTables.v."""
import re

src = open('/repo/src/charstr.c').read()


def lines(start, end):
    a = src.index(start)
    b = src.index(end, a)
    return src[a:b], src[:a].count('\n') + 1, src[:b].count('\n') + 1


def wrap(items, n):
    rows = [items[i:i + n] for i in range(0, len(items), n)]
    return ';\n   '.join('; '.join(r) for r in rows)


out = ['(** Generated by tools/gen_charstr.py from src/charstr.c. *)',
       'From Verif Require Import Base.', '']

text, a, b = lines('case_table[256] = {', '};')
pairs = re.findall(r'\{ (0x[0-9a-f]+), (0x[0-9a-f]+) \}', text)
assert len(pairs) == 256
for k, name in enumerate(['lower', 'upper']):
    out.append('(** src/charstr.c:%d-%d case_table[].%s, as unsigned char *)' % (a, b, name))
    out.append('Definition case_table_%s : list Z :=\n  [%s].\n' % (name, wrap([p[k] for p in pairs], 16)))

hdr = open('/repo/include/charstr.h').read()
for m in re.finditer(r'#define (CHARSTR_\w+) +(0x[0-9a-f]+)', hdr):
    out.append('(** include/charstr.h:%d *)' % (hdr[:m.start()].count('\n') + 1))
    out.append('Definition %s : Z := %s.' % (m.group(1), m.group(2)))
out.append('')
text, a, b = lines('char_class[256] = {', '};')
text = text[text.index('{') + 1:]
text = re.sub(r"/\*.*?\*/", '', text)
items = [i.strip() for i in text.split(',')]
assert len(items) == 128


def lor(s):
    names = [n.strip() for n in s.split('|')]
    t = names[0]
    for n in names[1:]:
        t = 'Z.lor %s %s' % ('(%s)' % t if ' ' in t else t, n)
    return t


out.append('(** src/charstr.c:%d-%d char_class; C zero-fills the last 128 entries. *)' % (a, b))
out.append('Definition char_class : list Z :=\n  [%s]\n  ++ repeat 0 128.\n' % ';\n   '.join(lor(i) for i in items))

text, a, b = lines('digit_value[256] = {', '};')
text = re.sub(r"/\*.*?\*/", '', text[text.index('{') + 1:])
items = [i.strip() for i in text.split(',')]
assert len(items) == 256
out.append('(** src/charstr.c:%d-%d digit_value *)' % (a, b))
out.append('Definition digit_value : list Z :=\n  [%s].\n' % wrap(items, 16))

text, a, b = lines('.table = {', '}\n};')
strs = re.findall(r'"((?:[^"\\]|\\.)*)"', text)
assert len(strs) == 256


def unescape(s):
    s = s.replace('\\\\', '\\').replace('\\"', '"')
    return '[' + '; '.join(str(ord(c)) for c in s) + ']'


out.append('(** src/charstr.c:%d-%d url_encoder.table: the strings without their NUL *)' % (a, b))
out.append('Definition url_table : list (list Z) :=\n  [%s].' % wrap([unescape(s) for s in strs], 8))
open('/verif/rocq/theories/CharstrTables.v', 'w').write('\n'.join(out) + '\n')
