#!/usr/bin/env python3
"""Check that the files in /repo/unicode have the formats that UcdTextSpec.v describes."""
import re

D = '/repo/unicode/'


def check(ok, what):
    if not ok:
        raise SystemExit('format: %r' % (what,))


def unicode_data():
    lo, first, n = 0, None, 0
    text = open(D + 'UnicodeData.txt', newline='').read()
    check('\r' not in text, 'carriage return')
    for line in text.split('\n'):
        if not line:
            continue
        f = line.split(';')
        check(len(f) == 15, line)
        check(re.fullmatch('[0-9A-Fa-f]+', f[0]), line)
        check(re.fullmatch('[A-Z][a-z]', f[2]), line)
        check(re.fullmatch('[0-9]+', f[3]), line)
        check(f[5] == '' or f[5].startswith('<') or re.fullmatch('[0-9A-F]+( [0-9A-F]+)*', f[5]), line)
        if f[5] and not f[5].startswith('<'):
            check(len(f[5].split()) <= 2, line)
        for i in (12, 13):
            check(re.fullmatch('[0-9A-F]*', f[i]), line)
        cp = int(f[0], 16)
        check(lo <= cp <= 0x10FFFF, line)
        lo = cp + 1
        if f[1].endswith(', Last>'):
            check(first == f[2], line)
            first = None
        else:
            check(first is None, line)
            if f[1].endswith(', First>'):
                first = f[2]
        n += 1
    check(first is None, 'end')
    return n


def exclusions():
    n = 0
    for line in open(D + 'CompositionExclusions.txt', newline='').read().split('\n'):
        check('\r' not in line, line)
        if re.fullmatch('[ \t]*(#.*)?', line):
            continue
        check(re.match('[0-9A-F]+([ \t]|$)', line), line)
        n += 1
    return n


def quick_checks():
    n = 0
    for line in open(D + 'DerivedNormalizationProps.txt', newline='').read().split('\n'):
        check('\r' not in line, line)
        f = line.split('#')[0].split(';')
        if len(f) != 3:
            continue
        t = f[1].strip(' \t')
        check(re.fullmatch('[!-~]*', t), line)
        if t in ('NFC_QC', 'NFD_QC', 'NFKC_QC', 'NFKD_QC'):
            check(re.fullmatch(r'[ \t]*[0-9A-F]+[ \t]*(\.\.[ \t]*[0-9A-F]+[ \t]*)?', f[0]), line)
            check(f[2].strip(' \t') in ('N', 'M'), line)
            check(int(f[0].split('..')[-1], 16) <= 0x10FFFF, line)
            n += 1
    return n


if __name__ == '__main__':
    print(unicode_data(), exclusions(), quick_checks())
