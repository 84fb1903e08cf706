#!/usr/bin/env python3
"""Transcribe the fields of the Unicode data files in /repo/unicode that the
generator scripts in /repo/src use to rocq/theories/UcdData.v."""

D = '/repo/unicode/'


def wrap(items, n):
    rows = [items[i:i + n] for i in range(0, len(items), n)]
    return ';\n   '.join('; '.join(r) for r in rows)


def h(x):
    return '0x%x' % x


def load():
    decomp, ccc = [], []
    for line in open(D + 'UnicodeData.txt'):
        f = line.split(';')
        cp = int(f[0], 16)
        if int(f[3]):
            ccc.append((cp, int(f[3])))
        if f[5] and not f[5].startswith('<'):
            decomp.append((cp, [int(x, 16) for x in f[5].split()]))
    excl = []
    for line in open(D + 'CompositionExclusions.txt'):
        line = line.strip()
        if line and not line.startswith('#'):
            excl.append(int(line.split()[0], 16))
    qc = {'NFC_QC': [], 'NFD_QC': [], 'NFKC_QC': [], 'NFKD_QC': []}
    for line in open(D + 'DerivedNormalizationProps.txt'):
        f = [x.strip() for x in line.split('#')[0].split(';')]
        if len(f) == 3 and f[1] in qc:
            r = f[0].split('..')
            assert f[2] in 'NM'
            qc[f[1]].append((int(r[0], 16), int(r[-1], 16), f[2]))
    return decomp, ccc, excl, qc


CATEGORIES = ('Lu Ll Lt Lm Lo Mn Mc Me Nd Nl No Pc Pd Ps Pe Pi Pf Po Sm Sc Sk So '
              'Zs Zl Zp Cc Cf Cs Co Cn').split()


def category_rows():
    """The lines of UnicodeData.txt as (codepoint, kind, category), neighbouring
    codepoints of one category joined to a First and a Last line."""
    runs, first = [], None
    for line in open(D + 'UnicodeData.txt'):
        cp, descr, cat = line.split(';')[:3]
        cp = int(cp, 16)
        assert cat in CATEGORIES and cat != 'Cn'
        start = cp
        if descr.endswith(', Last>'):
            start = first
        elif descr.endswith(', First>'):
            first = cp
            continue
        if runs and runs[-1][1] + 1 == start and runs[-1][2] == cat:
            runs[-1][1] = cp
        else:
            runs.append([start, cp, cat])
    rows = []
    for a, b, cat in runs:
        if a == b:
            rows.append((a, 'Single', cat))
        else:
            rows += [(a, 'First', cat), (b, 'Last', cat)]
    return rows


def write_categories():
    rows = category_rows()
    out = ['(** Generated by tools/gen_unicode.py from the data files in unicode/. *)',
           'From Verif Require Import Base CategoryModel.', '']
    out.append('(** unicode/UnicodeData.txt: codepoint, kind of the line and category (field 2).\n'
               '    Neighbouring codepoints of one category are joined to a First and a Last line. *)')
    out.append('Definition category_data : list row :=\n  [%s].\n' % wrap(
        ['(%s, %s, %s)' % (h(c), k, g) for c, k, g in rows], 6))
    open('/verif/rocq/theories/CategoryData.v', 'w').write('\n'.join(out))


def write_cases():
    rows = []
    for line in open(D + 'UnicodeData.txt'):
        f = line.split(';')
        if f[12] or f[13]:
            assert not f[1].endswith('t>') or not f[1].startswith('<')
            opt = lambda x: 'Some %s' % h(int(x, 16)) if x else 'None'
            rows.append('(%s, %s, %s, %s)' % (h(int(f[0], 16)), f[2], opt(f[12]), opt(f[13])))
    out = ['(** Generated by tools/gen_unicode.py from the data files in unicode/. *)',
           'From Verif Require Import Base CategoryModel CaseModel.', '']
    out.append('(** unicode/UnicodeData.txt: codepoint, category (field 2), upper case (field 12) and\n'
               '    lower case (field 13), when one of the last two is not empty. *)')
    out.append('Definition case_data : list case_row :=\n  [%s].\n' % wrap(rows, 3))
    open('/verif/rocq/theories/CaseData.v', 'w').write('\n'.join(out))


def write_compatibility():
    rows = []
    for line in open(D + 'UnicodeData.txt'):
        f = line.split(';')
        if f[5].startswith('<'):
            rows.append('(%s, [%s])' % (h(int(f[0], 16)), '; '.join(h(int(x, 16)) for x in f[5].split()[1:])))
    out = ['(** Generated by tools/gen_unicode.py from the data files in unicode/. *)',
           'From Verif Require Import Base.', '']
    out.append('(** unicode/UnicodeData.txt: codepoint and compatibility decomposition (field 5, when it\n'
               '    begins with <, without the tag). *)')
    out.append('Definition compatibility_data : list (Z * list Z) :=\n  [%s].\n' % wrap(rows, 4))
    open('/verif/rocq/theories/CompatData.v', 'w').write('\n'.join(out))


def main():
    write_categories()
    write_compatibility()
    write_cases()
    decomp, ccc, excl, qc = load()
    out = ['(** Generated by tools/gen_unicode.py from the data files in unicode/. *)',
           'From Verif Require Import Base.', '']
    out.append('(** unicode/UnicodeData.txt: codepoint and canonical decomposition (field 5, when it\n'
               '    is not empty and does not begin with <). *)')
    out.append('Definition decomposition_data : list (Z * list Z) :=\n  [%s].\n' % wrap(
        ['(%s, [%s])' % (h(c), '; '.join(map(h, d))) for c, d in decomp], 4))
    out.append('(** unicode/UnicodeData.txt: codepoint and canonical combining class (field 3), when\n'
               '    it is not zero. *)')
    out.append('Definition ccc_data : list (Z * Z) :=\n  [%s].\n' % wrap(
        ['(%s, %d)' % (h(c), k) for c, k in ccc], 8))
    out.append('(** unicode/CompositionExclusions.txt, without the lines that are comments. *)')
    out.append('Definition exclusion_data : list Z :=\n  [%s].\n' % wrap([h(c) for c in excl], 12))
    out.append('(** unicode/DerivedNormalizationProps.txt: the lines of the four quick check\n'
               '    properties: first and last codepoint, and whether the value is N (true) or M. *)')
    for k in qc:
        out.append('Definition %s_data : list (Z * Z * bool) :=\n  [%s].\n' % (k.lower(), wrap(
            ['(%s, %s, %s)' % (h(a), h(b), 'true' if v == 'N' else 'false') for a, b, v in qc[k]], 5)))
    open('/verif/rocq/theories/UcdData.v', 'w').write('\n'.join(out))


if __name__ == '__main__':
    main()
