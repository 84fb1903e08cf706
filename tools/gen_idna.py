#!/usr/bin/env python3
"""Transcribe the lines of /repo/idna/IdnaMappingTable.txt to
rocq/theories/IdnaData.v."""

NAMES = {'valid': 'Valid', 'ignored': 'Ignored', 'mapped': 'Mapped', 'deviation': 'Deviation',
         'disallowed': 'Disallowed', 'disallowed_STD3_valid': 'Std3_valid',
         'disallowed_STD3_mapped': 'Std3_mapped'}


def rows():
    for line in open('/repo/idna/IdnaMappingTable.txt'):
        f = line.split('#')[0].split(';')
        if len(f) < 2:
            continue
        r = [int(x, 16) for x in f[0].strip().split('..')]
        m = [int(x, 16) for x in f[2].split()] if len(f) > 2 else None
        yield r[0], r[-1], NAMES[f[1].strip()], m


def main():
    out = ['(** Generated by tools/gen_idna.py from idna/IdnaMappingTable.txt. *)',
           'From Verif Require Import Base IdnaTabModel.', '',
           '(** idna/IdnaMappingTable.txt: the lines with a status. *)',
           'Definition idna_data : list idna_row :=']
    items = []
    for a, b, s, m in rows():
        items.append('(0x%x, 0x%x, %s, %s)' % (
            a, b, s, 'None' if m is None else 'Some [%s]' % '; '.join('0x%x' % c for c in m)))
    out.append('  [' + ';\n   '.join('; '.join(items[i:i + 3]) for i in range(0, len(items), 3)) + '].\n')
    open('/verif/rocq/theories/IdnaData.v', 'w').write('\n'.join(out))


if __name__ == '__main__':
    main()
