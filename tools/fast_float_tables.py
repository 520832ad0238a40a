"""Writes rocq/theories/FastFloatTables.v (the powers of five of the number parser, as in the source) and
rocq/theories/FastFloatCertificates.v: for each power of ten, two neighbouring fractions around the multiplier of the table and
the power it stands for. They are found here and checked in FastFloatScaled.v."""
import re
lines = open('/repo/src/geoarrow/fast_float.h').read().split('\n')
first = next(i for i, l in enumerate(lines) if 'power_of_five_128[number_of_entries] = {' in l)
last = next(i for i in range(first, len(lines)) if '};' in lines[i])
words = [int(x, 16) for x in re.findall(r'0x[0-9a-f]+', '\n'.join(lines[first:last]))]
assert len(words) == 1302
rows = [(words[2 * i], words[2 * i + 1]) for i in range(651)]
M = 2 ** 64

def between(ln, ld, hn, hd):
    """p1/q1 <= ln/ld <= hn/hd < p2/q2, neighbours, q1 + q2 > M"""
    p1, q1, p2, q2 = 0, 1, 1, 0
    while q1 + q2 <= M:
        p, q = p1 + p2, q1 + q2
        if p * ld <= ln * q:
            k = (ln * q1 - p1 * ld) // (p2 * ld - ln * q2) if p2 * ld - ln * q2 > 0 else None
            k = min(k, max(1, (M - q1 - q2) // q2 + 1)) if q2 > 0 else k
            p1, q1 = p1 + k * p2, q1 + k * q2
        elif hn * q < p * hd:
            a, b = p2 * hd - hn * q2, hn * q1 - p1 * hd
            k = (a - 1) // b if b > 0 else 10 ** 30
            k = min(k, max(1, (M - q1 - q2) // q1 + 1))
            p2, q2 = p2 + k * p1, q2 + k * q1
        else:
            return None
    return p1, q1, p2, q2

def main():
    certs = []
    for q in range(-342, 309):
        hi, lo = rows[q + 342]
        t = hi * 2 ** 64 + lo
        b = ((217706 * q) >> 16) + 63 - q - 53
        num, den = 5 ** max(0, q) * 2 ** max(0, -b), 5 ** max(0, -q) * 2 ** max(0, b)
        if t * den == num * 2 ** 137:
            certs.append((0, 0, 0, 0))
            continue
        if t * den < num * 2 ** 137:
            args = (t, 2 ** 137, num, den)
        else:
            args = (num, den, t, 2 ** 137)
        r = between(*args)
        assert r, q
        certs.append(r)
    with open('/verif/rocq/theories/FastFloatTables.v', 'w') as f:
        f.write('(** * The table of the number parser *)\n'
                '(** Written by tools/fast_float_tables.py from the source; the entries are those of the source, in its order. *)\n'
                'From Coq Require Import ZArith List.\nImport ListNotations.\nLocal Open Scope Z_scope.\n\n'
                '(** fast_float.h lines %d-%d (power_of_five_128): high and low 64 bits of the powers of 5 from 5^-342 to 5^308, scaled to 128 bits *)\n'
                'Definition POWER_OF_FIVE_128 : list (Z * Z) :=\n  [' % (first + 1, last + 1))
        f.write(';\n   '.join('(%d, %d)' % r for r in rows))
        f.write('].\n')
    with open('/verif/rocq/theories/FastFloatCertificates.v', 'w') as f:
        f.write('(** * Neighbouring fractions around the multipliers of the number parser *)\n'
                '(** Generated by tools/fast_float_tables.py. Nothing here is trusted: FastFloatScaled.v checks every row. *)\n'
                'From Coq Require Import ZArith List.\nImport ListNotations.\nLocal Open Scope Z_scope.\n\n'
                '(** For q from -342 to 308: p1, q1, p2 and q2; zeros where the multiplier is exact. *)\n'
                'Definition CERTIFICATES : list (Z * Z * Z * Z) :=\n  [')
        f.write(';\n   '.join('(%d, %d, %d, %d)' % r for r in certs))
        f.write('].\n')
    print(len(rows), sum(r == (0, 0, 0, 0) for r in certs), first + 1, last + 1)
main()
