"""Writes rocq/theories/RyuCertificates.v: for each binary exponent, two neighbouring fractions around the multiplier of the
printer's table and the power it stands for. They are found here and checked in RyuScaled.v."""
import re
src = open('/repo/src/geoarrow/ryu/d2s_full_table.h').read()
def table(name):
    body = src[src.index(name):]
    body = body[body.index('= {') + 3:body.index('};')]
    return [(int(a), int(b)) for a, b in re.findall(r'\{\s*(\d+)u,\s*(\d+)u\s*\}', body)]
INV = table('DOUBLE_POW5_INV_SPLIT[')
POW = table('DOUBLE_POW5_SPLIT[')
M = 2 ** 55
def pow5bits(e): return ((e * 1217359) >> 19) + 1
def log10Pow2(e): return (e * 78913) >> 18
def log10Pow5(e): return (e * 732923) >> 20

def between(ln, ld, hn, hd):
    """p1/q1 <= ln/ld <= hn/hd < p2/q2, neighbours, q1 + q2 > M"""
    p1, q1, p2, q2 = 0, 1, 1, 0
    while q1 + q2 <= M:
        # the mediant (p1+p2)/(q1+q2): move towards [lo, hi]
        p, q = p1 + p2, q1 + q2
        if p * ld <= ln * q:      # mediant <= lo: raise the lower fraction, as often as possible
            # largest k: (p1 + k p2) / (q1 + k q2) <= lo
            k = (ln * q1 - p1 * ld) // (p2 * ld - ln * q2) if p2 * ld - ln * q2 > 0 else None
            k = min(k, max(1, (M - q1 - q2) // q2 + 1)) if q2 > 0 else k
            p1, q1 = p1 + k * p2, q1 + k * q2
        elif hn * q < p * hd:     # mediant > hi
            # largest k: (p2 + k p1) / (q2 + k q1) > hi
            a, b = p2 * hd - hn * q2, hn * q1 - p1 * hd
            k = (a - 1) // b if b > 0 else 10 ** 30
            k = min(k, max(1, (M - q1 - q2) // q1 + 1))
            p2, q2 = p2 + k * p1, q2 + k * q1
        else:
            return None
    return p1, q1, p2, q2

def main():
    rows = []
    for e2 in range(-1076, 970):
        if e2 >= 0:
            q = log10Pow2(e2) - (e2 > 3)
            j = -e2 + q + 125 + pow5bits(q) - 1
            lo, hi = INV[q]
            ln, ld, hn, hd = 2 ** (e2 - q), 5 ** q, lo + 2 ** 64 * hi, 2 ** j
            num, den = ln, ld
        else:
            q = log10Pow5(-e2) - (-e2 > 1)
            i = -e2 - q
            j = q - (pow5bits(i) - 125)
            lo, hi = POW[i]
            ln, ld, hn, hd = lo + 2 ** 64 * hi, 2 ** j, 5 ** i, 2 ** q
            num, den = hn, hd
        assert ln * hd <= hn * ld
        assert 64 <= j < 192, j
        assert num >= den and M * num < 2 ** 64 * den
        if ln * hd == hn * ld:
            rows.append((0, 0, 0, 0))
            continue
        r = between(ln, ld, hn, hd)
        assert r, e2
        p1, q1, p2, q2 = r
        assert p1 * ld <= ln * q1 and hn * q2 < p2 * hd and p2 * q1 - p1 * q2 == 1 and q1 + q2 > M
        rows.append(r)
    with open('/verif/rocq/theories/RyuCertificates.v', 'w') as f:
        f.write('(** * Neighbouring fractions around the multipliers of the printer *)\n'
                '(** Generated by tools/ryu_certificates.py. Nothing here is trusted: RyuScaled.v checks every row. *)\n'
                'From Coq Require Import ZArith List.\nImport ListNotations.\nLocal Open Scope Z_scope.\n\n'
                '(** For e2 from -1076 to 969: p1, q1, p2 and q2; zeros where the multiplier is exact. *)\n'
                'Definition CERTIFICATES : list (Z * Z * Z * Z) :=\n  [')
        f.write(';\n   '.join('(%d, %d, %d, %d)' % r for r in rows))
        f.write('].\n')
    print(len(rows), sum(r == (0, 0, 0, 0) for r in rows))
main()
