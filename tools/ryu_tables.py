"""Writes rocq/theories/RyuTables.v from the tables in /repo/src/geoarrow/ryu."""
import re
t = open('/repo/src/geoarrow/ryu/d2s_full_table.h').read()
def table(name):
    m = re.search(name + r'\[(\d+)\]\[2\] = \{(.*?)\};', t, re.S)
    rows = re.findall(r'\{(\d+)u, (\d+)u\}', m.group(2))
    assert len(rows) == int(m.group(1))
    return rows
def lines(name):
    ls = t.split('\n')
    a = next(i for i, l in enumerate(ls) if name + '[' in l)
    b = next(i for i in range(a, len(ls)) if '};' in ls[i])
    return a + 1, b + 1
d = open('/repo/src/geoarrow/ryu/digit_table.h').read()
digits = re.findall(r"'(\d)'", d)
assert len(digits) == 200
out = ["(** * The tables of the number printer *)",
       "(** Written by tools/ryu_tables.py from the source; the entries are those of the source, in its order. *)",
       "From Verif Require Import Base Text.", "Local Open Scope Z_scope.", ""]
for name, doc in (("DOUBLE_POW5_INV_SPLIT", "low and high 64 bits of the rounded-up inverses of the powers of 5"),
                  ("DOUBLE_POW5_SPLIT", "low and high 64 bits of the leading 125 bits of the powers of 5")):
    a, b = lines(name)
    out.append(f"(** ryu/d2s_full_table.h lines {a}-{b}: {doc} *)")
    out.append(f"Definition {name} : list (Z * Z) := [")
    out.append(";\n".join(f"  ({x}, {y})" for x, y in table(name)))
    out.append("].")
    out.append("")
out.append("(** ryu/digit_table.h lines 22-34 *)")
out.append('Definition DIGIT_TABLE : bytes :=')
s = "".join(digits)
out.append("  $\"" + s + "\".")
open('/verif/rocq/theories/RyuTables.v', 'w').write("\n".join(out) + "\n")
