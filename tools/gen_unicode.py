#!/usr/bin/env python3
"""Generate rocq/theories/UniTables.v from CPython's own Unicode database (run with CPython 3.11)."""
import sys, unicodedata
def ranges(p):
    r, lo = [], None
    for c in range(0x110000):
        ok = p(chr(c))
        if ok and lo is None: lo = c
        if not ok and lo is not None: r.append((lo, c-1)); lo = None
    if lo is not None: r.append((lo, 0x10ffff))
    return r
def rl(name, r, doc):
    return f"(* {doc} *)\nDefinition {name} : list (N * N) := [" + ";\n  ".join("; ".join(f"({a}, {b})" for a, b in r[i:i+6]) for i in range(0, len(r), 6)) + "].\n"
dec = [c for c in range(0x110000) if unicodedata.decimal(chr(c), None) is not None]
starts = [c for c in dec if unicodedata.decimal(chr(c)) == 0]
assert sorted(s + k for s in starts for k in range(10)) == dec
assert all(unicodedata.decimal(chr(s + k)) == k for s in starts for k in range(10))
up = [(c, [ord(x) for x in chr(c).upper()]) for c in range(128, 0x110000) if chr(c).upper() != chr(c)]
out = ["(* GENERATED by tools/gen_unicode.py from CPython %s, Unicode %s - do not edit. *)" % (sys.version.split()[0], unicodedata.unidata_version),
 "From Verif Require Import PyBase.\nLocal Open Scope N_scope.\n",
 rl("digit_ranges", ranges(str.isdigit), "str.isdigit"),
 rl("numeric_ranges", ranges(str.isnumeric), "str.isnumeric"),
 rl("space_ranges", ranges(str.isspace), "str.isspace, the white space stripped by int() and float()"),
 "(* code points of the decimal digit zeros; digit k of a script is zero + k (what int(), float() and \\d accept) *)\nDefinition decimal_zeros : list N := [" + ";\n  ".join("; ".join(map(str, starts[i:i+10])) for i in range(0, len(starts), 10)) + "].\n",
 "(* str.upper of the non-ASCII characters that it changes *)\nDefinition upper_table : list (N * list N) := [" + ";\n  ".join("; ".join("(%d, [%s])" % (c, "; ".join(map(str, l))) for c, l in up[i:i+6]) for i in range(0, len(up), 6)) + "].\n"]
open("/verif/rocq/theories/UniTables.v", "w").write("\n".join(out))
print(len(up), len(starts), len(ranges(str.isdigit)), len(ranges(str.isnumeric)), ranges(str.isspace))
pr = ranges(lambda c: not c.isprintable())
open("/verif/rocq/theories/UniPrint.v", "w").write("\n".join([out[0], out[1], rl("nonprintable_ranges", pr, "characters for which str.isprintable is False")]))
print(len(pr))
