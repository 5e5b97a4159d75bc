#!/usr/bin/env python3
# Writes rocq/theories/RefBig5_2003.v: the mapping in encoding_tables/big5_2003.txt of the repository.
import re

table = {}
for line in open("/repo/encoding_tables/big5_2003.txt"):
    line = line.split("#")[0].strip()
    if line:
        k, c = line.split()
        table[int(k, 16)] = int(c, 16)

rows, last = [], None
for k in sorted(table):
    if k != last or k % 256 == 0:
        rows.append((k, []))
    rows[-1][1].append("0x%X" % table[k])
    last = k + 1

with open("rocq/theories/RefBig5_2003.v", "w") as f:
    f.write("(* Generated by tools/gen_big5_2003.py from encoding_tables/big5_2003.txt; do not edit. *)\n")
    f.write("From Coq Require Import NArith List.\nImport ListNotations.\nLocal Open Scope N_scope.\n\n")
    f.write("(* the first of a run of pairs of bytes with the same first byte, and their characters *)\n")
    f.write("Definition big5_2003_txt : list (N * N * list N) := [\n")
    f.write(";\n".join("  ((0x%X, 0x%X), [%s])" % (k // 256, k % 256, ";\n   ".join("; ".join(l[i:i + 16]) for i in range(0, len(l), 16)))
                       for k, l in rows))
    f.write("].\n")
