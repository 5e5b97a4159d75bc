#!/usr/bin/env python3
# Writes rocq/theories/RefPython.v: what the codecs of CPython make of every code of one and two bytes.
# Nothing of /repo is read.
import sys

SINGLE = [
    ("ascii", "ascii"), ("ibm_866", "cp866"),
    *[("iso_8859_%d" % i, "iso8859_%d" % i) for i in (1, 2, 3, 4, 5, 6, 7, 8, 9, 10, 11, 13, 14, 15, 16)],
    ("koi8_r", "koi8_r"), ("koi8_u", "koi8_u"), ("mac_roman", "mac_roman"), ("mac_cyrillic", "mac_cyrillic"),
    *[("windows_%d" % i, "cp%d" % i) for i in (874, 1250, 1251, 1252, 1253, 1254, 1255, 1256, 1257, 1258)],
]


def decode(bs, codec):
    try:
        return bs.decode(codec)
    except UnicodeDecodeError:
        return None


def codes(codec):
    one = {x: decode(bytes([x]), codec) for x in range(256)}
    one = {x: s for x, s in one.items() if s is not None}
    two = {}
    for x in range(256):
        if x not in one:
            for y in range(256):
                s = decode(bytes([x, y]), codec)
                if s is not None:
                    two[x, y] = s
    return one, two


def numbers(l, n=16):
    l = ["0x%X" % x for x in l]
    return ";\n   ".join("; ".join(l[i:i + n]) for i in range(0, len(l), n))


def show(k):
    return "(0x%X, 0x%X)" % k if isinstance(k, tuple) else "0x%X" % k


def rows(t):
    out, last = [], None
    for k in sorted(t):
        if len(t[k]) != 1:
            continue
        if last is not None and k == last:
            out[-1][1].append(ord(t[k]))
        else:
            out.append((k, [ord(t[k])]))
        last = (k[0], k[1] + 1) if isinstance(k, tuple) else k + 1
    return out


def write_rows(f, name, ty, t):
    f.write("Definition %s : list (%s * list N) := [\n" % (name, ty))
    f.write(";\n".join("  (%s, [%s])" % (show(k), numbers(l)) for k, l in rows(t)))
    f.write("].\n")


with open("rocq/theories/RefPython.v", "w") as f:
    f.write("(* Generated by tools/gen_pycodecs.py from the codecs of CPython %s; do not edit. *)\n" % sys.version.split()[0])
    f.write("From Coq Require Import NArith List.\nFrom Verif Require Import Encodings.\nImport ListNotations.\nLocal Open Scope N_scope.\n\n")
    f.write("(* the character of each byte; 0xFFFE if there is none *)\n")
    for m, c in SINGLE:
        f.write("(* codec %s *)\nDefinition py_%s : list N :=\n  [%s].\n" % (
            c, m, numbers([ord(decode(bytes([x]), c) or "\ufffe") for x in range(256)])))
    f.write("Definition py_table (m : sb_module) : list N :=\n  match m with\n")
    for m, _ in SINGLE:
        f.write("  | %s => py_%s\n" % (m, m))
    f.write("  end.\n\n")
    for c in ("cp932", "big5hkscs"):
        one, two = codes(c)
        assert all(len(s) == 1 for s in one.values())
        f.write("(* codec %s, single bytes: the first of a run of bytes, and their characters *)\n" % c)
        write_rows(f, "py_%s_one" % c, "N", one)
        f.write("(* pairs of bytes: the first of a run of pairs with the same first byte, and their characters *)\n")
        write_rows(f, "py_%s_two" % c, "N * N", two)
        f.write("(* pairs of bytes that stand for two characters *)\n")
        seq = [(k, two[k]) for k in sorted(two) if len(two[k]) != 1]
        f.write("Definition py_%s_seq : list (N * N * list N) := [%s].\n\n" % (
            c, "; ".join("(%s, [%s])" % (show(k), numbers(map(ord, s))) for k, s in seq)))
