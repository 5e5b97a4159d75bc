#!/usr/bin/env python3
"""Converts the tables of /repo to Coq list literals.

  Tab*.v : the constants compiled into the crate (src/generated/**/*.rs.inc), part of the model.
  Ref*.v : the published mapping/index files (encoding_tables/**), part of the specification.
  TestData.v : the contents of tests/test_data/whatwg/*.txt.

Usage: tools/gen_tables.py [/repo] [/verif/rocq/theories]
"""
import re, sys, os

REPO = sys.argv[1] if len(sys.argv) > 1 else '/repo'
OUT = sys.argv[2] if len(sys.argv) > 2 else '/verif/rocq/theories'
CHUNK = 256

SINGLE = ['ibm-cp866', 'iso-8859-1', 'iso-8859-2', 'iso-8859-3', 'iso-8859-4', 'iso-8859-5',
          'iso-8859-6', 'iso-8859-7', 'iso-8859-8', 'iso-8859-9', 'iso-8859-10', 'iso-8859-11',
          'iso-8859-13', 'iso-8859-14', 'iso-8859-15', 'iso-8859-16', 'koi8-r', 'koi8-u',
          'mac-roman', 'mac-cyrillic', 'windows-cp874', 'windows-cp1250', 'windows-cp1251',
          'windows-cp1252', 'windows-cp1253', 'windows-cp1254', 'windows-cp1255',
          'windows-cp1256', 'windows-cp1257', 'windows-cp1258']

HEAD = """(* Generated by tools/gen_tables.py; do not edit. *)
From Coq Require Import NArith List.
Import ListNotations.
Local Open Scope N_scope.

"""

def ident(n):
    return n.replace('-', '_')

def parse_inc(path):
    """Literal contents of DECODE_TABLE and ENCODE_TABLE, with their line ranges."""
    lines = open(os.path.join(REPO, path), encoding='utf8').read().split('\n')
    d0 = next(i for i, l in enumerate(lines) if l.startswith('const DECODE_TABLE'))
    e0 = next(i for i, l in enumerate(lines) if l.startswith('const ENCODE_TABLE'))
    d1 = next(i for i in range(d0, len(lines)) if lines[i] == '];')
    e1 = next(i for i in range(e0, len(lines)) if lines[i] == '];')
    dec, enc = [], []
    for l in lines[d0 + 1:d1]:
        for m in re.finditer(r"'(?:\\u\{([0-9A-F]+)\}|(.))'", l):
            dec.append(int(m.group(1), 16) if m.group(1) else ord(m.group(2)))
    for l in lines[e0 + 1:e1]:
        for m in re.finditer(r"\('\\u\{([0-9A-F]+)\}', (\[[^\]]*\]|0x[0-9A-F]+)\)", l):
            enc.append((int(m.group(1), 16), [int(x, 16) for x in re.findall('0x([0-9A-F]+)', m.group(2))]))
    assert len(dec) == int(re.search(r'char; (\d+)', lines[d0]).group(1)), path
    assert len(enc) == int(re.search(r'\); (\d+)\]', lines[e0]).group(1)), path
    return dec, (d0 + 1, d1 + 1), enc, (e0 + 1, e1 + 1)

def parse_map(path, base):
    """All (code, code point) lines of a mapping file, in file order."""
    res = []
    for l in open(os.path.join(REPO, path), encoding='utf8'):
        parts = l.split()
        if len(parts) < 2 or parts[0].startswith('#') or parts[1].startswith('#'):
            continue
        res.append((int(parts[0], base), int(parts[1], 16)))
    return res

def n(x):
    return '0x%X' % x

def emit(f, name, ty, items, comment):
    if len(items) <= CHUNK:
        chunks = [items]
        names = [name]
    else:
        chunks = [items[i:i + CHUNK] for i in range(0, len(items), CHUNK)]
        names = ['%s_%d' % (name, i) for i in range(len(chunks))]
    for k, (nm, ch) in enumerate(zip(names, chunks)):
        f.write('(* %s, entries %d..%d *)\n' % (comment, k * CHUNK, k * CHUNK + len(ch) - 1))
        f.write('Definition %s : list %s := [\n' % (nm, ty))
        for i in range(0, len(ch), 8):
            f.write('  ' + '; '.join(ch[i:i + 8]) + (';' if i + 8 < len(ch) else '') + '\n')
        f.write('].\n')
    if len(chunks) > 1:
        f.write('(* %s: the whole table *)\n' % comment)
        f.write('Definition %s : list %s :=\n  ' % (name, ty) + ' ++\n  '.join(names) + '.\n')
    f.write('\n')

with open(OUT + '/TabSingle.v', 'w') as f:
    f.write(HEAD)
    for s in SINGLE:
        p = 'src/generated/single_byte/%s_tables.rs.inc' % s
        dec, dr, enc, er = parse_inc(p)
        emit(f, 'dec_' + ident(s), 'N', [n(c) for c in dec], '%s:%d-%d DECODE_TABLE' % ((p,) + dr))
        emit(f, 'enc_' + ident(s), '(N * N)', ['(%s,%s)' % (n(c), n(b[0])) for c, b in enc],
             '%s:%d-%d ENCODE_TABLE' % ((p,) + er))

for mod, src in [('TabBig5', 'big5'), ('TabSjis', 'shiftjis')]:
    with open(OUT + '/%s.v' % mod, 'w') as f:
        f.write(HEAD)
        p = 'src/generated/whatwg/%s_whatwg_tables.rs.inc' % src
        dec, dr, enc, er = parse_inc(p)
        nm = mod[3:].lower()
        emit(f, nm + '_decode_table', 'N', [n(c) for c in dec], '%s:%d-%d DECODE_TABLE' % ((p,) + dr))
        emit(f, nm + '_encode_table', '(N * (N * N))',
             ['(%s,(%s,%s))' % (n(c), n(b[0]), n(b[1])) for c, b in enc],
             '%s:%d-%d ENCODE_TABLE' % ((p,) + er))

with open(OUT + '/RefSingle.v', 'w') as f:
    f.write(HEAD)
    for s in SINGLE:
        p = 'encoding_tables/single_byte/ascii_ext/%s.txt' % s
        emit(f, 'ref_' + ident(s), '(N * N)', ['(%s,%s)' % (n(b), n(c)) for b, c in parse_map(p, 16)],
             '%s (byte, code point)' % p)

for mod, src in [('RefBig5', 'index-big5'), ('RefSjis', 'index-jis0208')]:
    with open(OUT + '/%s.v' % mod, 'w') as f:
        f.write(HEAD)
        p = 'encoding_tables/whatwg/%s.txt' % src
        nm = 'big5_index' if mod == 'RefBig5' else 'jis0208_index'
        emit(f, nm, '(N * N)', ['(%s,%s)' % (n(b), n(c)) for b, c in parse_map(p, 10)],
             '%s (pointer, code point)' % p)

# the test data files, byte by byte, as constructors of Coq.Init.Byte.byte
with open(OUT + '/TestData.v', 'w') as f:
    f.write(HEAD.replace('NArith List', 'List Init.Byte').replace('Local Open Scope N_scope.\n', ''))
    for enc in ['big5', 'shiftjis']:
        for part in ['decode_in', 'decode_out', 'encode_in', 'encode_out']:
            p = 'tests/test_data/whatwg/%s_whatwg_test_%s.txt' % (enc, part)
            data = open(os.path.join(REPO, p), 'rb').read()
            emit(f, '%s_%s' % (enc, part), 'byte', ['x%02x' % b for b in data], p)
