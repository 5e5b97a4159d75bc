#!/usr/bin/env python3
"""Copies text files of /repo into Coq, line by line.

  FileBig5.v, FileSjis.v : the WHATWG index and the generated tables (.rs.inc) of Big5 and Shift JIS.
  FileSingle.v : the mapping files of the single-byte encodings and their generated tables.
  FileSource.v : the source files of the crate and of its example.
  FileScripts.v : the scripts that generate the tables.
  FileTests.v : the test programs.

Usage: tools/gen_files.py [/repo] [/verif/rocq/theories]
"""
import os, sys

REPO = sys.argv[1] if len(sys.argv) > 1 else '/repo'
OUT = sys.argv[2] if len(sys.argv) > 2 else '/verif/rocq/theories'
CHUNK = 256

SINGLE = ['ibm-cp866', 'iso-8859-1', 'iso-8859-2', 'iso-8859-3', 'iso-8859-4', 'iso-8859-5',
          'iso-8859-6', 'iso-8859-7', 'iso-8859-8', 'iso-8859-9', 'iso-8859-10', 'iso-8859-11',
          'iso-8859-13', 'iso-8859-14', 'iso-8859-15', 'iso-8859-16', 'koi8-r', 'koi8-u',
          'mac-roman', 'mac-cyrillic', 'windows-cp874', 'windows-cp1250', 'windows-cp1251',
          'windows-cp1252', 'windows-cp1253', 'windows-cp1254', 'windows-cp1255',
          'windows-cp1256', 'windows-cp1257', 'windows-cp1258']

HEAD = """(* Generated by tools/gen_files.py; do not edit.  The contents of text files, one literal per line. *)
From Coq Require Import List.
From Verif Require Import FileText.
Import ListNotations.
Local Open Scope line_scope.

"""

def emit(f, name, path):
    data = open(os.path.join(REPO, path), 'rb').read().decode('utf8')
    assert data.endswith('\n') and '\r' not in data and '\0' not in data, path
    lines = data[:-1].split('\n')
    chunks = [lines[i:i + CHUNK] for i in range(0, len(lines), CHUNK)]
    names = ['%s_%d' % (name, i) for i in range(len(chunks))] if len(chunks) > 1 else [name]
    for k, (nm, ch) in enumerate(zip(names, chunks)):
        f.write('(* /repo/%s:%d-%d *)\n' % (path, k * CHUNK + 1, k * CHUNK + len(ch)))
        f.write('Definition %s : list line := [\n' % nm)
        f.write(';\n'.join('"' + l.replace('"', '""') + '"' for l in ch))
        f.write('\n].\n')
    if len(chunks) > 1:
        f.write('(* /repo/%s *)\n' % path)
        f.write('Definition %s : list line :=\n  ' % name + ' ++\n  '.join(names) + '.\n')
    f.write('Global Opaque %s.\n\n' % name)

for fn, pairs in [
    ('FileBig5', [('index_big5_txt', 'encoding_tables/whatwg/index-big5.txt'),
                  ('big5_inc', 'src/generated/whatwg/big5_whatwg_tables.rs.inc')]),
    ('FileSjis', [('index_jis0208_txt', 'encoding_tables/whatwg/index-jis0208.txt'),
                  ('shiftjis_inc', 'src/generated/whatwg/shiftjis_whatwg_tables.rs.inc')]),
    ('FileSingle', [x for n in SINGLE for x in
                    [(n.replace('-', '_') + '_txt', 'encoding_tables/single_byte/ascii_ext/%s.txt' % n),
                     (n.replace('-', '_') + '_inc', 'src/generated/single_byte/%s_tables.rs.inc' % n)]]),
    ('FileSource', [(n + '_rs', 'src/%s.rs' % n) for n in
                    ['lib', 'utf8', 'utf16_be', 'utf16_le', 'utf32_be', 'utf32_le', 'single_byte', 'big5_whatwg', 'shiftjis_whatwg']]
                   + [('wrapper_rs', 'examples/wrapper.rs')]),
    ('FileScripts', [('generate_ascii_ext_tables_py', 'encoding_tables/single_byte/generate_ascii_ext_tables.py'),
                     ('generate_big5_py', 'encoding_tables/whatwg/generate_big5.py'),
                     ('generate_shiftjis_py', 'encoding_tables/whatwg/generate_shiftjis.py')]),
    ('FileTests', [('tests_%s_rs' % n, 'tests/%s.rs' % n) for n in ['property_tests', 'big5', 'shiftjis']])]:
    with open(os.path.join(OUT, fn + '.v'), 'w', encoding='utf8') as f:
        f.write(HEAD)
        for name, path in pairs:
            emit(f, name, path)
