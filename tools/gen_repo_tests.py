#!/usr/bin/env python3
"""Transcribes the unit tests in /repo/src/*.rs to Coq examples about the model (RepoTests.v).

Every assertion of every #[test] function becomes one example; the script stops if it meets a test it does not understand.
Usage: tools/gen_repo_tests.py [/repo] [/verif/rocq/theories]
"""
import re, sys, os

REPO = sys.argv[1] if len(sys.argv) > 1 else '/repo'
OUT = sys.argv[2] if len(sys.argv) > 2 else '/verif/rocq/theories'

FILES = [('utf8', 'utf8_%s'), ('utf16_be', 'utf16_be_%s'), ('utf16_le', 'utf16_le_%s'),
         ('utf32_be', 'utf32_be_%s'), ('utf32_le', 'utf32_le_%s'), ('single_byte', 'sb_%s iso_8859_7'),
         ('big5_whatwg', 'big5_%s'), ('shiftjis_whatwg', 'sjis_%s')]

STR = r'"(?:[^"\\]|\\.)*"'
LIT = r'(?:&?b?' + STR + r'(?:\.as_bytes\(\))?|&?\[[^\]]*\])'

def unescape(s):
    s = re.sub(r'\\u\{([0-9A-Fa-f]+)\}', lambda m: chr(int(m.group(1), 16)), s)
    assert '\\' not in s, s
    return s

def lit(s):
    """bytes of a string, byte string or array literal"""
    s = s.strip()
    if s.startswith('&'):
        s = s[1:]
    if s.startswith('b"'):
        body = s[2:-1]
        res = bytes(int(m.group(1), 16) if m.group(1) else ord(m.group(2))
                    for m in re.finditer(r'\\x([0-9A-Fa-f]{2})|([^\\])', body))
        return res
    if s.startswith('"'):
        s = s.replace('.as_bytes()', '')
        return unescape(s[1:-1]).encode('utf8')
    assert s.startswith('['), s
    return bytes(int(x.strip().replace('u8', ''), 0) for x in s[1:-1].split(',') if x.strip())

def chars(s):
    return ord(unescape(s))

def coq(b):
    return '[' + '; '.join('0x%02X' % x for x in b) + ']'

def call(fun, path, args, model):
    m = model
    if path:
        m = 'sb_%s ' + path[:-2]
    return m % fun + ' ' + args

def main():
    out = []
    total = tests = 0
    for name, model in FILES:
        src = open(os.path.join(REPO, 'src', name + '.rs'), encoding='utf8').read()
        start = src.index('mod tests {')
        out.append('\n(** ** /repo/src/%s.rs *)\n' % name)
        for m in re.finditer(r'#\[test\]\n    fn (\w+)\(\) \{\n(.*?)\n    \}\n', src[start:], re.S):
            tests += 1
            test, body = m.group(1), m.group(2)
            line0 = src[:start + m.start()].count('\n') + 2
            line1 = src[:start + m.end()].count('\n')
            body = re.sub(r'^\s*//.*$', '', body, flags=re.M)
            body = re.sub(r';\s*//.*$', ';', body, flags=re.M)
            n = 0
            def example(stmt):
                nonlocal n, total
                n += 1
                total += 1
                out.append('(* lines %d-%d *)\nExample %s_%s_%d : %s.\nProof. vm_compute. reflexivity. Qed.\n' % (line0, line1, name, test, n, stmt))
            # tests made of helper calls
            helpers = list(re.finditer(r'(correct_decode|correct_encode|error_decode)\(\s*(%s),\s*(?:(%s),?|(\(\d+, \d+\)), (\d+))\s*\);' % (LIT, LIT), body))
            if helpers:
                assert len(helpers) == len(re.findall(r'(?:correct|error)_\w+\(', body)) and 'assert' not in body, test
                for h in helpers:
                    kind, a, b = h.group(1), lit(h.group(2)), h.group(3)
                    dec = 'decode' in kind
                    fun = 'decode_to_str' if dec else 'encode_from_str'
                    c = model % fun + ' %s (zeros 256)' % coq(a) + (' true' if dec else '')
                    if kind == 'error_decode':
                        r = h.group(4)
                        example('failed (%s) = Some (DecodeError InvalidData %s%%nat %s)' % (c, r, h.group(5)))
                    else:
                        example('returned (%s) = Some (%s, %d%%nat)' % (c, coq(lit(b)), len(a)))
                continue
            # latin1 loops
            if 'for i in 0..=255u8' in body:
                if 'encode_from_str' in body:
                    example('forallb (fun i => same (returned (sb_encode_from_str iso_8859_1 (encode_utf8 i) (zeros 64))) [i] (len_utf8 i))\n    (map N.of_nat (seq 0 256)) = true')
                else:
                    example('forallb (fun i => same (returned (sb_decode_to_str iso_8859_1 [i] (zeros 64))) (encode_utf8 i) 1)\n    (map N.of_nat (seq 0 256)) = true')
                continue
            inp = lit(re.search(r'let (?:text|data) = (%s);' % LIT, body, re.S).group(1))
            buf = int(re.search(r'let mut buf = \[0u8; (\d+)\];', body).group(1))
            c = re.search(r'((?:\w+::)?)(encode_from_str|decode_to_str)\(&?(?:text|data), &mut buf(?:, (true|false))?\)', body)
            assert len(re.findall(r'encode_from_str|decode_to_str', body)) == 1, test
            cq = call(c.group(2), c.group(1), '%s (zeros %d)' % (coq(inp), buf) + (' ' + c.group(3) if c.group(3) else ''), model)
            found = 0
            ok = re.search(r'assert_eq!\(consumed_count, (\d+)\);\s*assert_eq!\((?:encoded|decoded), (%s)\);' % LIT, body)
            if ok:
                assert '.unwrap()' in body
                example('returned (%s) = Some (%s, %s%%nat)' % (cq, coq(lit(ok.group(2))), ok.group(1)))
                found += 2
            err = re.search(r'Err\(DecodeError \{\s*cause: DecodeErrorCause::InvalidData,\s*error_range: (\(\d+, \d+\)),\s*output_bytes_written: (\d+),\s*\}\)', body)
            if err:
                example('failed (%s) = Some (DecodeError InvalidData %s%%nat %s)' % (cq, err.group(1), err.group(2)))
                found += 1
            err = re.search(r"Err\(EncodeError \{\s*character: '([^']*)',\s*error_range: (\(\d+, \d+\)),\s*output_bytes_written: (\d+),\s*\}\)", body)
            if err:
                example('failed (%s) = Some (EncodeError 0x%X %s%%nat %s)' % (cq, chars(err.group(1)), err.group(2), err.group(3)))
                found += 1
            b = re.search(r'assert_eq!\(&buf\[\.\.(\d+)\], (%s)\);' % LIT, body)
            if b:
                example('buffer_to %s (%s) = Some %s' % (b.group(1), cq, coq(lit(b.group(2)))))
                found += 1
            assert found == body.count('assert_eq!') and found > 0, (name, test, found)
    head = '''(* Generated by tools/gen_repo_tests.py; do not edit.
   The unit tests in /repo/src/*.rs (%d tests), transcribed as %d examples about the model: checks that the model agrees with
   results the authors of the crate expect.  The tests in /repo/tests are in ModelTests.v. *)
From Coq Require Import List NArith Arith Bool.
From Verif Require Import Prelude RustCore Types Encodings.
From Verif Require Import ModelUtf8 ModelUtf16Le ModelUtf16Be ModelUtf32Le ModelUtf32Be ModelSingleByte ModelBig5 ModelShiftJis ModelTests.
Import ListNotations.
Local Open Scope N_scope.

(* f(...).unwrap() *)
Definition returned {E} (r : outcome (result (list N * nat) E * list N)) : option (list N * nat) :=
  match r with Ret (Ok x, _) => Some x | _ => None end.
(* the e of f(...) = Err(e) *)
Definition failed {E} (r : outcome (result (list N * nat) E * list N)) : option E :=
  match r with Ret (Err e, _) => Some e | _ => None end.
(* &buf[..n] after the call *)
Definition buffer_to {E} (n : nat) (r : outcome (result (list N * nat) E * list N)) : option (list N) :=
  match r with Ret (_, buf) => Some (firstn n buf) | _ => None end.
Definition same (r : option (list N * nat)) (s : list N) (n : nat) : bool :=
  match r with Some (s', n') => (if list_eq_dec N.eq_dec s' s then true else false) && (n' =? n)%%nat | None => false end.
''' % (tests, total)
    open(os.path.join(OUT, 'RepoTests.v'), 'w').write(head + '\n'.join(out))
    print(tests, 'tests', total, 'examples')

main()
