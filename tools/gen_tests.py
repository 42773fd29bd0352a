#!/usr/bin/env python3
"""Generates rocq/theories/RepoTests.v: the expectations of the repository's own
tests, which Fidelity.v checks against the model."""
import re, os
R = '/repo/'
S = r'(b?"(?:[^"\\]|\\.)*")'
def lit(t):
    b = t[0] == 'b'
    t = t[2:-1] if b else t[1:-1]
    out = []; i = 0
    while i < len(t):
        if t[i] != '\\': out.append(ord(t[i])); i += 1; continue
        c = t[i+1]
        if c == 'u':
            j = t.index('}', i); out.append(int(t[i+3:j], 16)); i = j + 1
        elif c == 'x': out.append(int(t[i+2:i+4], 16)); i += 4
        else: out.append({'n': 10, 't': 9, 'r': 13, '0': 0, '\\': 92, '"': 34, "'": 39}[c]); i += 2
    return out
def strip(p):
    return open(R + p, encoding='utf-8').read()
def l(cs): return '[' + ';'.join('0x%X' % c if c > 9 else str(c) for c in cs) + ']'
def pairs(text, pat):
    return [(lit(m.group(1)), lit(m.group(2))) for m in re.finditer(pat, text)]
def ones(text, pat):
    return [lit(m.group(1)) for m in re.finditer(pat, text)]
out = []
def emit(name, doc, rows):
    out.append('(** %s *)' % doc)
    if rows and isinstance(rows[0], tuple):
        out.append('Definition %s : list (list N * list N) := [' % name)
        out.append(';\n'.join('(%s,%s)' % (l(a), l(b)) for a, b in rows) + '].')
    else:
        out.append('Definition %s : list (list N) := [' % name)
        out.append(';\n'.join(l(a) for a in rows) + '].')
    out.append('')
    print(name, len(rows))
W = r'\s*'
t = strip('tests/basic-text-string.rs')
strict = pairs(t, r'TextString::from_text\(' + S + r'\.to_owned\(\)\)' + W + r'\.unwrap\(\)(?:' + W + r'\.as_str\(\))?,' + W + S)
a, b = t.split('fn basic_text_string_cjk_compatibility_ideographs')
P = r'TextString::from_text_lossy\(' + W + S + W + r'\)(?:' + W + r'\.as_str\(\))?,' + W + S
emit('t_strict', 'tests/basic-text-string.rs: TextString::from_text(a).unwrap() == b', strict)
emit('t_lossy', 'tests/basic-text-string.rs: TextString::from_text_lossy(a) == b, up to line 772', pairs(a, P))
cjk = pairs(b, P)
n = len(strict) + len(pairs(a, P)) + len(cjk); assert n == t.count('assert'), n
emit('t_cjk', 'the CJK compatibility ideographs of the same file', cjk)
t = strip('tests/text-input.rs')
def rd(f): return pairs(t, r'assert_eq!\(' + W + f + r'\(' + S + r'\)(?:\.unwrap\(\))?,' + W + S)
emit('t_read', 'tests/text-input.rs: to_text(a) == b', rd('to_text'))
emit('t_nel', 'to_text_with_nel_compatibility(a) == b', rd('to_text_with_nel_compatibility'))
emit('t_lsps', 'to_text_with_lsps_compatibility(a) == b', rd('to_text_with_lsps_compatibility'))
t = strip('tests/disallowed_scalar_values.rs')
dis = [lit('"' + m.group(1) + '"') for m in re.finditer(r"'((?:[^'\\]|\\.[^']*))',", t)]
emit('t_disallowed', 'tests/disallowed_scalar_values.rs', dis); assert len(dis) == 190
t = strip('src/text_reader.rs')
emit('t_reader', 'src/text_reader.rs: test(a, b)', pairs(t, r'\btest\(' + W + S + r'(?:\.as_bytes\(\))?,' + W + S))
t = strip('src/text_writer.rs')
emit('t_writer', 'src/text_writer.rs: test(a, b)', pairs(t, r'\btest\(' + W + S + r'(?:\.as_bytes\(\))?,' + W + S))
emit('t_writer_err', 'src/text_writer.rs: test_error(a)', ones(t, r'\btest_error\(' + W + S))
t = strip('tests/text-output.rs')
def wr(f): return pairs(t, r'assert_eq!\(' + W + f + r'\(' + S + r'\)\.unwrap\(\),' + W + S)
def we(f): return ones(t, r'assert_eq!\(' + W + f + r'\(' + S + r'\)\.unwrap_err')
emit('t_write', 'tests/text-output.rs: to_text(a).unwrap() == b', wr('to_text'))
spec = [lit('"' + m + '"') for m in re.findall(r"'(\\u\{[0-9a-f]+\})'", t)]
emit('t_write_err', 'tests/text-output.rs: to_text(a).unwrap_err()', we('to_text') + [c + [10] for c in spec])
emit('t_bom', 'to_text_with_bom_compatibility(a).unwrap() == b', wr('to_text_with_bom_compatibility'))
emit('t_crlf', 'to_text_with_crlf_compatibility(a).unwrap() == b', wr('to_text_with_crlf_compatibility'))
emit('t_crlf_err', 'to_text_with_crlf_compatibility(a).unwrap_err()', we('to_text_with_crlf_compatibility'))
t = strip('tests/buf_read_text.rs')
x, y = t.split('fn buf_read_test_lossy')
for name, z in (('t_lines', x), ('t_lines_lossy', y)):
    src = ones(z, r'let input = ' + S)[0]
    emit(name, 'tests/buf_read_text.rs: the lines of the first string', [src] + ones(z, r'text!\(' + S))
def sample(p): return [ord(c) for c in open(R + 'samples/' + p, 'rb').read().decode('utf-8', 'replace')]
emit('t_example', 'samples/basic-text-example.txt', [sample('basic-text-example.txt')])
raw = list(open(R + 'samples/basic-text-invalid.txt', 'rb').read())
emit('t_sample', 'samples/basic-text-invalid.txt (bytes) and basic-text-invalid-converted.txt (scalar values)', [(raw, sample('basic-text-invalid-converted.txt'))])
head = ['(** Generated by tools/gen_tests.py - do not edit.', "    The expectations of the repository's own tests. *)",
        'From Coq Require Import NArith List.', 'Import ListNotations.', 'Local Open Scope N_scope.', '']
open(os.path.join(os.path.dirname(__file__), '../rocq/theories/RepoTests.v'), 'w').write('\n'.join(head + out))
