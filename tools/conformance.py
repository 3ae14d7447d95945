#!/usr/bin/env python3
"""Extract the test cases of /repo/src/{parser,lexer,token,cst}/tests* into Coq files that run
them on the model (these are tests of the model against the recorded behaviour of the
code, not proofs of properties).

usage: conformance.py /repo/src OUTDIR
"""
import re, sys, os
root, outdir = sys.argv[1], sys.argv[2]

STR = re.compile(r'r#"(?P<raw>.*?)"#|"(?P<s>(?:[^"\\]|\\.)*)"', re.S)
def unescape(s):
    out, i = [], 0
    while i < len(s):
        c = s[i]
        if c == '\\':
            d = s[i+1]
            if d == '\n':
                i += 2
                while i < len(s) and s[i].isspace(): i += 1
                continue
            out.append({'n': '\n', 't': '\t', '\\': '\\', '"': '"', "'": "'", 'r': '\r', '0': '\0'}[d]); i += 2
        else: out.append(c); i += 1
    return ''.join(out)
def strip_comments(s):
    # remove // comments outside strings
    out, i = [], 0
    while i < len(s):
        m = STR.match(s, i)
        if m: out.append(m.group()); i = m.end(); continue
        if s.startswith("'\"'", i): out.append("'\"'"); i += 3; continue
        if s.startswith('//', i):
            while i < len(s) and s[i] != '\n': i += 1
            continue
        out.append(s[i]); i += 1
    return ''.join(out)
def lit(m): return m.group('raw') if m.group('raw') is not None else unescape(m.group('s'))
def coq(s):
    if all(ord(c) < 128 for c in s): return '(s_ "%s")' % s.replace('"', '""')
    return '[' + '; '.join('%d' % ord(c) for c in s) + ']%N'
S = r'(?:r#".*?"#|"(?:[^"\\]|\\.)*")'
def one(x): return lit(STR.match(x))

HEAD = '''(* Generated by tools/conformance.py from /repo/src/%s: the project's own test cases,
   run on the model. These are tests, not proofs. *)
From Verif Require Import Chars Token Cst Core MiniRust Lexer Program Api ConformanceBase.
Local Open Scope string_scope.
'''
tot = 0
d = root + '/parser/tests'
for f in sorted(os.listdir(d)):
    s = strip_comments(open(d + '/' + f).read())
    ok = [(one(m.group(1)), one(m.group(2)), int(m.group(3))) for m in
          re.finditer(r'SuccessTestCase::new\(\s*(%s)\s*,\s*(%s)\s*,\s*(\d+)\s*,?\s*\)' % (S, S), s, re.S)]
    er = [(one(m.group(1)), m.group(2), m.group(3)) for m in
          re.finditer(r'ErrorTestCase::new\(\s*(%s)\s*,\s*([\w:]+)\s*,\s*([\w:]+)\s*,?\s*\)' % S, s, re.S)]
    assert len(ok) == s.count('SuccessTestCase::new') and len(er) == s.count('ErrorTestCase::new'), (f, len(ok), len(er))
    tot += len(ok) + len(er)
    name = 'Conformance_' + f[6:-3]
    with open('%s/%s.v' % (outdir, name), 'w') as o:
        o.write(HEAD % ('parser/tests/' + f))
        o.write('\nDefinition successes : list (str * str * nat) := [\n')
        o.write(';\n'.join('  (%s,\n   %s, %d)' % (coq(c), coq(e), i) for c, e, i in ok))
        o.write('].\n\nDefinition failures : list (str * N * N) := [\n')
        n = lambda x: 'usize_max' if x == 'usize::MAX' else x + '%N'
        o.write(';\n'.join('  (%s, %s, %s)' % (coq(c), n(a), n(b)) for c, a, b in er))
        o.write('].\n\nExample successes_pass : forallb check_success successes = true.\nProof. vm_compute. reflexivity. Qed.\n')
        o.write('Example failures_pass : forallb check_failure failures = true.\nProof. vm_compute. reflexivity. Qed.\n')
# lexer
s = strip_comments(open(root + '/lexer/tests.rs').read())
parts = re.split(r'(SuccessTestCase|ErrorTestCase)::new\(', s)
oks, ers = [], []
def eofn(x): return 'usize_max' if x.strip() == 'usize::MAX' else x.strip() + '%N'
for kind, body in zip(parts[1::2], parts[2::2]):
    m = re.match(r'\s*(%s)\s*,' % S, body, re.S)
    if not m: print('skip', kind, body[:60].strip()); continue
    code = one(m.group(1))
    if kind == 'SuccessTestCase':
        ts = re.findall(r'Token::(?:new|from_str)\(\s*([\w:]+)\s*,\s*([\w:]+)\s*,\s*(%s)(?:\.to_string\(\))?\s*,?\s*\)' % S, body, re.S)
        assert len(ts) == body.count('Token::'), body
        oks.append((code, [(a, b, one(t)) for a, b, t in ts]))
    else:
        mm = re.match(r'\s*(%s)\s*,\s*([\w:]+)\s*,\s*([\w:]+)' % S, body, re.S)
        if not mm: print('skip', body[:80]); continue
        ers.append((code, mm.group(2), mm.group(3)))
tot += len(oks) + len(ers)
with open(outdir + '/Conformance_lexer.v', 'w') as o:
    o.write(HEAD % 'lexer/tests.rs')
    o.write('\nDefinition lexer_successes : list (str * list token) := [\n')
    o.write(';\n'.join('  (%s, [\n    %s])' % (coq(c), ';\n    '.join('tk %s %s %s' % (eofn(a), eofn(b), coq(t)) for a, b, t in ts)) for c, ts in oks))
    o.write('].\n\nDefinition lexer_failures : list (str * N * N) := [\n')
    o.write(';\n'.join('  (%s, %s, %s)' % (coq(c), eofn(a), eofn(b)) for c, a, b in ers))
    o.write('].\n\nExample lexer_successes_pass : forallb check_tokens lexer_successes = true.\nProof. vm_compute. reflexivity. Qed.\n')
    o.write('Example lexer_failures_pass : forallb check_lex_failure lexer_failures = true.\nProof. vm_compute. reflexivity. Qed.\n')
print(tot, 'cases', len(oks), len(ers))
