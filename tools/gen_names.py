#!/usr/bin/env python3
"""Generates rocq/theories/NameTable.v from /repo: the algorithm identifiers,
the name table and the default algorithm lists, every feature switched on
(the SHA-1 and AES-CBC "soft disable" defaults kept)."""
import re, os
root = os.path.dirname(os.path.dirname(os.path.abspath(__file__)))
h = open('/repo/wolfssh/internal.h').read().split('\n')
c = open('/repo/src/internal.c').read().split('\n')
a = next(i for i, l in enumerate(h) if 'ID_NONE,' in l)
ids = []
for l in h[a:]:
    m = re.match(r'\s*(ID_\w+),?', l)
    if m: ids.append(m.group(1))
    if 'ID_UNKNOWN' in l: break
out = ['(* NameTable.v - generated by tools/gen_names.py from wolfssh/internal.h',
       '   (algorithm identifiers, %d-%d) and src/internal.c (NameIdMap 3354-3573,' % (a+1, a+120),
       '   default lists 929-1248), all optional features switched on. *)',
       'From Verif Require Import Base.',
       'From Coq Require Import List NArith.', 'Import ListNotations.', 'Open Scope N_scope.', '',
       '(* wolfssh/internal.h 421-536 *)']
for i, n in enumerate(ids):
    out.append('Definition %s : N := %d.' % (n, i))
out += ['', '(* wolfssh/internal.h 539-541 enum NameIdType *)']
for i, n in enumerate(['TYPE_KEX', 'TYPE_KEY', 'TYPE_CIPHER', 'TYPE_MAC', 'TYPE_OTHER']):
    out.append('Definition %s : N := %d.' % (n, i))
def bs(s): return '[' + ';'.join(str(ord(x)) for x in s) + ']'
a = next(i for i, l in enumerate(c) if 'NameIdMap[] = {' in l)
b = next(i for i in range(a, len(c)) if c[i] == '};')
txt = '\n'.join(c[a+1:b])
pairs = re.findall(r'\{\s*(ID_\w+),\s*(TYPE_\w+),\s*"([^"]*)"\s*\}', txt)
assert all(p[0] in ids for p in pairs)
out += ['', '(* src/internal.c:3347-3573 NameIdMap: (id, type, name) *)',
        'Definition NameIdMap : list (N * N * bytes) := [']
out.append(';\n'.join('  (* %s *) (%s, %s, %s)' % (n, i, t, bs(n)) for i, t, n in pairs))
out += ['].', '']
def canned(name):
    a = next(i for i, l in enumerate(c) if re.search(r'\b%s\[\] =' % name, l))
    s = ''; skip = []
    for l in c[a:]:
        if re.match(r'\s*#\s*if', l):
            skip.append(bool(re.search(r'#ifdef WOLFSSH_NO_SHA1_SOFT_DISABLE|defined\(WOLFSSH_NO_SHA1_SOFT_DISABLE\)|defined\(WOLFSSH_NO_AES_CBC_SOFT_DISABLE\)', l)))
        elif re.match(r'\s*#\s*endif', l): skip.pop()
        elif not any(skip):
            m = re.search(r'"([^"]*)"', l)
            if m: s += m.group(1)
        if l.rstrip().endswith(';'): break
    return a+1, s
for nm in ['cannedKexAlgoNames', 'cannedKeyAlgoNames', 'cannedKeyAlgoNamesHostKey', 'cannedEncAlgoNames', 'cannedMacAlgoNames', 'cannedNoneNames']:
    ln, s = canned(nm)
    out += ['(* src/internal.c:%d %s = "%s" *)' % (ln, nm, s), 'Definition %s : bytes := %s.' % (nm, bs(s)), '']
open(root + '/rocq/theories/NameTable.v', 'w').write('\n'.join(out))
print(len(ids), len(pairs))
