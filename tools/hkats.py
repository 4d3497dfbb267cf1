#!/usr/bin/env python3
"""Known answer tests for the hashes, from the vectors in /repo/test/hash (short messages only), and some published ones."""
import sys, os, re
sys.path.insert(0, os.path.dirname(os.path.abspath(__file__)))
import kats
MAX = 130
OUT = os.path.join(os.path.dirname(os.path.abspath(__file__)), '..', 'rocq', 'theories', 'Kat', 'HashKat.v')
REPO = [('md5', 'Md5'), ('sha1', 'Sha1'), ('sha2_256', 'Sha2'), ('sha2_512', 'Sha2'), ('tiger', 'Tiger'), ('whirlpool', 'Whirlpool'),
        ('keccak1600', 'Keccak'), ('sha3', 'Keccak')]
MODEL = os.path.join(os.path.dirname(OUT), '..', 'Model')
REPO = [x for x in REPO if os.path.exists(os.path.join(MODEL, x[1] + '.v'))]
L = ['(** Generated by tools/hkats.py from /repo/test/hash. *)',
     'From Coq Require Import NArith List String.',
     'From Verif Require Import Lib.Res Lib.Hex Model.HashApi %s.' % ' '.join(sorted({'Model.' + m for _, m in REPO})),
     'Import ListNotations.', 'Local Open Scope N_scope.', '']
for n, _ in REPO:
    src = open('/repo/test/hash/%s.c' % n).read()
    k = 0
    for m in re.finditer(r'\{\s*(?:\/\*.*?\*\/\s*)?(\.message\b.*?)\n\t\t\}', src, re.S):
        d = {}
        for f in re.finditer(r'\.(\w+)\s*=\s*((?:"(?:[^"\\]|\\.)*"\s*)+|\d+)', m.group(1)):
            v = f.group(2); d[f.group(1)] = kats.cstr(v) if v.startswith('"') else int(v)
        if d['message_len'] * d['message_repeat'] > MAX: continue
        assert d['salt_len'] == 0
        k += 1
        msg = (d['message'] + [0])[:d['message_len']] * d['message_repeat']
        assert len(msg) == d['message_len'] * d['message_repeat'] and len(d['hash']) >= d['hash_len']
        L += ['(** /repo/test/hash/%s.c *)' % n, 'Example %s_kat_%d :' % (n, k),
              '  hash_all hash_%s %d [] (%s) %d = Ok (%s).' % (n, d['rounds'], kats.hx(msg), d['hash_len'], kats.hx(d['hash'][:d['hash_len']])),
              'Proof. vm_compute. reflexivity. Qed.', '']
open(OUT, 'w').write('\n'.join(L))
