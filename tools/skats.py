#!/usr/bin/env python3
"""Known answer tests for the stream ciphers, from the vectors in /repo/test/stream (cut to CUT bytes)."""
import sys, os, re
sys.path.insert(0, os.path.dirname(os.path.abspath(__file__)))
import kats
CUT = 72
OUT = os.path.join(os.path.dirname(os.path.abspath(__file__)), '..', 'rocq', 'theories', 'Kat', 'StreamKat.v')
L = ['(** Generated by tools/skats.py from /repo/test/stream. *)',
     'From Coq Require Import NArith List String.',
     'From Verif Require Import Lib.Res Lib.Hex Model.Mem Model.Chacha Model.Salsa20 Model.Rc4.',
     'Import ListNotations.', 'Local Open Scope N_scope.', '',
     '(** one call in place on a buffer at address 0 *)',
     'Definition run_stream {S} (op : S -> mem -> nat -> nat -> nat -> res (S * mem)) (s : S) (l : list N) : res (list N) :=',
     '  let* p := op s (fun a => nth a l 0) 0%nat 0%nat (List.length l) in Ok (rd (snd p) 0 (List.length l)).', '']
for n in ['chacha', 'salsa20']:
    src = open('/repo/test/stream/%s.c' % n).read()
    k = 0
    for m in re.finditer(r'\{\s*(?:\/\*.*?\*\/\s*)?(\.rounds.*?)\n\t\t\}', src, re.S):
        d = {}
        for f in re.finditer(r'\.(\w+)\s*=\s*((?:"(?:[^"\\]|\\.)*"\s*)+|\d+)', m.group(1)):
            v = f.group(2); d[f.group(1)] = kats.cstr(v) if v.startswith('"') else int(v)
        if d['pt_len'] == 512: continue
        k += 1
        assert len(d['key']) >= d['key_len'] and len(d['iv']) >= d['iv_len']
        L += ['(** /repo/test/stream/%s.c *)' % n, 'Example %s_kat_%d :' % (n, k),
              '  (let* s := %s_create %d (%s) (%s) in' % (n, d['rounds'], kats.hx(d['key'][:d['key_len']]), kats.hx(d['iv'][:d['iv_len']])),
              '   run_stream %s_crypt s (%s)) =' % (n, kats.hx(d['pt'][:CUT])),
              '  Ok (%s).' % kats.hx(d['ct'][:CUT]), 'Proof. vm_compute. reflexivity. Qed.', '']
L += ['(** the usual vector, not from the repository *)', 'Example rc4_kat_1 :',
      '  (let* s := rc4_create 0 (text "Key") [] in run_stream rc4_crypt s (text "Plaintext")) = Ok (hex "BBF316E8D940AF0AD3").',
      'Proof. vm_compute. reflexivity. Qed.', '']
open(OUT, 'w').write('\n'.join(L))
