#!/usr/bin/env python3
"""Turn the vectors of /repo/test/block/*.c into Examples over the model.

Only vectors with one iteration are used.  Output: rocq/theories/Kat/*.v"""
import re, os, sys
REPO = '/repo/test/block/'
OUT = os.path.join(os.path.dirname(os.path.abspath(__file__)), '../rocq/theories/Kat/')
# test file -> (model module, create, encrypt, decrypt, tweak function or None)
C = {
 'tea': ('Tea', 'tea_create', 'tea_encrypt', 'tea_decrypt', None),
 'xtea': ('Xtea', 'xtea_create', 'xtea_encrypt', 'xtea_decrypt', None),
 'rc5': ('Rc5', 'rc5_create', 'rc5_encrypt', 'rc5_decrypt', None),
 'rc6': ('Rc6', 'rc6_create', 'rc6_encrypt', 'rc6_decrypt', None),
 'speck32': ('Speck', 'speck_create speck32', 'speck_encrypt speck32', 'speck_decrypt speck32', None),
 'speck64': ('Speck', 'speck_create speck64', 'speck_encrypt speck64', 'speck_decrypt speck64', None),
 'speck128': ('Speck', 'speck_create speck128', 'speck_encrypt speck128', 'speck_decrypt speck128', None),
 'simon32': ('Simon', 'simon_create simon32', 'simon_encrypt simon32', 'simon_decrypt simon32', None),
 'simon64': ('Simon', 'simon_create simon64', 'simon_encrypt simon64', 'simon_decrypt simon64', None),
 'simon128': ('Simon', 'simon_create simon128', 'simon_encrypt simon128', 'simon_decrypt simon128', None),
 'lea': ('Lea', 'lea_create', 'lea_encrypt', 'lea_decrypt', None),
 'crax_s': ('Sparx', 'crax_create', 'crax_encrypt', 'crax_decrypt', None),
 'trax_m': ('Sparx', 'trax_create trax_m', 'trax_encrypt trax_m', 'trax_decrypt trax_m', 'trax_set_tweak trax_m'),
 'trax_l': ('Sparx', 'trax_create trax_l', 'trax_encrypt trax_l', 'trax_decrypt trax_l', 'trax_set_tweak trax_l'),
 'threefish256': ('Threefish', 'tf_create threefish256', 'tf_encrypt threefish256', 'tf_decrypt threefish256', 'tf_tweak'),
 'threefish512': ('Threefish', 'tf_create threefish512', 'tf_encrypt threefish512', 'tf_decrypt threefish512', 'tf_tweak'),
 'threefish1024': ('Threefish', 'tf_create threefish1024', 'tf_encrypt threefish1024', 'tf_decrypt threefish1024', 'tf_tweak'),
 'noekeon': ('Noekeon', 'noek_create', 'noek_encrypt', 'noek_decrypt', None),
 'rectangle': ('Rectangle', 'rect_create', 'rect_encrypt', 'rect_decrypt', None),
 'rc2': ('Rc2', 'rc2_create', 'rc2_encrypt', 'rc2_decrypt', None),
 '3way': ('Threeway', 'tw_create', 'tw_encrypt', 'tw_decrypt', None),
 'gost': ('Gost', 'gost_create gost_cbr', 'gost_encrypt', 'gost_decrypt', None),
 'rijndael128': ('Rijndael', 'rijndael128_create', 'rijndael128_encrypt', 'rijndael128_decrypt', None),
 'rijndael256': ('Rijndael', 'rijndael256_create', 'rijndael256_encrypt', 'rijndael256_decrypt', None),
 'idea': ('Idea', 'idea_create', 'idea_encrypt', 'idea_decrypt', None),
 'seed': ('Seed', 'seed_create', 'seed_encrypt', 'seed_decrypt', None),
 'sm4': ('Sm4', 'sm4_create', 'sm4_encrypt', 'sm4_decrypt', None),
 'skipjack': ('Skipjack', 'skipjack_create', 'skipjack_encrypt', 'skipjack_decrypt', None),
 'cast5': ('Cast5', 'cast5_create', 'cast5_encrypt', 'cast5_decrypt', None),
 'des': ('Des', 'des_create', 'des_encrypt', 'des_decrypt', None),
 'blowfish': ('Blowfish', 'blowfish_create', 'blowfish_encrypt', 'blowfish_decrypt', None),
 'twofish': ('Twofish', 'twofish_create', 'twofish_encrypt', 'twofish_decrypt', None),
 'serpent': ('Serpent', 'serpent_create', 'serpent_encrypt', 'serpent_decrypt', None),
 'shacal2': ('Shacal2', 'shacal2_create', 'shacal2_encrypt', 'shacal2_decrypt', None),
 'safer': ('Safer', 'safer_create false', 'safer_encrypt', 'safer_decrypt', None),
 'safer_sk': ('Safer', 'safer_create true', 'safer_encrypt', 'safer_decrypt', None),
 'saferpp': ('Saferpp', 'saferpp_create', 'saferpp_encrypt', 'saferpp_decrypt', None),
 'khazad': ('Khazad', 'khazad_create', 'khazad_encrypt', 'khazad_decrypt', None),
 'anubis': ('Anubis', 'anubis_create', 'anubis_encrypt', 'anubis_decrypt', None),
 'aria': ('Aria', 'aria_create', 'aria_encrypt', 'aria_decrypt', None),
 'camellia': ('Camellia', 'camellia_create', 'camellia_encrypt', 'camellia_decrypt', None),
}
MAXV = 3

def cstr(s):
    out = []
    for part in re.findall(r'"((?:[^"\\]|\\.)*)"', s):
        i = 0
        while i < len(part):
            if part[i] == '\\' and part[i+1] == 'x':
                m = re.match(r'[0-9A-Fa-f]+', part[i+2:])
                out.append(int(m.group(0), 16)); i += 2 + len(m.group(0))
            elif part[i] == '\\':
                raise Exception('escape')
            else:
                out.append(ord(part[i])); i += 1
    return out

def vectors(name):
    # safer.c holds the vectors of safer and of safer_sk
    src = open(REPO + name.replace('_sk', '') + '.c').read()
    if 'sk_vectors' in src:
        a, b = src.split('const struct vector sk_vectors')
        src = b if name.endswith('_sk') else a
    for m in re.finditer(r'\{\s*(?:\/\*.*?\*\/\s*)?(\.key_len.*?)\n\t\t\}', src, re.S):
        d = {}
        for f in re.finditer(r'\.(\w+)\s*=\s*((?:"(?:[^"\\]|\\.)*"\s*)+|\d+)', m.group(1)):
            v = f.group(2)
            d[f.group(1)] = cstr(v) if v.startswith('"') else int(v)
        yield d

def hx(l): return 'hex "%s"' % ''.join('%02X' % x for x in l)

def main():
    os.makedirs(OUT, exist_ok=True)
    mods = {}
    for n, c in C.items(): mods.setdefault(c[0], []).append(n)
    for mod, names in mods.items():
        L = ['(** Generated by tools/kats.py from /repo/test/block. *)',
             'From Coq Require Import NArith List String.',
             'From Verif Require Import Lib.Res Lib.Hex Model.%s.' % mod,
             'Import ListNotations.', 'Local Open Scope N_scope.', '']
        for n in names:
            _, cr, en, de, tw = C[n]
            seen = 0; used = set()
            for v in vectors(n):
                if v['iterations'] != 1: continue
                key = v['key'][:v['key_len']]
                if len(key) != v['key_len']: raise Exception(n)
                if v.get('key_len') in used and seen >= 1 and len(set(v['key'])) == 1: continue
                if seen >= MAXV: break
                seen += 1; used.add(v['key_len'])
                create = '%s %d (%s)' % (cr, v['rounds'], hx(key))
                if v['tweak_len']:
                    create = 'let* s0 := %s in %s s0 (%s)' % (create, tw, hx(v['tweak'][:v['tweak_len']]))
                L.append('(** /repo/test/block/%s.c *)' % n)
                L.append('Example k%s_kat_%d :\n  (let* s := %s in\n   let* c := %s s (%s) in\n   let* p := %s s c in Ok (c, p)) =\n  Ok (%s, %s).\nProof. vm_compute. reflexivity. Qed.\n' % (n, seen, create, en, hx(v['pt']), de, hx(v['ct']), hx(v['pt'])))
            if not seen: print('no vector with one iteration:', n)
        open(OUT + mod + 'Kat.v', 'w').write('\n'.join(L))
main()
