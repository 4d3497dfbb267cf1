#!/usr/bin/env python3
"""The S-boxes of Tiger from their published generator (Anderson and Biham, "Tiger: a fast new hash function",
appendix: the compression function with the S-boxes being made, 5 passes, the title as message).
Prints them as Coq lists for Spec/TigerSbox.v."""
M = 2**64 - 1
STR = b"Tiger - A Fast New Hash Function, by Ross Anderson and Eli Biham"
assert len(STR) == 64

def compress(t, x, st):
    """t: 1024 lists of 8 bytes (least significant first)"""
    w = lambda i: int.from_bytes(bytes(t[i]), 'little')
    def rnd(r, ia, ib, ic, x, mul):
        r[ic] ^= x
        c = r[ic]
        b = [(c >> (8 * i)) & 255 for i in range(8)]
        r[ia] = (r[ia] - (w(b[0]) ^ w(256 + b[2]) ^ w(512 + b[4]) ^ w(768 + b[6]))) & M
        r[ib] = (r[ib] + (w(768 + b[1]) ^ w(512 + b[3]) ^ w(256 + b[5]) ^ w(b[7]))) & M
        r[ib] = (r[ib] * mul) & M
    def pas(r, a, b, c, x, mul):
        o = [(a, b, c), (b, c, a), (c, a, b)]
        for i in range(8):
            rnd(r, *o[i % 3], x[i], mul)
    def ks(x):
        n = lambda v: v ^ M
        x[0] = (x[0] - (x[7] ^ 0xA5A5A5A5A5A5A5A5)) & M
        x[1] ^= x[0]
        x[2] = (x[2] + x[1]) & M
        x[3] = (x[3] - (x[2] ^ ((n(x[1]) << 19) & M))) & M
        x[4] ^= x[3]
        x[5] = (x[5] + x[4]) & M
        x[6] = (x[6] - (x[5] ^ (n(x[4]) >> 23))) & M
        x[7] ^= x[6]
        x[0] = (x[0] + x[7]) & M
        x[1] = (x[1] - (x[0] ^ ((n(x[7]) << 19) & M))) & M
        x[2] ^= x[1]
        x[3] = (x[3] + x[2]) & M
        x[4] = (x[4] - (x[3] ^ (n(x[2]) >> 23))) & M
        x[5] ^= x[4]
        x[6] = (x[6] + x[5]) & M
        x[7] = (x[7] - (x[6] ^ 0x0123456789ABCDEF)) & M
    x = x[:]
    r = st[:]
    pas(r, 0, 1, 2, x, 5); ks(x); pas(r, 2, 0, 1, x, 7); ks(x); pas(r, 1, 2, 0, x, 9)
    st[0], st[1], st[2] = r[0] ^ st[0], (r[1] - st[1]) & M, (r[2] + st[2]) & M

def gen():
    x = [int.from_bytes(STR[8 * i:8 * i + 8], 'little') for i in range(8)]
    st = [0x0123456789ABCDEF, 0xFEDCBA9876543210, 0xF096A5B4C3B2E187]
    t = [[i & 255] * 8 for i in range(1024)]
    abc = 2
    for _ in range(5):
        for i in range(256):
            for sb in range(0, 1024, 256):
                abc += 1
                if abc == 3:
                    abc = 0
                    compress(t, x, st)
                for col in range(8):
                    j = sb + ((st[abc] >> (8 * col)) & 255)
                    t[sb + i][col], t[j][col] = t[j][col], t[sb + i][col]
    return [int.from_bytes(bytes(e), 'little') for e in t]

if __name__ == '__main__':
    t = gen()
    print('''(** The S-boxes of Tiger, made by the generator of the authors (tools/tiger_sbox.py), not taken from the library. *)
From Coq Require Import NArith List.
Import ListNotations.
Local Open Scope N_scope.
''')
    for k in range(4):
        rows = ['; '.join('0x%016X' % v for v in t[256 * k + 4 * i:256 * k + 4 * i + 4]) for i in range(64)]
        print('Definition tiger_t%d : list N :=\n  [%s].' % (k + 1, ';\n   '.join(rows)))
