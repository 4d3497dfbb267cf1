# Formal model of libkripto: design

Prover: Coq 8.16.1, standard library only. Build: `cd rocq && coq_makefile -f _CoqProject -o Makefile && make -j4`.

## Layout

| Folder (under `rocq/theories`) | Content |
|---|---|
| `Lib/`   | words, bytes, result monad, loops, load/store, generic lemmas |
| `Model/` | Gallina transcription of the C files, one file per C file, definitions only (constant tables copied from the C text by `tools/ctable.py`) |
| `Kat/`   | the test vectors of `/repo/test` replayed on the model |
| `Spec/`  | short independent specifications (FIPS, RFC, papers); what a mode, MAC or object must do is stated over the interface records of `Model/*Api.v` |
| `Proof/` | lemmas |
| `Props/` | the property theorems, each closed by `exact`, with `Print Assumptions` and an `Example` |

## Modelling decisions

* Machine words are `N`, every C operation that wraps is written with an explicit mask (`Lib/Word.v`). Theorems carry the range conditions only for caller supplied data (bytes below 256); internal ranges are proved.
* Undefined behaviour and failed asserts are values: `res A := Ok a | Err e`, `e` one of out-of-bounds read/write, use after free, division by zero, uninitialised read, failed assert, NULL return. Array reads with an index that is not masked to the table size go through `get`, which returns `Err OobRead` past the end, so "no undefined behaviour" is a conclusion of the theorems and not an assumption.
* Objects are records holding the C struct fields that influence behaviour; `X_create`, `X_recreate`, `X_encrypt`, ... follow the C functions.
* Heap objects with trailing arrays: `create` computes the C allocation size (32 bit wrap included) and yields `Err OobWrite` if the setup writes past it.
* Stream modes work on a byte memory (`N -> N`), so overlapping source and destination and writes outside the destination are visible.
* A block operation is a function from the input block to the output block. This fits the text: each of the 74 encrypt and decrypt functions in `lib/block/` loads its whole input into locals before its first store (checked function by function), so the result is the same when the two buffers overlap.
* MACs, AE, KDFs and modes are parametrised by an arbitrary block cipher / hash / MAC / stream (Section variables, closed by generalisation, so they become universally quantified hypotheses). The instantiation with concrete ciphers is done in corollaries to show that the hypotheses are satisfiable.
* Uninitialised memory is an explicit argument of the model (junk); a result is well defined if it does not depend on it.
* `malloc` is an oracle in the resource model (`Model/Heap*.v`).

## Trusted base

* the Coq kernel (and `coqchk`),
* no axioms: `Print Assumptions` under every property theorem prints "Closed under the global context". (`coqchk` also lists seven constants of `Coq.ssr.ssrunder`, parameters of a module that the standard library loads with `Lia`; no theorem depends on them.)
* the reading of the C text: the definitions in `Model/` cite file and lines; tables are extracted by script; the test vectors of `/repo/test` are replayed on the model as `Example`s,
* x86-64, 8 bit bytes, 32 bit `unsigned int`, 64 bit `size_t`, 32 bit int (so `uint8_t`/`uint16_t` promote to `int`).

Not modelled: timing and cache side channels, compiler behaviour (removal of wipes), threads, file and OS access behind `kripto_random`, the `perf/` and `test/` programs.

## What is modelled

Read as text, function by function; the comment above each definition gives file and lines.

| C files | Model |
|---|---|
| `include/kripto/loadstore.h`, `rotate.h` | `LoadStore.v`, `Rotate.v` |
| `lib/memory.c`, `lib/pkcs7.c` | `Util.v` |
| `kripto_memory_equals`, `kripto_memory_wipe`, `kripto_pkcs7_rem`, `speck*_{en,de}crypt`, `chacha_core`, `salsa20_core`, `rc4`, MUL of IDEA, `rijndael128_encrypt` once more as programs with steps (C57) | `StepCode.v` |
| `lib/block.c`, `lib/block/{tea,xtea,rc2,rc5,rc6,speck*,simon*,threefish*,lea,crax_s,trax_m,trax_l,noekeon,rectangle,3way,gost,idea,rijndael*,seed,sm4,skipjack,cast5,des,blowfish,camellia,twofish,serpent,shacal2,safer,saferpp,khazad,anubis,aria}.c` | `BlockApi.v`, `Table.v`, one file each, `Ciphers.v` |
| `lib/stream.c`, `lib/stream/{ecb,cbc,cfb,ofb,ctr,chacha,salsa20,rc4,keccak*,skein*}.c` | `StreamApi.v`, `Mem.v`, `Modes.v`, `Chacha.v`, `Salsa20.v`, `Rc4.v`, `KeccakStream.v`, `Skein.v` |
| `lib/hash.c`, `lib/hash/*.c` (all) | `HashApi.v`, `Md.v`, `Sha1.v`, `Sha2.v`, `Md5.v`, `Keccak.v`, `Blake.v`, `Whirlpool.v`, `Tiger.v`, `Skein.v` |
| `lib/mac.c`, `lib/mac/*.c` (all) | `MacApi.v`, `Omac.v`, `Hmac.v`, `KeccakStream.v`, `Skein.v` |
| `lib/ae.c`, `lib/ae/{eax,eax2}.c` | `Eax.v` |
| `lib/pbkdf2.c`, `lib/scrypt.c` | `Kdf.v` |
| `lib/random.c`, the portable branch | `Random.v` (the clock and the bytes collected for a seed are inputs; `create` and `gen` are given a seed, `rn_seed` is what seed() makes) |
| allocation in all of these | `Heap.v` |
| destroy in all of these: sizes asked of malloc, sizes wiped, order | `Destroy.v` (a cell per piece of memory; which leading bytes of a structure hold pointers and numbers only is read off the C struct) |

Every file in `lib/block` is modelled.

## Plan per property

C01, C02 one model, pure round function and inverse per cipher; generic up/down loop lemma (`Lib/Loop.v`). Feistel type ciphers need no table facts; SP ciphers need the S-box to be a permutation (256 case check) and the linear layer to be inverted (checked on a basis, lifted by linearity).
C03 positive theorem for the usable rounds plus `_refuted` witnesses for the others.
C04 independent FIPS-197 spec over GF(2^8); tables proved equal to the computed ones.
C05 `recreate` model with use after free; equality when rounds agree.
C06 equality of schedules for zero extended keys; `_refuted` for SAFER (reads past the key) and Camellia.
C07 tweak as record field.
C08-C12 memory level model, theorem: destination contents = spec of source contents for equal or disjoint ranges; chunking by induction on the list of chunks.
C13 arithmetic on the counter value modulo 256^(bs-1).
C14-C18 models of the stream ciphers, specs from RFC 8439 and the Salsa20 paper.
C19-C30 hash models; spec: padded message cut into blocks, fold of the compression function; compression stated as in the standard.
C31-C36 MAC models over an abstract cipher/hash.
C37-C39 AE models over the OMAC and CTR models.
C40, C41 KDFs.
C42-C44 utilities.
C45 wipe on the byte memory; destroy over a heap of cells that records what is in each piece when it is freed.
C46 resource model with allocation oracle.
C47 state machine of the fallback generator (I/O abstracted).
C48 specs of the ARX ciphers (`Spec/Arx.v`), DES at the level of bits (`Spec/DesPub.v`), and S-box ciphers with the S-boxes computed from their algebraic definition where there is one (`Spec/Pub1.v`), and the bit-sliced ciphers with S-boxes as tables on columns, RC2 and CRAX (`Spec/Pub2.v`), and the ciphers of bytes and linear maps over GF(2^8) Khazad, Anubis and ARIA (`Spec/Pub3.v`), Camellia as in RFC 3713 with its S-box by inversion in a tower field (`Spec/Pub4.v`), Twofish with q0, q1, MDS and RS by their definitions (`Spec/Pub5.v`), SAFER K, SAFER SK and SAFER++ with the boxes as powers and logarithms modulo 257 (`Spec/Pub6.v`), CAST-128 as in RFC 2144, whose S-box tables have no short definition and are copied (`Spec/Pub7.v`; the RFC's vectors and the bent weights of all output bits are checked), Blowfish with the table recomputed from pi outside Coq (`Spec/Pub8.v`), TRAX-L on four Alzette branches (`Spec/Pub9.v`; TRAX-M has no specification of its own). Collisions inside a hash (C26, C52) are stated in `Spec/Collision.v`, damage of ciphertexts (C53) in `Spec/Sync.v`, relations between keys (C54) in `Spec/EquivKeys.v`, `Spec/MacColl.v`, `Spec/Leak.v`, `Spec/ScryptOver.v` (scrypt with the working areas where the code has them). C58 has the families with other round counts and key lengths (`Spec/Rounds.v`, `Spec/GostAny.v`); they use the round functions of the C48 specifications, and how a short key is filled and its words repeated is read off the library, since the standards do not say. C57 has a small C whose runs list reads, writes and branches (`Spec/Steps.v`): the steps of the C text, a compiler may make others.

## Findings

Behaviour of the code that contradicts a property, or its standard. Each line marked (r) is a `_refuted` theorem in `Props/`.

Block ciphers
* (r) `recreate` of most ciphers reads `s->desc` after freeing `s` when the number of rounds changes (xtea, rc5, rc6, speck, simon, lea, rectangle, idea, gost, trax, rijndael, seed, sm4, blowfish, twofish, serpent, shacal2, safer, saferpp, khazad, anubis, aria). With default rounds this happens when the key length selects other rounds (AES, LEA, Simon, Speck, SAFER, SAFER++, Anubis, ARIA).
* (r) round counts that are accepted and do not work: XTEA odd, LEA not divisible by 4, Noekeon above 33, 3-Way above 9, Threefish not whole groups, GOST odd or few, Simon few, SM4 not divisible by 4 or above 32, Blowfish above 34, Serpent not divisible by 8, SHACAL-2 below 16 or not divisible by 8, Khazad above 8, Anubis above 64, Twofish and ARIA odd.
* (r) CAST-128 with a key of 6 .. 10 bytes runs 16 rounds (cast5.c:706), RFC 2144 section 2.5 says 12 up to 80 bits; the RFC's 80-bit vector is not reproduced.
* (r) Twofish with a key of at most 8 bytes uses one group of key bytes; the paper fills such keys to 128 bits.
* (r) SAFER and SAFER++ read outside a key whose length is not one of the two natural ones.
* (r) Camellia fills keys of 9 to 15 bytes with the inverse of their last 8 bytes and lets the rest run into the second key half.
* (r) Speck with a key of at most one word divides by zero.
* (r) `kripto_block_tweak` does not check the tweak length.
* (r) RC5/RC6 mix `3*t` times instead of `3*max(t,c)`: other ciphers than published for long keys.
* (r) the 52nd round constant of Rijndael is missing. Rijndael-256 reads outside its key words for keys of up to 8 bytes.
* `te4[x] << 24` (rijndael), `rc_e[i] << 16` (3-Way) and `a*b` of 16 bit values (IDEA) overflow `int`; modelled as wrapping.

Streams and modes
* (r) CFB decryption of more than a block in one call writes the key stream at the start of the buffer.
* (r) the CTR counter never carries into its first byte.
* (r) the first key stream block of the Skein stream ciphers is the nonce, or public; only the first block of the key is used; shorter keys read uninitialised memory.
* ChaCha and Salsa20 continue into the next nonce after the counter (theorems under C14).

Hashes
* (r) BLAKE: wrong counter for messages of whole blocks and those whose padding needs a block of its own. (r) BLAKE2: extra final block for whole blocks. A digest length 0 never finishes.
* (r) Skein: extra block for whole blocks, wrong flag for digests other than one block, salts of up to half a block are ignored, output read in two pieces aborts.
* (r) SHA-2 with more than 128 (160) rounds reads outside its table; rounds between are rounded up. SHA-1 asserts, MD5 ignores rounds; Whirlpool refuses 10; Tiger treats 1 and 2 as 3.
* (r) Keccak with digests of 100 (50) bytes writes outside the state, with more than 48 (40) rounds reads outside the constants; output past the rate is the capacity part of the state; `keccak800.c` is not Keccak-f[800].

MACs and AE
* (r) OMAC: rows 33 and 207 of the polynomial table are reducible, and for block sizes 123, 137, 152, 154, 157, 221, 237, 243, 246, 247, 251, 253 the polynomial is added at the wrong place (no cipher has them).
* (r) XCBC over AES and LEA with keys above 16 bytes: use after free in create.
* (r) HMAC: shorter tags are not prefixes; over SHA-3 the block size is 200; a tag read twice changes.
* (r) Skein MAC: keys other than one block read uninitialised memory or are cut.
* (r) `kripto_mac_verify` and `kripto_ae_verify` with length 0: array of length 0. `kripto_mac_all` takes the message length as `unsigned int`.
* (r) EAX: only `iv_len` bytes of the nonce MAC are used (not EAX for short nonces; tags longer than the nonce read uninitialised memory); a second tag differs.
* (r) EAX2: nonces longer than the tag and tags of length 0 write out of bounds; a 1 byte key asserts; the key half can exceed the MAC's maximum; lengths wrap.

KDFs and random
* (r) PBKDF2 asks the MAC for tags of the output length when that is shorter (not RFC 8018); the empty password asserts; a failed recreate is not noticed (line 78 looks at `mac`, not `m`). A MAC with maximal tag 0 never ends.
* (r) scrypt: the working areas lie on the saved blocks 1 and 2: wrong keys, and different inputs collapse to zero. `p*(r<<7)` wraps in 32 bits, `r = 0` reads outside.
* (r) random: the request that reseeds is not counted; the object is freed when reseeding fails and then used; every reseed loses a MAC descriptor.
* (r) PKCS7: the empty message.
* (r) `ROR8_6` rotates by 5; the portable variable rotations shift by the full width.
* (r) EAX2 recreated with a tag shorter than the IV: bytes of the encrypted IV lie behind those destroy wipes. `xcbc_create` frees k2 and k3 unwiped when `xcbc_init` fails; `create` in random.c leaves the seed on the stack (read, not modelled).
* (r) eax_recreate and eax2_recreate leak on failure; the GOST descriptor is written without a look at malloc's result.
* (r) steps (C57): RC4 and AES read tables at secret places (the steps of one AES block show the xor of the block and the first round key), a multiplication of IDEA branches on a zero factor, `kripto_pkcs7_rem` branches on the last byte.
