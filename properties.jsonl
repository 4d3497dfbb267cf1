{"id": "C01", "title": "Block decrypt inverts block encrypt (default rounds)", "statement": "For every block cipher the library exports, a block object created with rounds = 0 turns any block pt of kripto_block_size bytes into a block ct of the same size such that kripto_block_decrypt on ct gives pt back; no read or write leaves an array.", "quantifier": "every exported block cipher, every key of a length the descriptor allows (1..maxkey) with any content, every plaintext block", "why_tests_cant": "2^128 blocks times 2^256 keys; test vectors fix three or four points and cannot exclude a key for which a schedule or table entry breaks the inverse.", "anchors": ["include/kripto/block.h: kripto_block_encrypt, kripto_block_decrypt", "lib/block/*.c"]}
{"id": "C02", "title": "Block encrypt is onto (encrypt inverts decrypt)", "statement": "For every block cipher the library exports, kripto_block_encrypt applied to the result of kripto_block_decrypt gives the starting block back, so for a fixed key the cipher is a permutation of blocks: distinct plaintexts have distinct ciphertexts and every block is a ciphertext.", "quantifier": "every exported block cipher, every permitted key, every ciphertext block", "why_tests_cant": "Permutation-ness is a statement about all 2^64..2^1024 blocks at once.", "anchors": ["lib/block/*.c"]}
{"id": "C03", "title": "Caller-chosen round counts", "statement": "kripto_block_create accepts a caller chosen round count. For each cipher the set of round counts for which encrypt and decrypt are memory safe and inverse to each other is determined exactly enough to say which values are usable; outside it the library must reject the value rather than read outside its tables or return wrong plaintext.", "quantifier": "every exported block cipher, every round count (unsigned int), every key, every block", "why_tests_cant": "The tests only use the default round count; the failing round counts need not be near it, and most give a silent wrong answer.", "anchors": ["lib/block/xtea.c", "lib/block/lea.c", "lib/block/threefish*.c", "lib/block/twofish.c", "lib/block/aria.c", "lib/block/gost.c", "lib/block/sm4.c", "lib/block/shacal2.c", "lib/block/serpent.c", "lib/block/3way.c", "lib/block/simon*.c", "lib/block/noekeon.c", "lib/block/khazad.c", "lib/block/rijndael.c"]}
{"id": "C04", "title": "AES is FIPS-197 AES", "statement": "kripto_block_rijndael128 with rounds = 0 and a 16, 24 or 32 byte key computes the FIPS-197 cipher and inverse cipher: SubBytes from inversion in GF(2^8) and the affine map, ShiftRows, MixColumns over GF(2^8), and the FIPS key expansion.", "quantifier": "every 16/24/32 byte key, every 16 byte block", "why_tests_cant": "A single wrong word among the 2300 words of tables shows only on inputs that reach it at that round; tests cover four blocks.", "anchors": ["lib/block/rijndael.c: rijndael128_encrypt, rijndael128_decrypt, rijndael_setup"]}
{"id": "C05", "title": "Re-keying a block object equals creating a fresh one", "statement": "kripto_block_recreate(s, r, key, key_len) returns an object that behaves exactly like kripto_block_create(desc, r, key, key_len), whatever key, rounds, tweak or data the old object had seen.", "quantifier": "every exported block cipher, every prior object state, every new key and round count, every following block", "why_tests_cant": "The failing case depends on the pair (old key length, new key length) and on what the allocator does with freed memory; a unit test that passes shows nothing about undefined behaviour.", "anchors": ["include/kripto/block.h: kripto_block_recreate", "lib/block/*.c: *_recreate"]}
{"id": "C06", "title": "Short block cipher keys", "statement": "A key shorter than the cipher's natural key size acts as that key extended by zero bytes (for the ciphers that pad), and no byte outside the caller's key buffer is ever read.", "quantifier": "every exported block cipher, every key length 1..maxkey, every key content", "why_tests_cant": "Reading past the key gives a plausible schedule; tests only use natural key sizes.", "anchors": ["lib/block/*.c: *_setup", "include/kripto/block.h: kripto_block_create"]}
{"id": "C07", "title": "Tweak handling", "statement": "After kripto_block_tweak(s, tweak, len) a tweakable cipher depends only on the key and the zero extended tweak, decrypt under the same tweak inverts encrypt, and re-keying resets the tweak to zero.", "quantifier": "Threefish-256/512/1024, TRAX-L, TRAX-M; every key, every tweak of every permitted length, every block", "why_tests_cant": "Requires all tweak/key/block combinations and all orders of calls.", "anchors": ["lib/block/threefish256.c", "lib/block/threefish512.c", "lib/block/threefish1024.c", "lib/block/trax_l.c", "lib/block/trax_m.c"]}
{"id": "C08", "title": "ECB mode", "statement": "kripto_stream_encrypt with ECB equals applying the block cipher to each consecutive block; decrypt gives the plaintext back; splitting a message over several calls at block boundaries changes nothing; output may overwrite input in place; nothing outside the len output bytes is written.", "quantifier": "every block cipher whose decrypt inverts encrypt, every message whose length is a multiple of the block size, every way of splitting it into calls", "why_tests_cant": "All message lengths and all call splittings cannot be enumerated.", "anchors": ["lib/stream/ecb.c"]}
{"id": "C09", "title": "CBC mode", "statement": "CBC encryption satisfies C_i = E(P_i xor C_{i-1}) with C_0 the zero padded IV; decrypt inverts encrypt; splitting over calls at block boundaries changes nothing; works in place and writes only the output bytes.", "quantifier": "every block cipher whose decrypt inverts encrypt, every IV length up to the block size, every message, every splitting into calls", "why_tests_cant": "The chaining value is hidden state; only an argument over all call sequences covers it.", "anchors": ["lib/stream/cbc.c"]}
{"id": "C10", "title": "CFB mode", "statement": "CFB decrypt inverts CFB encrypt for messages of any byte length, split over calls anywhere, in place or not, writing only the output bytes.", "quantifier": "every block cipher, every IV, every message length, every splitting into calls", "why_tests_cant": "The tests contain no CFB test; a single-block test with separate buffers would pass.", "anchors": ["lib/stream/cfb.c: cfb_encrypt, cfb_decrypt, cfb_prng"]}
{"id": "C11", "title": "OFB mode", "statement": "OFB encryption is the xor of the message with E(IV), E(E(IV)), ...; decrypt inverts encrypt; byte level splitting changes nothing; prng output is the keystream.", "quantifier": "every block cipher, every IV, every message length, every splitting into calls", "why_tests_cant": "All lengths, splittings and interleavings of prng/encrypt/decrypt calls.", "anchors": ["lib/stream/ofb.c"]}
{"id": "C12", "title": "CTR mode", "statement": "CTR encryption is the xor of the message with E(ctr_0), E(ctr_1), ... where ctr_0 is the zero padded IV and ctr_{i+1} is ctr_i plus one; decrypt inverts encrypt; byte level splitting changes nothing; prng output is the keystream; in place operation works.", "quantifier": "every block cipher, every IV, every message length, every splitting into calls", "why_tests_cant": "Carry propagation differs only at counter values no test reaches.", "anchors": ["lib/stream/ctr.c"]}
{"id": "C13", "title": "CTR counter blocks do not repeat", "statement": "Within one keystream of fewer than 256^(blocksize-1) blocks no counter block is used twice, so keystream blocks of one object never coincide for a permutation E.", "quantifier": "every IV, every pair of distinct block positions below the bound", "why_tests_cant": "2^120 positions.", "anchors": ["lib/stream/ctr.c: ctr_crypt, ctr_prng"]}
{"id": "C14", "title": "ChaCha is RFC 8439 ChaCha20", "statement": "kripto_stream_chacha with a 32 byte key and an 8 or 12 byte IV outputs the ChaCha20 keystream (quarter rounds, constants, little endian serialisation, block counter) xored into the data; decryption inverts encryption; byte level splitting changes nothing.", "quantifier": "every 32 byte key, every nonce, every message whose block count does not overflow the counter, every splitting into calls", "why_tests_cant": "Keystream position, buffering and splitting interact; tests take one call from position zero.", "anchors": ["lib/stream/chacha.c"]}
{"id": "C15", "title": "Salsa20 follows its specification", "statement": "kripto_stream_salsa20 with 16 or 32 byte keys and an 8 byte IV outputs the Salsa20 keystream; decryption inverts encryption; byte level splitting changes nothing.", "quantifier": "every key, IV, message and splitting into calls", "why_tests_cant": "As for ChaCha.", "anchors": ["lib/stream/salsa20.c"]}
{"id": "C16", "title": "RC4 state stays a permutation and output is position determined", "statement": "For every key the RC4 state is a permutation of 0..255 at all times, key setup and output indexes stay in range, splitting over calls changes nothing, decrypt inverts encrypt, and rounds = n drops exactly the first n keystream bytes.", "quantifier": "every key of 1..256 bytes, every drop count, every message and splitting into calls", "why_tests_cant": "An invariant over unbounded executions.", "anchors": ["lib/stream/rc4.c"]}
{"id": "C17", "title": "Keccak stream cipher", "statement": "The Keccak based stream cipher outputs the sponge output for key followed by IV, independent of how the output is split over calls; decrypt inverts encrypt.", "quantifier": "every key and IV, every message length, every splitting into calls", "why_tests_cant": "The 64 byte buffer boundary and the sponge rate are different; only an argument over all splittings covers the interplay.", "anchors": ["lib/stream/keccak.c"]}
{"id": "C18", "title": "Skein stream cipher depends on its key", "statement": "Two different keys (of any permitted length) give different keystreams for the Skein based stream ciphers, and the keystream does not contain public constants.", "quantifier": "Skein-256/512/1024 streams, every key and IV", "why_tests_cant": "A round trip test cannot see that the key is ignored.", "anchors": ["lib/stream/skein256.c", "lib/stream/skein512.c", "lib/stream/skein1024.c"]}
{"id": "C19", "title": "SHA-256/SHA-224 equal FIPS 180-4", "statement": "kripto_hash_sha2_256 with rounds = 0 produces the FIPS 180-4 SHA-256 digest for out_len 29..32 and the SHA-224 digest for out_len 1..28 (truncated to out_len), for messages of every byte length below 2^61.", "quantifier": "every message, every out_len, every splitting of input and output into calls", "why_tests_cant": "Padding depends on length mod 64; all lengths and splittings must agree.", "anchors": ["lib/hash/sha2_256.c"]}
{"id": "C20", "title": "SHA-512/SHA-384 equal FIPS 180-4", "statement": "kripto_hash_sha2_512 with rounds = 0 produces the FIPS 180-4 SHA-512 digest for out_len 49..64 and SHA-384 for 1..48.", "quantifier": "every message, every out_len, every splitting of input and output into calls", "why_tests_cant": "As for SHA-256.", "anchors": ["lib/hash/sha2_512.c"]}
{"id": "C21", "title": "SHA-1 equals FIPS 180-4", "statement": "kripto_hash_sha1 produces the FIPS 180-4 SHA-1 digest.", "quantifier": "every message, every splitting of input and output into calls", "why_tests_cant": "As for SHA-256.", "anchors": ["lib/hash/sha1.c"]}
{"id": "C22", "title": "MD5 equals RFC 1321", "statement": "kripto_hash_md5 produces the RFC 1321 digest.", "quantifier": "every message, every splitting of input and output into calls", "why_tests_cant": "As for SHA-256.", "anchors": ["lib/hash/md5.c"]}
{"id": "C23", "title": "Hash input splitting", "statement": "For every hash, feeding a message in any number of kripto_hash_input calls of any sizes (also empty ones) gives the same digest as one call.", "quantifier": "every exported hash, every message, every list of chunks", "why_tests_cant": "The number of splittings is exponential in the length.", "anchors": ["include/kripto/hash.h: kripto_hash_input", "lib/hash/*.c: *_input"]}
{"id": "C24", "title": "Hash output splitting", "statement": "For every hash, reading the digest by several kripto_hash_output calls gives the same bytes as reading it at once.", "quantifier": "every exported hash, every split of the output", "why_tests_cant": "As above.", "anchors": ["lib/hash/*.c: *_output"]}
{"id": "C25", "title": "Hash recreate equals create", "statement": "kripto_hash_recreate gives an object with the behaviour of a fresh kripto_hash_create, whatever was hashed before, finished or not; kripto_hash_all equals create, input, output, destroy.", "quantifier": "every exported hash, every prior state, every message", "why_tests_cant": "Left over state is only visible after particular histories.", "anchors": ["lib/hash.c: kripto_hash_all, kripto_hash_recreate", "lib/hash/*.c: *_recreate"]}
{"id": "C26", "title": "Padding is injective", "statement": "For the Merkle-Damgard hashes two different messages are never fed to the compression function as the same block sequence, so a collision of the hash is a collision of the compression function.", "quantifier": "every pair of messages below the length bound; SHA-1, SHA-2, MD5, Tiger, Whirlpool", "why_tests_cant": "All pairs of messages.", "anchors": ["lib/hash/sha1.c", "lib/hash/sha2_256.c", "lib/hash/sha2_512.c", "lib/hash/md5.c", "lib/hash/tiger.c", "lib/hash/whirlpool.c"]}
{"id": "C27", "title": "SHA-3 and Keccak equal the sponge specification", "statement": "kripto_hash_sha3 and kripto_hash_keccak1600 with the default rounds compute the sponge over Keccak-f[1600] with rate 200 - 2*out_len bytes, multi-rate padding and the 0x06 / 0x01 domain bytes (FIPS 202 for out_len 28, 32, 48, 64).", "quantifier": "every message, every out_len below 100, every splitting", "why_tests_cant": "The permutation is unrolled over local variables; the padding depends on length mod rate.", "anchors": ["lib/hash/keccak1600.c"]}
{"id": "C28", "title": "BLAKE-256/512 equal the BLAKE specification", "statement": "kripto_hash_blake256/512 compute the BLAKE digest for every message length, in particular when the last block carries no message bit.", "quantifier": "every message length", "why_tests_cant": "The failing lengths are the multiples of the block size and those within 8 bytes below it.", "anchors": ["lib/hash/blake256.c", "lib/hash/blake512.c"]}
{"id": "C29", "title": "BLAKE2s/BLAKE2b equal RFC 7693", "statement": "kripto_hash_blake2s/blake2b compute the RFC 7693 digest for every message length.", "quantifier": "every message length", "why_tests_cant": "The failing lengths are the non zero multiples of the block size; no BLAKE2 test exists.", "anchors": ["lib/hash/blake2s.c", "lib/hash/blake2b.c"]}
{"id": "C30", "title": "Whirlpool and Tiger follow their specification", "statement": "kripto_hash_whirlpool and kripto_hash_tiger are iterated hashes over the specified padding (0x80 / 0x01, zeroes, length field) with outputs of 64 and 24 bytes, for every message length.", "quantifier": "every message, every splitting", "why_tests_cant": "As for SHA-256.", "anchors": ["lib/hash/whirlpool.c", "lib/hash/tiger.c"]}
{"id": "C31", "title": "OMAC equals CMAC", "statement": "kripto_mac_omac over a block cipher computes NIST SP 800-38B CMAC for block sizes 8 and 16 (and the same construction with the lexically first irreducible polynomial for the other block sizes): doubling in GF(2^n), last block treatment, any message length and splitting.", "quantifier": "every block cipher, every key, every message length, every splitting into calls", "why_tests_cant": "The last block is decided lazily; all lengths and splittings matter.", "anchors": ["lib/mac/omac.c"]}
{"id": "C32", "title": "XCBC-MAC follows RFC 3566", "statement": "kripto_mac_xcbc computes XCBC-MAC with subkeys E_K(01..), E_K(02..), E_K(03..), and is memory safe for every key length the descriptor allows.", "quantifier": "every block cipher, every key length, every message length and splitting", "why_tests_cant": "Re-keying the cipher object inside create takes a path that depends on key length.", "anchors": ["lib/mac/xcbc.c"]}
{"id": "C33", "title": "HMAC equals RFC 2104", "statement": "kripto_mac_hmac computes H(K^opad || H(K^ipad || m)) for full length tags for every key up to the hash block size and every message split; shorter tags are prefixes of the full tag.", "quantifier": "every hash, every key, every message, every tag length, every splitting", "why_tests_cant": "Tag truncation and long keys take separate paths.", "anchors": ["lib/mac/hmac.c"]}
{"id": "C34", "title": "MAC verification accepts exactly the right tag", "statement": "kripto_mac_verify and kripto_ae_verify return non zero if and only if every byte of the presented tag equals the tag the object would output; kripto_memory_equals returns non zero iff all len bytes agree.", "quantifier": "every tag, every length, every MAC", "why_tests_cant": "A comparison bug accepts some forged tag out of 2^128.", "anchors": ["lib/mac.c: kripto_mac_verify", "lib/ae.c: kripto_ae_verify", "lib/memory.c: kripto_memory_equals"]}
{"id": "C35", "title": "MAC input splitting", "statement": "For every MAC, feeding the message in any number of kripto_mac_input calls gives the same tag as one call; kripto_mac_all equals create, input, tag, destroy.", "quantifier": "every MAC, every message, every list of chunks", "why_tests_cant": "Exponentially many splittings.", "anchors": ["lib/mac.c", "lib/mac/*.c"]}
{"id": "C36", "title": "Skein MAC depends on its key", "statement": "The Skein MACs use every byte of the key.", "quantifier": "every key length", "why_tests_cant": "A tag test with one key does not notice that the key is zeroed.", "anchors": ["lib/mac/skein256.c", "lib/mac/skein512.c", "lib/mac/skein1024.c"]}
{"id": "C37", "title": "EAX round trip and tag agreement", "statement": "With the same key, IV and header, EAX decryption of the EAX ciphertext gives the plaintext and both sides compute the same tag, however header and data are split over calls.", "quantifier": "every block cipher, key, IV, header, message, every pair of splittings on the two sides", "why_tests_cant": "All splittings of header and message on both sides.", "anchors": ["lib/ae/eax.c"]}
{"id": "C38", "title": "EAX equals the EAX specification", "statement": "The EAX ciphertext and tag are those of Bellare, Rogaway and Wagner: CTR started from OMAC_0(nonce), tag OMAC_0(N) xor OMAC_1(H) xor OMAC_2(C).", "quantifier": "every block cipher, key, IV length, header, message", "why_tests_cant": "Tests use 16 byte nonces only; other nonce lengths leave part of the counter uninitialised.", "anchors": ["lib/ae/eax.c: eax_recreate, eax_encrypt, eax_header, eax_tag"]}
{"id": "C39", "title": "EAX2 round trip and memory safety", "statement": "EAX2 (stream cipher and MAC composition) decrypts its own ciphertext, both sides get the same tag, key material is split without overlap, and buffers hold whatever iv_len and tag_len the descriptor allows.", "quantifier": "every stream/MAC pair, key, IV length, tag length, header, message, splitting", "why_tests_cant": "Combinations of iv_len and tag_len.", "anchors": ["lib/ae/eax2.c"]}
{"id": "C40", "title": "PBKDF2 equals RFC 8018", "statement": "kripto_pbkdf2 returns the first out_len bytes of T_1 || T_2 || ... with T_i = U_1 xor ... xor U_c; a shorter request is a prefix of a longer one.", "quantifier": "every password, salt, iteration count, out_len", "why_tests_cant": "The failing out_len are those below the MAC size with more than one iteration.", "anchors": ["lib/pbkdf2.c"]}
{"id": "C41", "title": "scrypt equals RFC 7914", "statement": "kripto_scrypt computes the RFC 7914 function: the N saved blocks V[0..N-1] are kept intact until used.", "quantifier": "every password, salt, N, r, p", "why_tests_cant": "A buffer layout property.", "anchors": ["lib/scrypt.c"]}
{"id": "C42", "title": "PKCS#7 padding round trip", "statement": "kripto_pkcs7_rem(buf, kripto_pkcs7_add(buf, len, pad, maxlen)) = len and the data bytes are unchanged, for every power of two pad up to 128; add returns 0 iff the buffer is too small.", "quantifier": "every buffer, len, pad, maxlen", "why_tests_cant": "All lengths including the empty message.", "anchors": ["lib/pkcs7.c"]}
{"id": "C43", "title": "Byte order helpers", "statement": "The LOAD/STORE 16/32/64 L/B macros and their ARRAY forms compute the little/big endian value of the bytes; store inverts load; the portable and the array form agree.", "quantifier": "every byte sequence, every word", "why_tests_cant": "2^64 values.", "anchors": ["include/kripto/loadstore.h"]}
{"id": "C44", "title": "Rotations", "statement": "The rotate helpers rotate by r mod w for every word and count; left and right rotation are inverse; the portable C form has no undefined shift for every count.", "quantifier": "every word and rotation count for widths 8, 16, 32, 64", "why_tests_cant": "2^64 values.", "anchors": ["include/kripto/rotate.h"]}
{"id": "C45", "title": "Wiping", "statement": "kripto_memory_wipe sets exactly the len bytes to zero and touches nothing else; destroying an object wipes all its key dependent bytes before they are freed.", "quantifier": "every object and length", "why_tests_cant": "Freed memory cannot be inspected by a test without undefined behaviour.", "anchors": ["lib/memory.c: kripto_memory_wipe", "lib/block/*.c: *_destroy", "lib/stream/*.c: *_destroy", "lib/mac/*.c: *_destroy"]}
{"id": "C46", "title": "Allocation failure is safe", "statement": "If any allocation fails, create returns NULL without leaking an object allocated so far, without double free and without touching freed memory; recreate failing leaves nothing reachable that was freed.", "quantifier": "every composite constructor (stream modes, OMAC, XCBC, HMAC, EAX, EAX2, PBKDF2), every pattern of allocation failures", "why_tests_cant": "Each pattern of failing allocations is a separate execution.", "anchors": ["lib/stream/*.c: *_create, *_recreate", "lib/mac/*.c", "lib/ae/*.c", "lib/pbkdf2.c"]}
{"id": "C47", "title": "Random reseeding", "statement": "The portable random source reseeds before more than 5 MiB have been drawn from one seed and whenever more than 300 seconds have passed, for every call pattern.", "quantifier": "every sequence of request sizes and clock values", "why_tests_cant": "Needs all call sequences.", "anchors": ["lib/random.c"]}
{"id": "C48", "title": "Ciphers equal their published round function", "statement": "Every block cipher of the library with its default rounds computes the published algorithm, stated independently of the unrolled, bit-sliced or table driven C code.", "quantifier": "each cipher, every key of its natural sizes (zero padded where the library pads), every block", "why_tests_cant": "Test vectors sample a few points.", "anchors": ["lib/block/3way.c", "lib/block/anubis.c", "lib/block/aria.c", "lib/block/blowfish.c", "lib/block/camellia.c", "lib/block/cast5.c", "lib/block/crax_s.c", "lib/block/des.c", "lib/block/gost.c", "lib/block/idea.c", "lib/block/khazad.c", "lib/block/lea.c", "lib/block/noekeon.c", "lib/block/rc2.c", "lib/block/rc5.c", "lib/block/rc6.c", "lib/block/rectangle.c", "lib/block/rijndael.c", "lib/block/safer.c", "lib/block/saferpp.c", "lib/block/seed.c", "lib/block/serpent.c", "lib/block/shacal2.c", "lib/block/simon128.c", "lib/block/simon32.c", "lib/block/simon64.c", "lib/block/skipjack.c", "lib/block/sm4.c", "lib/block/speck128.c", "lib/block/speck32.c", "lib/block/speck64.c", "lib/block/tea.c", "lib/block/threefish1024.c", "lib/block/threefish256.c", "lib/block/threefish512.c", "lib/block/trax_l.c", "lib/block/trax_m.c", "lib/block/twofish.c", "lib/block/xtea.c"]}
{"id": "C49", "title": "Skein hashes follow Skein 1.3", "statement": "kripto_hash_skein256, skein512 and skein1024 compute Skein 1.3 for every message and every digest length, and the salt enters the digest.", "quantifier": "every message, every splitting of the input, every digest length, every salt", "why_tests_cant": "There are no Skein vectors in the repository, and vectors of one length do not show what happens at block boundaries.", "anchors": ["lib/hash/skein256.c", "lib/hash/skein512.c", "lib/hash/skein1024.c"]}
{"id": "C50", "title": "Skein MACs follow Skein-MAC", "statement": "kripto_mac_skein256, skein512 and skein1024 compute Skein-MAC of Skein 1.3 for every key, message and tag length.", "quantifier": "every key, every message, every splitting of the input, every tag length", "why_tests_cant": "There are no Skein-MAC vectors in the repository; the key handling depends on the key length and on memory that was never written.", "anchors": ["lib/mac/skein256.c", "lib/mac/skein512.c", "lib/mac/skein1024.c"]}
{"id": "C51", "title": "One damaged block never goes unnoticed", "statement": "For OMAC, XCBC and EAX with a tag of full block length: if two messages (for EAX: two ciphertexts or two headers) of the same length differ only inside one block, their tags differ and verification with the tag of the other one fails. This is a certainty, not a matter of probability, because every step of the CBC chain is a permutation.", "quantifier": "every cipher object that is a permutation, every key and round count, every pair of messages of any length that differ inside one block (the last may be short), every splitting of both into calls", "why_tests_cant": "A MAC that skips a block, folds the chain or loses bits in the last block passes its fixed vectors; that no pair of messages collides is a statement about all pairs.", "anchors": ["lib/mac/omac.c", "lib/mac/xcbc.c", "lib/ae/eax.c", "lib/mac.c"]}
{"id": "C52", "title": "A collision of BLAKE, BLAKE2, Keccak or SHA-3 is a collision inside", "statement": "If two different messages have the same full digest of BLAKE-256, BLAKE-512, BLAKE2s or BLAKE2b as the library computes them, then the compression function (chain value, block, counter and flag) is given two different inputs with the same result in the course of the two computations. For Keccak and SHA-3 and digests of any length: the blocks tell the message and the padding domain, and the two computations meet in a collision of the absorbing step, in a return to the first state, or in two different last states with the same output. In particular the library's deviations from the standards (counter of blocks without message bits, an additional last block) cost no collision resistance.", "quantifier": "every pair of messages up to the length limit, every salt, every number of rounds that has constants", "why_tests_cant": "All pairs of messages; an ambiguous padding or counter passes every single vector.", "anchors": ["lib/hash/blake256.c", "lib/hash/blake512.c", "lib/hash/blake2s.c", "lib/hash/blake2b.c", "lib/hash/keccak1600.c", "lib/hash/keccak800.c"]}
{"id": "C53", "title": "What changed ciphertext does", "statement": "Replacing one ciphertext block damages, under ECB, only that block of the plaintext; under CBC that block and, in exactly the changed bits, the next; under CFB the changed bits of that block and the next block; under OFB, CTR, ChaCha, Salsa20 and RC4 exactly the changed bits. CBC and CFB decryption recover after any loss as soon as two consecutive blocks have arrived. Two CBC ciphertexts made with the same key and IV agree in their first n blocks exactly if the messages do.", "quantifier": "every cipher object that is a permutation, every key and IV, every ciphertext and replacement, every splitting into calls", "why_tests_cant": "The effect is claimed for every replacement of every block of every message.", "anchors": ["lib/stream/ecb.c: ecb_decrypt", "lib/stream/cbc.c: cbc_decrypt, cbc_encrypt", "lib/stream/cfb.c: cfb_decrypt", "lib/stream/ofb.c: ofb_crypt", "lib/stream/ctr.c: ctr_crypt", "lib/stream/chacha.c", "lib/stream/salsa20.c", "lib/stream/rc4.c"]}
{"id": "C54", "title": "Equivalent and weak keys", "statement": "The published symmetries of the key spaces hold of the objects: complementing DES or triple DES key and block complements the result; the lowest bit of every DES key byte is ignored; triple DES keys with equal neighbouring parts are single DES keys; the four weak DES keys are their own inverses and the six semi-weak pairs undo each other; a TEA key has three equivalents; GOST commutes with flipping the top bits of key words and halves and is its own inverse for keys that read the same backwards; IDEA with the zero key is its own inverse; an RC4 key and its repetitions give one object; HMAC takes a key, the key with zeros behind it and, for a long key, its digest as the same key.", "quantifier": "every key of the class and every block or message, every number of rounds for TEA, every set of S-boxes for GOST, every number of discarded bytes for RC4", "why_tests_cant": "Two keys are the same cipher only if all 2^64 blocks agree; tests compare a few.", "anchors": ["lib/block/des.c: des_key, des_setup, des_crypt", "lib/block/tea.c: tea_create, tea_encrypt, tea_decrypt", "lib/block/gost.c: gost_setup, gost_encrypt", "lib/block/idea.c: idea_setup, idea_crypt", "lib/stream/rc4.c: rc4_setup", "lib/mac/hmac.c: hmac_init"]}
{"id": "C55", "title": "Two messages with one tag", "statement": "Two different messages have the same HMAC tag under one key exactly when the hash collides on the two inner messages or on the two outer ones; for tags of full length the compression function (for SHA-3 the sponge) is then given two different inputs with the same result on the way. With OMAC and XCBC the full tags of two messages of whole blocks agree exactly when they agree with any same bytes put after both.", "quantifier": "every key, every pair of messages of accepted lengths, every hash with proved digests and every tag length (HMAC), every cipher object that works with any rounds and every splitting of the messages (OMAC, XCBC)", "why_tests_cant": "No pair of messages with equal full tags is known for most of these, so no test can reach the premise.", "anchors": ["lib/mac/hmac.c: hmac_init, hmac_input, hmac_tag", "lib/mac/omac.c: omac_input, omac_tag", "lib/mac/xcbc.c: xcbc_input, xcbc_tag"]}
{"id": "C56", "title": "What ciphertexts of one key show", "statement": "With one key, two ECB blocks are equal exactly when the plaintext blocks are; two CBC blocks are equal exactly when the xor of the plaintext blocks is the xor of the blocks chained into them, and CFB ciphertexts show the xor of the plaintexts exactly after equal chained blocks. An OFB key stream repeats a block exactly when the start value itself has come out, two CTR key streams meet exactly where first byte and counter agree, and CBC and CFB of zeros are the OFB key stream.", "quantifier": "every cipher object that works, every key and round count, every pair of start values and messages and every splitting into calls, all block positions", "why_tests_cant": "That nothing else makes blocks equal, and that a key stream never repeats before the start value returns, are statements about all pairs of positions of streams too long to run through.", "anchors": ["lib/stream/ecb.c: ecb_encrypt", "lib/stream/cbc.c: cbc_encrypt", "lib/stream/cfb.c: cfb_encrypt", "lib/stream/ofb.c: ofb_crypt, ofb_prng", "lib/stream/ctr.c: ctr_crypt, ctr_prng"]}
{"id": "C57", "title": "Steps that do not depend on secrets", "statement": "The places read and written and the directions of branches of kripto_memory_equals, kripto_memory_wipe, a block of Speck, ChaCha, Salsa20, RC4, IDEA multiplication and AES, and kripto_pkcs7_rem depend only on the lengths and round counts, never on keys, messages or the bytes compared.", "quantifier": "every length below 2^64, every round count, every key and block and every pair of them", "why_tests_cant": "Equality of the steps for all pairs of secrets is a relation between runs; a test measures a few runs, and time on one machine shows neither all places nor their absence.", "anchors": ["lib/memory.c: kripto_memory_equals, kripto_memory_wipe", "lib/block/speck32.c: speck32_encrypt, speck32_decrypt", "lib/block/speck64.c: speck64_encrypt, speck64_decrypt", "lib/block/speck128.c: speck128_encrypt, speck128_decrypt", "lib/stream/chacha.c: chacha_core", "lib/stream/salsa20.c: salsa20_core", "lib/stream/rc4.c: rc4", "lib/block/idea.c: MUL", "lib/block/rijndael.c: rijndael128_encrypt", "lib/pkcs7.c: kripto_pkcs7_rem"]}
{"id": "C58", "title": "A chosen number of rounds", "statement": "Created with a round count of at least 1 and a key of any accepted length, an object of TEA, XTEA, RC5, RC6, GOST, IDEA, LEA, Speck, Simon, SAFER K or SK, SAFER++, Noekeon, CRAX, Khazad, Anubis, SEED, SHACAL-2, SM4, RECTANGLE, Serpent, Twofish, ARIA or Threefish (with any tweak) encrypts as the published cipher with that many rounds, its key schedule run for as many rounds and for a key filled with zero bytes to whole words, and decrypts what it encrypted; objects of DES and RC2 are the published cipher whatever round count is asked for. Excluded are the round counts and keys with which the library cannot work: odd counts for XTEA, GOST, Twofish and ARIA, counts not divisible by 4 for LEA and SM4, fewer rounds than the key words need for GOST and Simon, keys longer than the table for RC5 and RC6, keys of one word for Speck, keys other than the published sizes for SAFER, keys that the library does not fill to a published size for Twofish (8 bytes and less) and ARIA (17 to 20 and 25 to 28 bytes), more rounds than the constants cover for Noekeon (33), Khazad (8), Anubis (64), SM4 (32) and RECTANGLE (25), more than the published constants and subkeys cover for SHACAL-2 (64), Twofish (124) and ARIA (16), counts not divisible by 8 for SHACAL-2, Serpent and Threefish, fewer than 16 for SHACAL-2, and schedules of 2^32 bytes or more.", "quantifier": "every round count and key length within the stated bounds, every key, every block", "why_tests_cant": "Published vectors exist only for the standard round counts and key lengths; the other members of a family have no reference output and there are billions of round counts.", "anchors": ["lib/block/tea.c: tea_create, tea_recreate, tea_encrypt", "lib/block/xtea.c: xtea_setup, xtea_encrypt", "lib/block/rc5.c: rc5_setup, rc5_encrypt", "lib/block/rc6.c: rc6_setup, rc6_encrypt", "lib/block/gost.c: gost_setup, gost_encrypt", "lib/block/idea.c: idea_setup, idea_crypt", "lib/block/lea.c: lea_setup, lea_encrypt", "lib/block/speck64.c: speck64_setup, speck64_encrypt", "lib/block/simon64.c: simon64_setup, simon64_encrypt", "lib/block/safer.c: safer_setup, safer_encrypt", "lib/block/saferpp.c: saferpp_setup, saferpp_encrypt", "lib/block/noekeon.c: noekeon_setup, noekeon_encrypt", "lib/block/crax_s.c: crax_s_setup, crax_s_encrypt", "lib/block/khazad.c: khazad_setup, khazad_crypt", "lib/block/anubis.c: anubis_setup, anubis_crypt", "lib/block/seed.c: seed_setup, seed_encrypt", "lib/block/shacal2.c: shacal2_setup, shacal2_encrypt", "lib/block/threefish256.c: threefish256_create, threefish256_encrypt", "lib/block/sm4.c: sm4_setup, sm4_encrypt", "lib/block/rectangle.c: rectangle_encrypt", "lib/block/serpent.c: serpent_setup, serpent_encrypt", "lib/block/twofish.c: twofish_setup, twofish_encrypt", "lib/block/aria.c: aria_setup, aria_crypt", "lib/block/des.c: des_create, des_encrypt", "lib/block/rc2.c: rc2_create, rc2_encrypt"]}
