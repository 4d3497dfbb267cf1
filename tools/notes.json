{
 "C01": [
  "partial",
  "Every exported block cipher is covered. Proved for the 35 ciphers of sound_ciphers with every accepted key. Speck is proved for keys longer than one word, Rijndael-256 for keys of 9 or more bytes, SAFER and SAFER++ for their natural key lengths; for the other keys of these the statement is refuted (division by zero, reads outside the key or the round constants)."
 ],
 "C02": [
  "partial",
  "Same ciphers as C01."
 ],
 "C03": [
  "partial",
  "For every cipher the round counts that work, and refutations for accepted round counts that do not (XTEA odd, LEA not divisible by 4, Noekeon above 33, 3-Way 10, Threefish odd groups, GOST odd or few, Simon few, SM4 not divisible by 4 or above 32, Blowfish above 34, Serpent and SHACAL-2 not divisible by 8, Khazad above 8, Anubis above 64, Twofish and ARIA odd)."
 ],
 "C05": [
  "partial",
  "Refuted in general: most ciphers use the object after freeing it when the number of rounds changes. Proved where rounds and key length stay the same, for any key with the same round argument for the ciphers of C05_rekey_rounds, and without condition for the ciphers not affected."
 ],
 "C06": [
  "partial",
  "Proved for the ciphers that pad with zeros, within the classes of lengths that select one schedule. Blowfish repeats the key and Serpent appends a bit (proved); RC2, RC5 and RC6 do not pad by design; Camellia keys of 9 to 15 bytes are refuted. Reads outside the key are an error in the model, so create succeeding (C01) shows there are none; SAFER and SAFER++ are refuted."
 ],
 "C07": [
  "partial",
  "Proved for Threefish and TRAX; a tweak longer than maxtweak is written past the tweak because kripto_block_tweak does not check the length (refuted)."
 ],
 "C08": [
  "proved",
  "For every block cipher object that is a permutation, any splitting into calls and in place operation."
 ],
 "C09": [
  "proved",
  "For every block cipher object that is a permutation, any splitting into whole block calls and in place operation."
 ],
 "C10": [
  "partial",
  "Encryption proved. Decryption is refuted (writes each key stream block at the start of the output buffer); it is proved for one call of at most a block and for block by block calls in separate buffers. C10_cfb_decrypt_exact says what one longer call leaves in a separate buffer: the key stream of the last block, then the old contents xored with the ciphertext."
 ],
 "C11": [
  "proved",
  "Encryption, decryption and prng, any splitting, in place operation."
 ],
 "C12": [
  "partial",
  "The counter never carries into its first byte (refuted for IV 00 ff ff ff of a 4 byte block cipher); proved exactly for the library's counter and equal to CTR while no carry reaches the first byte."
 ],
 "C13": [
  "proved",
  "For up to 256^(blocksize-1) blocks the key stream blocks are pairwise different."
 ],
 "C14": [
  "proved",
  "Every key of 1..32 bytes, nonce of 0..24 bytes, round count and splitting, not only the 32 byte keys of the claim. Two observations about what lies behind the counter limit are stated as theorems: after 2^38 bytes of a 12 byte nonce the stream continues as the stream of the next nonce, and with a nonce starting FF FF FF FF the program stops one block earlier (taking counter value 2^32-1 already overflows)."
 ],
 "C15": [
  "proved",
  "Every key of 1..32 bytes, nonce of 0..24 bytes, round count and splitting, up to the 2^70 - 64 bytes where the counter ends."
 ],
 "C16": [
  "proved",
  "All key lengths, drop counts, sessions. Table and index accesses are checked in the model, so success includes staying in range."
 ],
 "C34": [
  "partial",
  "kripto_memory_equals, kripto_mac_verify (over every MAC) and kripto_ae_verify (over every mode) proved; refuted for the empty tag (array of length zero)."
 ],
 "C42": [
  "partial",
  "Proved for non empty messages; the empty message does not come back (refuted)."
 ],
 "C43": [
  "proved",
  "Portable forms of the loads and stores (the ones build.sh selects); zero padded array loads, range array stores."
 ],
 "C44": [
  "partial",
  "Assembly forms and all constant rotations proved except ROR8_6, which rotates by the wrong count (refuted); the portable 32/64 bit forms are undefined for counts that are multiples of the width, ROR16 overflows int (refuted)."
 ],
 "C45": [
  "partial",
  "kripto_memory_wipe proved. Destroy proved for every block cipher (all memory that create allocated is wiped, then freed), the hashes, the stream ciphers and modes, the MACs, EAX and the random generator, as trees of objects: each piece freed once, scrubbed when freed, nothing else touched. False for EAX2 after recreate with an IV longer than the tag (C45_eax2_refuted); proved otherwise. Failure paths that free a half made object and temporaries on the stack are not claimed."
 ],
 "C19": [
  "proved",
  "For a new object, a re-created object and hash_all, every splitting of message and digest, messages below 2^61 bytes. Also other round numbers up to 128; beyond that the code reads outside its table (refuted)."
 ],
 "C20": [
  "proved",
  "As C19, messages below 2^125 bytes; more than 160 rounds read outside the table (refuted)."
 ],
 "C21": [
  "proved",
  "Rounds = 0, which is all the code accepts."
 ],
 "C22": [
  "proved",
  "The T table of the specification is computed from the sine."
 ],
 "C26": [
  "proved",
  "The collision of the compression function is exhibited among the chain values and blocks met in hashing the two messages."
 ],
 "C30": [
  "proved",
  "Whirlpool against the byte matrix definition with computed S-box; Tiger with the S-boxes of the published generator. Whirlpool refuses an explicit 10 rounds (refuted)."
 ],
 "C04": [
  "proved",
  "For key lengths 16, 24 and 32 with default rounds, encrypt and decrypt equal an independent FIPS-197 transcription (S-box computed from the field inverse, MixColumns as a matrix over GF(2^8)). Beyond the claim: every other key length and round count for which the schedule needs at most 51 round constants is Rijndael with the zero padded key, for 128 and 256 bit blocks; C04_rcon_refuted shows that with 52 constants the result differs because the 52nd initialiser is missing in the source."
 ],
 "C48": [
  "partial",
  "Proved against independent specifications for TEA, XTEA, RC5, RC6, Speck, Simon, Threefish, LEA, GOST, IDEA, DES and triple DES, SM4, SEED, Skipjack, SHACAL-2, Serpent, Noekeon, Rectangle, 3-Way, RC2, CRAX, Khazad, Anubis, ARIA, Camellia (keys of 16 .. 32 bytes), Twofish (keys of 9 .. 32 bytes), SAFER K and SK, SAFER++, CAST-128 (keys of 1 .. 5 and 11 .. 16 bytes) and Blowfish (Rijndael is C04). ARIA keys of 17 .. 20 and 25 .. 28 bytes are no keys of the RFC. Refuted for CAST-128 keys of 10 bytes (the code uses 16 rounds above 5 bytes, the RFC above 10), Twofish keys of at most 8 bytes, RC5 keys above 104 bytes and RC6 keys above 176 bytes. TRAX-L is the tweakable cipher of the Alzette paper for every tweak; TRAX-M, for which no publication is at hand, has no separate specification."
 ],
 "C28": [
  "partial",
  "Refuted as stated: messages of 56..63 bytes modulo 64 (112..127 modulo 128), and of whole blocks, get a wrong counter for the final block without message bits (C28_blake*_refuted, the zeroing of the counter is unreachable). Proved for every other message length, every salt and every splitting; C28_blake*_all says exactly what is computed for every length and round count."
 ],
 "C29": [
  "partial",
  "Refuted as stated: a non-empty message of whole blocks is followed by an extra empty final block (C29_blake2*_refuted). Proved for all other lengths; C29_blake2*_all says exactly what is computed for every length and round count."
 ],
 "C27": [
  "proved",
  "Keccak-1600 and SHA-3 for every out_len the interface allows to be meaningful (below 100, at most 64 for SHA-3), every message and splitting, and every round count up to the 48 constants. Beyond the claim: out_len 100 writes outside the state, SHA-3 output past the rate shows the capacity, and keccak800.c is not Keccak-f[800] (20 rounds, constants folded from the 64 bit ones), all as refutations with what is computed instead."
 ],
 "C17": [
  "proved",
  "Both sponge stream ciphers, every accepted key and IV, every splitting of the data, default and custom rounds; the permutation is the one characterised under C27."
 ],
 "C23": [
  "proved",
  "Every exported hash: all of them with the arguments listed in Spec/Hashes.v (the largest round counts, digest lengths and message lengths with which they work at all), Skein for all arguments."
 ],
 "C24": [
  "partial",
  "Proved for every hash but Skein. Skein aborts when a block of its output is read in two pieces (refuted for every message, round count and block size); splitting at block boundaries is proved."
 ],
 "C25": [
  "proved",
  "Every exported hash: recreate from any state equals create, hash_all equals create, input, output. Arguments as in Spec/Hashes.v; Skein for all arguments."
 ],
 "C49": [
  "partial",
  "Proved for digests of the block size, no salt, messages empty or not a whole number of blocks. Refuted otherwise: whole blocks get an extra block, other digest lengths have a wrong final flag and chained output blocks, salts of up to half a block are not read."
 ],
 "C18": [
  "partial",
  "Refuted: the first key stream block is the nonce (or Skein's public configuration string), only the first block of a long key counts, keys shorter than a block make create read uninitialised memory. Proved: for keys of one block the key stream after that first block is Skein output with key and nonce (so it depends on the key exactly as Skein does), every splitting, and decryption undoes encryption."
 ],
 "C35": [
  "proved",
  "Skein MACs without condition; OMAC, XCBC, HMAC and the Keccak MACs through their specifications, which quantify over all splittings (C35_split with C31, C32, C33, C35_keccak1600, C35_keccak800); kripto_mac_all over every MAC."
 ],
 "C36": [
  "partial",
  "Refuted for every key length except exactly one block; for keys of one block the tag is Skein-MAC (C50), which uses every byte."
 ],
 "C50": [
  "partial",
  "Proved for keys of exactly one block, tags of at most one block, messages empty or not a whole number of blocks; for whole blocks the exact deviation (an extra block) is proved. Refuted for whole blocks and other key lengths (C36)."
 ],
 "C31": [
  "partial",
  "Proved for every block cipher object that works, in particular all modelled ciphers with their block sizes, every key, message, splitting and tag length. Refuted for block sizes the library has no cipher for: rows 33 and 207 of the table are reducible, and for 253-byte blocks the polynomial is added at the wrong place."
 ],
 "C32": [
  "partial",
  "Proved for every cipher object that works and whose recreate works; refuted (use after free in create) for AES and LEA with keys longer than 16 bytes."
 ],
 "C33": [
  "partial",
  "Full length tags proved over every hash with any key and splitting, and as RFC 2104 over SHA-2, SHA-1 and MD5. Refuted: shorter tags are not prefixes of the full tag; over SHA-3 the block size is the state size."
 ],
 "C37": [
  "partial",
  "Proved over every cipher object that works, with every sequence of calls on both sides, for created and recreated objects; instance for every sound cipher. Tags up to the length of the IV (longer ones read uninitialised memory, C38_long_tag_refuted), once per message (C37_second_tag_refuted)."
 ],
 "C38": [
  "partial",
  "Tags of EAX proved for every IV; the ciphertext is that of EAX when the IV fills a block and the counter does not carry into its first byte. Refuted: shorter IVs start the counter with a cut OMAC and cannot give full tags."
 ],
 "C39": [
  "partial",
  "Proved for any stream cipher and MAC that work (and instances), IV not longer than the tag length, tags not longer than the IV, keys from 2 bytes. Refuted: longer IVs and empty tags write out of bounds, longer tags read uninitialised memory, the key split can exceed the MAC, the longest key wraps around."
 ],
 "C40": [
  "partial",
  "PBKDF2 equals RFC 8018 over every steady MAC, in particular over HMAC-SHA-256, HMAC-SHA-512, HMAC-SHA-1 and HMAC-MD5 for outputs of at least one digest, and block-cipher MACs are steady; longer requests extend shorter ones in that range. Refuted for requests shorter than a tag (the code asks the MAC for tags truncated to the output length), and the empty password is refused by an assertion."
 ],
 "C41": [
  "partial",
  "scrypt equals RFC 7914 when no SMix step draws saved block 1 or 2; with the two working areas placed behind the saved blocks it always does. Refuted as it stands: the working areas lie on saved blocks 1 and 2 (scrypt.c t1, t2), so wrong keys come out, and different SMix inputs collapse to the zero block. What the code computes for every input is proved too (C41_exact, over every HMAC with proved PBKDF2), without any access outside its memory; when block 1 is drawn the block becomes zeros."
 ],
 "C47": [
  "partial",
  "The portable generator (no KRIPTO_UNIX, no KRIPTO_WINDOWS), every sequence of requests, clocks and seeds: a seed older than 300 seconds, or one that would give more than 5 MiB after its first request, is replaced before any output; the output is ChaCha20 under the seeds. Refuted: the request that takes a seed is not counted, so one seed can give 10 MiB to requests of 5 MiB, and any amount to one request; after a failed reseeding the object is freed and the next call uses it. seed() is two scrypt runs over HMAC-BLAKE2s on the collected bytes and always gives 32 bytes (C47_seed)."
 ],
 "C46": [
  "partial",
  "Allocation is modelled as a heap of objects that hold pointers, with an oracle for which malloc fails and which recreate replaces its object (Model/Heap.v). For every failure pattern and every sequence of uses: stream modes, hashes, OMAC, XCBC, HMAC, Keccak and Skein MACs, kripto_mac_all and scrypt never touch freed memory, never free twice, leave nothing behind and fail only when an allocation does. EAX and EAX2 the same without recreate (EAX2 also with it for a longer tag). Refuted: eax_recreate and eax2_recreate leak their components when an allocation fails, but that is all: nothing is touched or freed after it was freed (C46_eax_quiet, C46_eax2_quiet); PBKDF2 with more than one iteration uses NULL after a failed recreate (line 78 looks at mac instead of m); ciphers that read s->desc after free; the GOST descriptor; the random generator loses a MAC descriptor at each reseed."
 ],
 "C51": [
  "proved",
  "OMAC, XCBC and EAX over every cipher object that is a permutation (and, with default rounds, over the ciphers of C01 by name; XCBC with the keys of C32). Two limits are shown by example: damage in two blocks can cancel, and tags shorter than a block can agree; for EAX the IV has to have the length of a block, as longer tags than the IV are undefined (C38)."
 ],
 "C52": [
  "proved",
  "The collision is exhibited among the inputs met in hashing the two messages, not merely claimed to exist. Digests of BLAKE and BLAKE2 are the full ones (32 or 64 bytes); the sponges are covered for every digest length."
 ],
 "C53": [
  "proved",
  "For any block cipher object that is a permutation (C01 gives them) and any splitting into calls. CFB decryption is claimed where it works at all (C10): one whole block per call into a separate buffer. ChaCha with a 9 to 12 byte nonce up to 2^38 bytes."
 ],
 "C54": [
  "proved",
  "DES, TEA, GOST, IDEA and RC4 objects with the default rounds (TEA: every number of rounds, RC4: every number of discarded bytes); HMAC over SHA-256, SHA-512, SHA-1 and MD5 with full tags. Blowfish and short keys are in C06."
 ],
 "C55": [
  "proved",
  "HMAC over all hashes of hash_use (Skein excluded, C49), with the compression function named for SHA-2, SHA-1, MD5, Tiger, Whirlpool, BLAKE, BLAKE2 and the sponge for SHA-3; OMAC over every working cipher, also recreated; XCBC over every working cipher whose recreate works with the derived key."
 ],
 "C56": [
  "proved",
  "All seven relations for every cipher object that works (C08 names them), for sessions of any calls. The counter of CTR is the one of the code, which leaves the first byte alone (C12). CFB is about encryption, whose decryption is wrong for most calls (C10)."
 ],
 "C57": [
  "partial",
  "Proved for memory_equals, memory_wipe, Speck (three sizes, both directions), ChaCha and Salsa20: one list of steps for all secrets, with the program shown to compute the model. False for RC4 (C57_rc4_refuted), for AES, whose steps show the xor of the block and the first round key (C57_aes_shows), for a multiplication of IDEA, which shows exactly whether a factor is zero, and for pkcs7_rem, which shows whether the last byte is below the length. The steps are those of the C text, not of a compiled program."
 ],
 "C58": [
  "proved",
  "Every theorem covers all round counts and key lengths with which the object works (C03 has what happens with the others); for SAFER only the published key sizes, for SHACAL-2 at most 64 rounds, and for Twofish and ARIA the keys and round counts that the published schedule has an answer for (124 and 16 rounds at most). The standard members are those of C48 (the theorems ending in _std; TEA, RC5 and RC6 share the definitions of C48). Rijndael with any number of rounds is in C04."
 ]
}