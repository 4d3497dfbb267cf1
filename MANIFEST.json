{
 "claims": [
  {
   "property": "C01",
   "status": "partial",
   "theorems": [
    "C01_block_roundtrip",
    "C01_speck32",
    "C01_speck64",
    "C01_speck128",
    "C01_rijndael256",
    "C01_rijndael256_short_refuted",
    "C01_speck32_refuted",
    "C01_speck64_refuted",
    "C01_speck128_refuted",
    "C01_safer",
    "C01_safer_refuted",
    "C01_saferpp",
    "C01_saferpp_refuted"
   ],
   "note": "Every exported block cipher is covered. Proved for the 35 ciphers of sound_ciphers with every accepted key. Speck is proved for keys longer than one word, Rijndael-256 for keys of 9 or more bytes, SAFER and SAFER++ for their natural key lengths; for the other keys of these the statement is refuted (division by zero, reads outside the key or the round constants)."
  },
  {
   "property": "C02",
   "status": "partial",
   "theorems": [
    "C02_block_bijective"
   ],
   "note": "Same ciphers as C01."
  },
  {
   "property": "C03",
   "status": "partial",
   "theorems": [
    "C03_tea",
    "C03_xtea",
    "C03_rc5",
    "C03_rc6",
    "C03_lea",
    "C03_crax",
    "C03_noekeon",
    "C03_rectangle",
    "C03_rc2",
    "C03_idea",
    "C03_rijndael128",
    "C03_rijndael256",
    "C03_gost",
    "C03_trax_m",
    "C03_trax_l",
    "C03_threefish256",
    "C03_threefish512",
    "C03_threefish1024",
    "C03_simon32",
    "C03_simon64",
    "C03_simon128",
    "C03_speck32",
    "C03_speck64",
    "C03_speck128",
    "C03_seed",
    "C03_sm4",
    "C03_skipjack",
    "C03_des",
    "C03_blowfish",
    "C03_twofish",
    "C03_serpent",
    "C03_shacal2",
    "C03_khazad",
    "C03_anubis",
    "C03_aria",
    "C03_saferpp",
    "C03_safer",
    "C03_xtea_refuted",
    "C03_lea_refuted",
    "C03_noekeon_refuted",
    "C03_threeway_refuted",
    "C03_threefish_refuted",
    "C03_gost_odd_refuted",
    "C03_gost_few_refuted",
    "C03_simon64_few_refuted",
    "C03_sm4_refuted",
    "C03_sm4_many_refuted",
    "C03_blowfish_refuted",
    "C03_cast5_only_default",
    "C03_camellia_only_default",
    "C03_serpent_refuted",
    "C03_shacal2_few_refuted",
    "C03_shacal2_refuted",
    "C03_khazad_refuted",
    "C03_anubis_refuted",
    "C03_twofish_refuted",
    "C03_aria_refuted"
   ],
   "note": "For every cipher the round counts that work, and refutations for accepted round counts that do not (XTEA odd, LEA not divisible by 4, Noekeon above 33, 3-Way 10, Threefish odd groups, GOST odd or few, Simon few, SM4 not divisible by 4 or above 32, Blowfish above 34, Serpent and SHACAL-2 not divisible by 8, Khazad above 8, Anubis above 64, Twofish and ARIA odd)."
  },
  {
   "property": "C04",
   "status": "proved",
   "theorems": [
    "C04_aes",
    "C04_rijndael128",
    "C04_rijndael256",
    "C04_rcon_refuted"
   ],
   "note": "For key lengths 16, 24 and 32 with default rounds, encrypt and decrypt equal an independent FIPS-197 transcription (S-box computed from the field inverse, MixColumns as a matrix over GF(2^8)). Beyond the claim: every other key length and round count for which the schedule needs at most 51 round constants is Rijndael with the zero padded key, for 128 and 256 bit blocks; C04_rcon_refuted shows that with 52 constants the result differs because the 52nd initialiser is missing in the source."
  },
  {
   "property": "C05",
   "status": "partial",
   "theorems": [
    "C05_rekey_any",
    "C05_rekey_same",
    "C05_rekey_rounds",
    "C05_rekey_refuted",
    "C05_rekey_default_refuted"
   ],
   "note": "Refuted in general: most ciphers use the object after freeing it when the number of rounds changes. Proved where rounds and key length stay the same, for any key with the same round argument for the ciphers of C05_rekey_rounds, and without condition for the ciphers not affected."
  },
  {
   "property": "C06",
   "status": "partial",
   "theorems": [
    "C06_one_size",
    "C06_words4",
    "C06_words2",
    "C06_words8",
    "C06_lea",
    "C06_rectangle",
    "C06_cast5",
    "C06_des",
    "C06_camellia",
    "C06_camellia_refuted",
    "C06_blowfish",
    "C06_blowfish_refuted",
    "C06_serpent",
    "C06_serpent_refuted",
    "C06_safer_refuted",
    "C06_saferpp_refuted"
   ],
   "note": "Proved for the ciphers that pad with zeros, within the classes of lengths that select one schedule. Blowfish repeats the key and Serpent appends a bit (proved); RC2, RC5 and RC6 do not pad by design; Camellia keys of 9 to 15 bytes are refuted. Reads outside the key are an error in the model, so create succeeding (C01) shows there are none; SAFER and SAFER++ are refuted."
  },
  {
   "property": "C07",
   "status": "partial",
   "theorems": [
    "C07_threefish",
    "C07_trax",
    "C07_threefish_zeros",
    "C07_trax_zeros",
    "C07_threefish_rekey",
    "C07_trax_rekey",
    "C07_threefish_injective",
    "C07_length_refuted"
   ],
   "note": "Proved for Threefish and TRAX; a tweak longer than maxtweak is written past the tweak because kripto_block_tweak does not check the length (refuted)."
  },
  {
   "property": "C08",
   "status": "proved",
   "theorems": [
    "C08_ecb_encrypt",
    "C08_ecb_decrypt",
    "C08_ecb_decrypt_safe"
   ],
   "note": "For every block cipher object that is a permutation, any splitting into calls and in place operation."
  },
  {
   "property": "C09",
   "status": "proved",
   "theorems": [
    "C09_cbc_encrypt",
    "C09_cbc_decrypt"
   ],
   "note": "For every block cipher object that is a permutation, any splitting into whole block calls and in place operation."
  },
  {
   "property": "C10",
   "status": "partial",
   "theorems": [
    "C10_cfb_encrypt",
    "C10_cfb_decrypt_one_partial",
    "C10_cfb_decrypt_blocks_partial",
    "C10_cfb_decrypt_exact",
    "C10_cfb_decrypt_refuted",
    "C10_cfb_overrun_refuted",
    "C10_cfb_inplace_refuted"
   ],
   "note": "Encryption proved. Decryption is refuted (writes each key stream block at the start of the output buffer); it is proved for one call of at most a block and for block by block calls in separate buffers. C10_cfb_decrypt_exact says what one longer call leaves in a separate buffer: the key stream of the last block, then the old contents xored with the ciphertext."
  },
  {
   "property": "C11",
   "status": "proved",
   "theorems": [
    "C11_ofb_crypt",
    "C11_ofb_prng",
    "C11_ofb_decrypt"
   ],
   "note": "Encryption, decryption and prng, any splitting, in place operation."
  },
  {
   "property": "C12",
   "status": "partial",
   "theorems": [
    "C12_ctr_crypt_lib",
    "C12_ctr_crypt_partial",
    "C12_ctr_prng_partial",
    "C12_ctr_prng_lib",
    "C12_ctr_decrypt",
    "C12_ctr_rekey",
    "C12_ctr_carry_refuted"
   ],
   "note": "The counter never carries into its first byte (refuted for IV 00 ff ff ff of a 4 byte block cipher); proved exactly for the library's counter and equal to CTR while no carry reaches the first byte."
  },
  {
   "property": "C13",
   "status": "proved",
   "theorems": [
    "C13_ctr_no_repeats"
   ],
   "note": "For up to 256^(blocksize-1) blocks the key stream blocks are pairwise different."
  },
  {
   "property": "C14",
   "status": "proved",
   "theorems": [
    "C14_chacha_create",
    "C14_chacha_encrypt",
    "C14_chacha_prng",
    "C14_chacha_rfc8439",
    "C14_chacha_20_rounds",
    "C14_chacha_decrypt",
    "C14_chacha_safe",
    "C14_chacha_prng_safe",
    "C14_chacha_nonce_overlap",
    "C14_chacha_last_block_refuted"
   ],
   "note": "Every key of 1..32 bytes, nonce of 0..24 bytes, round count and splitting, not only the 32 byte keys of the claim. Two observations about what lies behind the counter limit are stated as theorems: after 2^38 bytes of a 12 byte nonce the stream continues as the stream of the next nonce, and with a nonce starting FF FF FF FF the program stops one block earlier (taking counter value 2^32-1 already overflows)."
  },
  {
   "property": "C15",
   "status": "proved",
   "theorems": [
    "C15_salsa20_create",
    "C15_salsa20_encrypt",
    "C15_salsa20_prng",
    "C15_salsa20_decrypt",
    "C15_salsa20_safe",
    "C15_salsa20_prng_safe"
   ],
   "note": "Every key of 1..32 bytes, nonce of 0..24 bytes, round count and splitting, up to the 2^70 - 64 bytes where the counter ends."
  },
  {
   "property": "C16",
   "status": "proved",
   "theorems": [
    "C16_rc4_create",
    "C16_rc4_encrypt",
    "C16_rc4_prng",
    "C16_rc4_decrypt"
   ],
   "note": "All key lengths, drop counts, sessions. Table and index accesses are checked in the model, so success includes staying in range."
  },
  {
   "property": "C17",
   "status": "proved",
   "theorems": [
    "C17_keccak1600_create",
    "C17_keccak1600",
    "C17_keccak1600_prng",
    "C17_keccak1600_decrypt",
    "C17_keccak1600_rounds",
    "C17_keccak1600_prng_rounds",
    "C17_keccak800_create",
    "C17_keccak800",
    "C17_keccak800_prng",
    "C17_keccak800_decrypt"
   ],
   "note": "Both sponge stream ciphers, every accepted key and IV, every splitting of the data, default and custom rounds; the permutation is the one characterised under C27."
  },
  {
   "property": "C18",
   "status": "partial",
   "theorems": [
    "C18_public_refuted",
    "C18_first_block_refuted",
    "C18_short_key_refuted",
    "C18_skein256",
    "C18_skein512",
    "C18_skein1024",
    "C18_skein256_prng",
    "C18_skein512_prng",
    "C18_skein1024_prng",
    "C18_decrypt"
   ],
   "note": "Refuted: the first key stream block is the nonce (or Skein's public configuration string), only the first block of a long key counts, keys shorter than a block make create read uninitialised memory. Proved: for keys of one block the key stream after that first block is Skein output with key and nonce (so it depends on the key exactly as Skein does), every splitting, and decryption undoes encryption."
  },
  {
   "property": "C19",
   "status": "proved",
   "theorems": [
    "C19_sha256",
    "C19_sha224",
    "C19_sha2_256_rounds",
    "C19_sha2_256_rounds_refuted"
   ],
   "note": "For a new object, a re-created object and hash_all, every splitting of message and digest, messages below 2^61 bytes. Also other round numbers up to 128; beyond that the code reads outside its table (refuted)."
  },
  {
   "property": "C20",
   "status": "proved",
   "theorems": [
    "C20_sha512",
    "C20_sha384",
    "C20_sha2_512_rounds",
    "C20_sha2_512_rounds_refuted"
   ],
   "note": "As C19, messages below 2^125 bytes; more than 160 rounds read outside the table (refuted)."
  },
  {
   "property": "C21",
   "status": "proved",
   "theorems": [
    "C21_sha1"
   ],
   "note": "Rounds = 0, which is all the code accepts."
  },
  {
   "property": "C22",
   "status": "proved",
   "theorems": [
    "C22_md5"
   ],
   "note": "The T table of the specification is computed from the sine."
  },
  {
   "property": "C23",
   "status": "proved",
   "theorems": [
    "C23_input_split",
    "C23_skein"
   ],
   "note": "Every exported hash: all of them with the arguments listed in Spec/Hashes.v (the largest round counts, digest lengths and message lengths with which they work at all), Skein for all arguments."
  },
  {
   "property": "C24",
   "status": "partial",
   "theorems": [
    "C24_output_split",
    "C24_skein",
    "C24_skein_refuted"
   ],
   "note": "Proved for every hash but Skein. Skein aborts when a block of its output is read in two pieces (refuted for every message, round count and block size); splitting at block boundaries is proved."
  },
  {
   "property": "C25",
   "status": "proved",
   "theorems": [
    "C25_reuse",
    "C25_skein",
    "C25_skein_all"
   ],
   "note": "Every exported hash: recreate from any state equals create, hash_all equals create, input, output. Arguments as in Spec/Hashes.v; Skein for all arguments."
  },
  {
   "property": "C26",
   "status": "proved",
   "theorems": [
    "C26_pad_inj",
    "C26_sha2_256",
    "C26_sha2_512",
    "C26_sha1",
    "C26_md5",
    "C26_tiger",
    "C26_whirlpool"
   ],
   "note": "The collision of the compression function is exhibited among the chain values and blocks met in hashing the two messages."
  },
  {
   "property": "C27",
   "status": "proved",
   "theorems": [
    "C27_keccak1600",
    "C27_sha3",
    "C27_sha3_digest",
    "C27_keccak1600_rounds",
    "C27_sha3_rounds",
    "C27_keccak1600_refuted",
    "C27_rounds_refuted",
    "C27_sha3_overread_refuted",
    "C27_keccak800_refuted",
    "C27_keccak800"
   ],
   "note": "Keccak-1600 and SHA-3 for every out_len the interface allows to be meaningful (below 100, at most 64 for SHA-3), every message and splitting, and every round count up to the 48 constants. Beyond the claim: out_len 100 writes outside the state, SHA-3 output past the rate shows the capacity, and keccak800.c is not Keccak-f[800] (20 rounds, constants folded from the 64 bit ones), all as refutations with what is computed instead."
  },
  {
   "property": "C28",
   "status": "partial",
   "theorems": [
    "C28_blake256",
    "C28_blake512",
    "C28_blake256_refuted",
    "C28_blake512_refuted",
    "C28_blake256_all",
    "C28_blake512_all"
   ],
   "note": "Refuted as stated: messages of 56..63 bytes modulo 64 (112..127 modulo 128), and of whole blocks, get a wrong counter for the final block without message bits (C28_blake*_refuted, the zeroing of the counter is unreachable). Proved for every other message length, every salt and every splitting; C28_blake*_all says exactly what is computed for every length and round count."
  },
  {
   "property": "C29",
   "status": "partial",
   "theorems": [
    "C29_blake2s",
    "C29_blake2b",
    "C29_blake2s_refuted",
    "C29_blake2b_refuted",
    "C29_blake2s_all",
    "C29_blake2b_all"
   ],
   "note": "Refuted as stated: a non-empty message of whole blocks is followed by an extra empty final block (C29_blake2*_refuted). Proved for all other lengths; C29_blake2*_all says exactly what is computed for every length and round count."
  },
  {
   "property": "C30",
   "status": "proved",
   "theorems": [
    "C30_tiger",
    "C30_whirlpool",
    "C30_default_rounds",
    "C30_whirlpool_rounds_refuted"
   ],
   "note": "Whirlpool against the byte matrix definition with computed S-box; Tiger with the S-boxes of the published generator. Whirlpool refuses an explicit 10 rounds (refuted)."
  },
  {
   "property": "C31",
   "status": "partial",
   "theorems": [
    "C31_omac",
    "C31_recreate",
    "C31_ciphers",
    "C31_aes",
    "C31_published",
    "C31_row33_refuted",
    "C31_row207_refuted",
    "C31_place_refuted"
   ],
   "note": "Proved for every block cipher object that works, in particular all modelled ciphers with their block sizes, every key, message, splitting and tag length. Refuted for block sizes the library has no cipher for: rows 33 and 207 of the table are reducible, and for 253-byte blocks the polynomial is added at the wrong place."
  },
  {
   "property": "C32",
   "status": "partial",
   "theorems": [
    "C32_xcbc",
    "C32_recreate",
    "C32_every_key",
    "C32_block_key",
    "C32_aes",
    "C32_aes_refuted",
    "C32_lea_refuted"
   ],
   "note": "Proved for every cipher object that works and whose recreate works; refuted (use after free in create) for AES and LEA with keys longer than 16 bytes."
  },
  {
   "property": "C33",
   "status": "partial",
   "theorems": [
    "C33_every_hash",
    "C33_sha256",
    "C33_sha224",
    "C33_sha512",
    "C33_sha384",
    "C33_sha1",
    "C33_md5",
    "C33_other_length",
    "C33_short_refuted",
    "C33_read_refuted",
    "C33_sha3_refuted"
   ],
   "note": "Full length tags proved over every hash with any key and splitting, and as RFC 2104 over SHA-2, SHA-1 and MD5. Refuted: shorter tags are not prefixes of the full tag; over SHA-3 the block size is the state size."
  },
  {
   "property": "C34",
   "status": "partial",
   "theorems": [
    "C34_mac_verify",
    "C34_empty_refuted",
    "C34_ae_verify",
    "C34_ae_empty_refuted",
    "C34_equals"
   ],
   "note": "kripto_memory_equals, kripto_mac_verify (over every MAC) and kripto_ae_verify (over every mode) proved; refuted for the empty tag (array of length zero)."
  },
  {
   "property": "C35",
   "status": "proved",
   "theorems": [
    "C35_split",
    "C35_keccak1600",
    "C35_keccak800",
    "C35_skein",
    "C35_all"
   ],
   "note": "Skein MACs without condition; OMAC, XCBC, HMAC and the Keccak MACs through their specifications, which quantify over all splittings (C35_split with C31, C32, C33, C35_keccak1600, C35_keccak800); kripto_mac_all over every MAC."
  },
  {
   "property": "C36",
   "status": "partial",
   "theorems": [
    "C36_short_refuted",
    "C36_recreate_refuted",
    "C36_long_refuted"
   ],
   "note": "Refuted for every key length except exactly one block; for keys of one block the tag is Skein-MAC (C50), which uses every byte."
  },
  {
   "property": "C37",
   "status": "partial",
   "theorems": [
    "C37_eax",
    "C37_recreate",
    "C37_ciphers",
    "C37_second_tag_refuted"
   ],
   "note": "Proved over every cipher object that works, with every sequence of calls on both sides, for created and recreated objects; instance for every sound cipher. Tags up to the length of the IV (longer ones read uninitialised memory, C38_long_tag_refuted), once per message (C37_second_tag_refuted)."
  },
  {
   "property": "C38",
   "status": "partial",
   "theorems": [
    "C38_published",
    "C38_aes",
    "C38_ciphertext",
    "C38_aes_ciphertext",
    "C38_short_iv_refuted",
    "C38_long_tag_refuted"
   ],
   "note": "Tags of EAX proved for every IV; the ciphertext is that of EAX when the IV fills a block and the counter does not carry into its first byte. Refuted: shorter IVs start the counter with a cut OMAC and cannot give full tags."
  },
  {
   "property": "C39",
   "status": "partial",
   "theorems": [
    "C39_split",
    "C39_eax2",
    "C39_recreate",
    "C39_ctr",
    "C39_ofb",
    "C39_cbc",
    "C39_chacha",
    "C39_salsa20",
    "C39_keccak1600",
    "C39_keccak800",
    "C39_lengths",
    "C39_with_keccak1600",
    "C39_with_omac",
    "C39_with_hmac",
    "C39_long_iv_refuted",
    "C39_long_iv_write_refuted",
    "C39_no_tag_refuted",
    "C39_long_tag_refuted",
    "C39_short_key_refuted",
    "C39_mac_key_refuted",
    "C39_maxkey_refuted"
   ],
   "note": "Proved for any stream cipher and MAC that work (and instances), IV not longer than the tag length, tags not longer than the IV, keys from 2 bytes. Refuted: longer IVs and empty tags write out of bounds, longer tags read uninitialised memory, the key split can exceed the MAC, the longest key wraps around."
  },
  {
   "property": "C40",
   "status": "partial",
   "theorems": [
    "C40_every_mac",
    "C40_sha256",
    "C40_sha512",
    "C40_sha1",
    "C40_md5",
    "C40_omac",
    "C40_prefix",
    "C40_short_refuted",
    "C40_omac_refuted",
    "C40_empty_refuted"
   ],
   "note": "PBKDF2 equals RFC 8018 over every steady MAC, in particular over HMAC-SHA-256, HMAC-SHA-512, HMAC-SHA-1 and HMAC-MD5 for outputs of at least one digest, and block-cipher MACs are steady; longer requests extend shorter ones in that range. Refuted for requests shorter than a tag (the code asks the MAC for tags truncated to the output length), and the empty password is refused by an assertion."
  },
  {
   "property": "C41",
   "status": "partial",
   "theorems": [
    "C41_scrypt",
    "C41_repaired",
    "C41_every_hmac",
    "C41_exact",
    "C41_hashes",
    "C41_forgets",
    "C41_refuted",
    "C41_smix_refuted"
   ],
   "note": "scrypt equals RFC 7914 when no SMix step draws saved block 1 or 2; with the two working areas placed behind the saved blocks it always does. Refuted as it stands: the working areas lie on saved blocks 1 and 2 (scrypt.c t1, t2), so wrong keys come out, and different SMix inputs collapse to the zero block. What the code computes for every input is proved too (C41_exact, over every HMAC with proved PBKDF2), without any access outside its memory; when block 1 is drawn the block becomes zeros."
  },
  {
   "property": "C42",
   "status": "partial",
   "theorems": [
    "C42_add",
    "C42_roundtrip",
    "C42_empty_refuted"
   ],
   "note": "Proved for non empty messages; the empty message does not come back (refuted)."
  },
  {
   "property": "C43",
   "status": "proved",
   "theorems": [
    "C43_load16l",
    "C43_load32l",
    "C43_load64l",
    "C43_load16b",
    "C43_load32b",
    "C43_load64b",
    "C43_stores",
    "C43_inverse",
    "C43_array_load",
    "C43_array_store"
   ],
   "note": "Portable forms of the loads and stores (the ones build.sh selects); zero padded array loads, range array stores."
  },
  {
   "property": "C44",
   "status": "partial",
   "theorems": [
    "C44_asm",
    "C44_portable",
    "C44_portable_narrow",
    "C44_inverse",
    "C44_unique",
    "C44_constants",
    "C44_constants_all",
    "C44_ror_constants",
    "C44_ROR8_6_refuted",
    "C44_portable_refuted",
    "C44_ROR16_refuted"
   ],
   "note": "Assembly forms and all constant rotations proved except ROR8_6, which rotates by the wrong count (refuted); the portable 32/64 bit forms are undefined for counts that are multiples of the width, ROR16 overflows int (refuted)."
  },
  {
   "property": "C45",
   "status": "partial",
   "theorems": [
    "C45_wipe",
    "C45_block_ciphers",
    "C45_gost",
    "C45_safer",
    "C45_fixed_ciphers",
    "C45_plain",
    "C45_one",
    "C45_keccak",
    "C45_eax",
    "C45_eax2",
    "C45_eax2_created",
    "C45_eax2_recreated",
    "C45_eax2_refuted",
    "C45_random"
   ],
   "note": "kripto_memory_wipe proved. Destroy proved for every block cipher (all memory that create allocated is wiped, then freed), the hashes, the stream ciphers and modes, the MACs, EAX and the random generator, as trees of objects: each piece freed once, scrubbed when freed, nothing else touched. False for EAX2 after recreate with an IV longer than the tag (C45_eax2_refuted); proved otherwise. Failure paths that free a half made object and temporaries on the stack are not claimed."
  },
  {
   "property": "C46",
   "status": "partial",
   "theorems": [
    "C46_streams",
    "C46_hashes",
    "C46_macs",
    "C46_eax_partial",
    "C46_eax2_partial",
    "C46_eax2_longer",
    "C46_eax_recreate_refuted",
    "C46_eax2_recreate_refuted",
    "C46_eax_quiet",
    "C46_eax2_quiet",
    "C46_mac_all",
    "C46_scrypt",
    "C46_pbkdf2_one",
    "C46_pbkdf2_partial",
    "C46_pbkdf2_succeeds",
    "C46_pbkdf2_refuted",
    "C46_stale_refuted",
    "C46_gost_desc_refuted",
    "C46_random",
    "C46_random_create_refuted"
   ],
   "note": "Allocation is modelled as a heap of objects that hold pointers, with an oracle for which malloc fails and which recreate replaces its object (Model/Heap.v). For every failure pattern and every sequence of uses: stream modes, hashes, OMAC, XCBC, HMAC, Keccak and Skein MACs, kripto_mac_all and scrypt never touch freed memory, never free twice, leave nothing behind and fail only when an allocation does. EAX and EAX2 the same without recreate (EAX2 also with it for a longer tag). Refuted: eax_recreate and eax2_recreate leak their components when an allocation fails, but that is all: nothing is touched or freed after it was freed (C46_eax_quiet, C46_eax2_quiet); PBKDF2 with more than one iteration uses NULL after a failed recreate (line 78 looks at mac instead of m); ciphers that read s->desc after free; the GOST descriptor; the random generator loses a MAC descriptor at each reseed."
  },
  {
   "property": "C47",
   "status": "partial",
   "theorems": [
    "C47_renews",
    "C47_continues",
    "C47_later",
    "C47_small_requests",
    "C47_limit_refuted",
    "C47_request_refuted",
    "C47_after_failure_refuted",
    "C47_seed"
   ],
   "note": "The portable generator (no KRIPTO_UNIX, no KRIPTO_WINDOWS), every sequence of requests, clocks and seeds: a seed older than 300 seconds, or one that would give more than 5 MiB after its first request, is replaced before any output; the output is ChaCha20 under the seeds. Refuted: the request that takes a seed is not counted, so one seed can give 10 MiB to requests of 5 MiB, and any amount to one request; after a failed reseeding the object is freed and the next call uses it. seed() is two scrypt runs over HMAC-BLAKE2s on the collected bytes and always gives 32 bytes (C47_seed)."
  },
  {
   "property": "C48",
   "status": "partial",
   "theorems": [
    "C48_safer_k",
    "C48_safer_sk",
    "C48_saferpp",
    "C48_cast5",
    "C48_cast5_rounds",
    "C48_cast5_80_refuted",
    "C48_blowfish",
    "C48_trax_l",
    "C48_serpent",
    "C48_noekeon",
    "C48_rectangle",
    "C48_threeway",
    "C48_rc2",
    "C48_crax",
    "C48_camellia",
    "C48_twofish",
    "C48_twofish_short_refuted",
    "C48_tea",
    "C48_xtea",
    "C48_rc5",
    "C48_rc5_long_refuted",
    "C48_rc6",
    "C48_rc6_long_refuted",
    "C48_speck32",
    "C48_speck64",
    "C48_speck128",
    "C48_simon32",
    "C48_simon64",
    "C48_simon128",
    "C48_threefish256",
    "C48_threefish512",
    "C48_threefish1024",
    "C48_lea",
    "C48_gost",
    "C48_idea",
    "C48_khazad",
    "C48_anubis",
    "C48_aria",
    "C48_des",
    "C48_sm4",
    "C48_seed",
    "C48_skipjack",
    "C48_shacal2"
   ],
   "note": "Proved against independent specifications for TEA, XTEA, RC5, RC6, Speck, Simon, Threefish, LEA, GOST, IDEA, DES and triple DES, SM4, SEED, Skipjack, SHACAL-2, Serpent, Noekeon, Rectangle, 3-Way, RC2, CRAX, Khazad, Anubis, ARIA, Camellia (keys of 16 .. 32 bytes), Twofish (keys of 9 .. 32 bytes), SAFER K and SK, SAFER++, CAST-128 (keys of 1 .. 5 and 11 .. 16 bytes) and Blowfish (Rijndael is C04). ARIA keys of 17 .. 20 and 25 .. 28 bytes are no keys of the RFC. Refuted for CAST-128 keys of 10 bytes (the code uses 16 rounds above 5 bytes, the RFC above 10), Twofish keys of at most 8 bytes, RC5 keys above 104 bytes and RC6 keys above 176 bytes. TRAX-L is the tweakable cipher of the Alzette paper for every tweak; TRAX-M, for which no publication is at hand, has no separate specification."
  },
  {
   "property": "C49",
   "status": "partial",
   "theorems": [
    "C49_skein256",
    "C49_skein512",
    "C49_skein1024",
    "C49_skein256_all",
    "C49_skein512_all",
    "C49_skein1024_all",
    "C49_blocks_refuted",
    "C49_length_refuted",
    "C49_salt_refuted"
   ],
   "note": "Proved for digests of the block size, no salt, messages empty or not a whole number of blocks. Refuted otherwise: whole blocks get an extra block, other digest lengths have a wrong final flag and chained output blocks, salts of up to half a block are not read."
  },
  {
   "property": "C50",
   "status": "partial",
   "theorems": [
    "C50_skein256",
    "C50_skein512",
    "C50_skein1024",
    "C50_skein256_all",
    "C50_skein512_all",
    "C50_skein1024_all",
    "C50_blocks_refuted",
    "C50_key_refuted"
   ],
   "note": "Proved for keys of exactly one block, tags of at most one block, messages empty or not a whole number of blocks; for whole blocks the exact deviation (an extra block) is proved. Refuted for whole blocks and other key lengths (C36)."
  },
  {
   "property": "C51",
   "status": "proved",
   "theorems": [
    "C51_omac",
    "C51_omac_recreate",
    "C51_xcbc",
    "C51_eax",
    "C51_omac_ciphers",
    "C51_xcbc_ciphers",
    "C51_xcbc_block_key",
    "C51_eax_ciphers",
    "C51_limit_two_blocks",
    "C51_limit_short_tag"
   ],
   "note": "OMAC, XCBC and EAX over every cipher object that is a permutation (and, with default rounds, over the ciphers of C01 by name; XCBC with the keys of C32). Two limits are shown by example: damage in two blocks can cancel, and tags shorter than a block can agree; for EAX the IV has to have the length of a block, as longer tags than the IV are undefined (C38)."
  },
  {
   "property": "C52",
   "status": "proved",
   "theorems": [
    "C52_blake256",
    "C52_blake512",
    "C52_blake2s",
    "C52_blake2b",
    "C52_keccak_pad",
    "C52_sha3",
    "C52_keccak1600",
    "C52_keccak800"
   ],
   "note": "The collision is exhibited among the inputs met in hashing the two messages, not merely claimed to exist. Digests of BLAKE and BLAKE2 are the full ones (32 or 64 bytes); the sponges are covered for every digest length."
  },
  {
   "property": "C53",
   "status": "proved",
   "theorems": [
    "C53_ecb",
    "C53_cbc_any",
    "C53_cbc",
    "C53_cbc_resync",
    "C53_cbc_prefix",
    "C53_cfb",
    "C53_cfb_resync",
    "C53_ofb",
    "C53_ctr",
    "C53_chacha",
    "C53_salsa20",
    "C53_rc4"
   ],
   "note": "For any block cipher object that is a permutation (C01 gives them) and any splitting into calls. CFB decryption is claimed where it works at all (C10): one whole block per call into a separate buffer. ChaCha with a 9 to 12 byte nonce up to 2^38 bytes."
  },
  {
   "property": "C54",
   "status": "proved",
   "theorems": [
    "C54_des_complement",
    "C54_des_parity",
    "C54_des_equal_parts",
    "C54_des_weak",
    "C54_des_semiweak",
    "C54_tea",
    "C54_gost_flip",
    "C54_gost_palindrome",
    "C54_idea_zero",
    "C54_rc4",
    "C54_hmac_sha256",
    "C54_hmac_sha512",
    "C54_hmac_sha1",
    "C54_hmac_md5"
   ],
   "note": "DES, TEA, GOST, IDEA and RC4 objects with the default rounds (TEA: every number of rounds, RC4: every number of discarded bytes); HMAC over SHA-256, SHA-512, SHA-1 and MD5 with full tags. Blowfish and short keys are in C06."
  },
  {
   "property": "C55",
   "status": "proved",
   "theorems": [
    "C55_hmac",
    "C55_hmac_sha256",
    "C55_hmac_sha512",
    "C55_hmac_sha1",
    "C55_hmac_md5",
    "C55_hmac_tiger",
    "C55_hmac_whirlpool",
    "C55_hmac_blake256",
    "C55_hmac_blake512",
    "C55_hmac_blake2s",
    "C55_hmac_blake2b",
    "C55_hmac_sha3",
    "C55_omac",
    "C55_omac_recreate",
    "C55_omac_ciphers",
    "C55_xcbc"
   ],
   "note": "HMAC over all hashes of hash_use (Skein excluded, C49), with the compression function named for SHA-2, SHA-1, MD5, Tiger, Whirlpool, BLAKE, BLAKE2 and the sponge for SHA-3; OMAC over every working cipher, also recreated; XCBC over every working cipher whose recreate works with the derived key."
  },
  {
   "property": "C56",
   "status": "proved",
   "theorems": [
    "C56_ecb",
    "C56_cbc",
    "C56_cfb",
    "C56_ofb",
    "C56_ctr",
    "C56_cbc_zeros",
    "C56_cfb_zeros"
   ],
   "note": "All seven relations for every cipher object that works (C08 names them), for sessions of any calls. The counter of CTR is the one of the code, which leaves the first byte alone (C12). CFB is about encryption, whose decryption is wrong for most calls (C10)."
  },
  {
   "property": "C57",
   "status": "partial",
   "theorems": [
    "C57_equals",
    "C57_wipe",
    "C57_speck",
    "C57_chacha",
    "C57_salsa20",
    "C57_rc4_computes",
    "C57_rc4_refuted",
    "C57_idea_mul",
    "C57_pkcs7",
    "C57_aes_computes",
    "C57_aes_shows"
   ],
   "note": "Proved for memory_equals, memory_wipe, Speck (three sizes, both directions), ChaCha and Salsa20: one list of steps for all secrets, with the program shown to compute the model. False for RC4 (C57_rc4_refuted), for AES, whose steps show the xor of the block and the first round key (C57_aes_shows), for a multiplication of IDEA, which shows exactly whether a factor is zero, and for pkcs7_rem, which shows whether the last byte is below the length. The steps are those of the C text, not of a compiled program."
  },
  {
   "property": "C58",
   "status": "proved",
   "theorems": [
    "C58_tea",
    "C58_xtea",
    "C58_xtea_std",
    "C58_rc5",
    "C58_rc6",
    "C58_gost",
    "C58_gost_std",
    "C58_idea",
    "C58_idea_std",
    "C58_lea",
    "C58_speck32",
    "C58_speck64",
    "C58_speck128",
    "C58_simon32",
    "C58_simon64",
    "C58_simon128",
    "C58_safer",
    "C58_saferpp",
    "C58_noekeon",
    "C58_noekeon_std",
    "C58_crax",
    "C58_crax_std",
    "C58_khazad",
    "C58_khazad_std",
    "C58_anubis",
    "C58_anubis_std",
    "C58_seed",
    "C58_seed_std",
    "C58_shacal2",
    "C58_shacal2_std",
    "C58_threefish256",
    "C58_threefish512",
    "C58_threefish1024",
    "C58_threefish_std",
    "C58_sm4",
    "C58_sm4_std",
    "C58_rectangle",
    "C58_rectangle_std",
    "C58_serpent",
    "C58_serpent_std",
    "C58_twofish",
    "C58_twofish_std",
    "C58_aria",
    "C58_aria_std",
    "C58_des",
    "C58_rc2"
   ],
   "note": "Every theorem covers all round counts and key lengths with which the object works (C03 has what happens with the others); for SAFER only the published key sizes, for SHACAL-2 at most 64 rounds, and for Twofish and ARIA the keys and round counts that the published schedule has an answer for (124 and 16 rounds at most). The standard members are those of C48 (the theorems ending in _std; TEA, RC5 and RC6 share the definitions of C48). Rijndael with any number of rounds is in C04."
  }
 ]
}
