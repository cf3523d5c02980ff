{"id": "C01", "title": "Hex encode then decode is the identity", "statement": "For every byte array of length n, hex_encode writes exactly the 2n upper-case hexadecimal digits of the bytes in order followed by one NUL, touches no other memory, and hex_decode applied to those 2n characters returns the original bytes.", "quantifier": "all byte arrays of every length (n >= 0), all placements of input and output buffers that do not overlap", "why_tests_cant": "unbounded set of inputs; tests cover a handful of strings and cannot show absence of out-of-range writes", "anchors": ["Encoders/Hex/encoder.cpp: hex_encode", "Encoders/Hex/encoder.cpp: hex_decode", "Encoders/Hex/encoder.cpp: hex_to_int"]}
{"id": "C02", "title": "Hex decode then encode is the identity on upper-case hex text", "statement": "For every text of even length consisting of 0-9 and A-F, hex_encode(hex_decode(text)) = text, so decoding is injective on canonical text; for odd lengths the last character is ignored.", "quantifier": "all canonical hexadecimal strings of every length", "why_tests_cant": "infinite domain", "anchors": ["Encoders/Hex/encoder.cpp: hex_decode", "Encoders/Hex/encoder.cpp: hex_encode"]}
{"id": "C03", "title": "Hex decode is case-insensitive", "statement": "hex_decode gives the same bytes for lower-case hexadecimal digits a-f as for the corresponding upper-case digits.", "quantifier": "all hexadecimal strings in either case", "why_tests_cant": "tests only feed the upper-case output of hex_encode", "anchors": ["Encoders/Hex/encoder.cpp: hex_to_int", "Encoders/Hex/encoder.cpp: hex_decode"]}
{"id": "C04", "title": "SHA-256 (HMAC folder) computes FIPS 180-4 for every message", "statement": "sha256_process_message writes to the 32-byte output exactly the FIPS 180-4 SHA-256 digest of the message, never accesses memory outside the message, its own padding buffer and the output, and leaves the message unchanged.", "quantifier": "all messages of every length that fits the int arithmetic used for the padding buffer", "why_tests_cant": "padding has 64 residue classes and unboundedly many block counts; tests sample few lengths", "anchors": ["Authentication/HMAC-SHA-256/sha-256.cpp: sha256_process_message", "Authentication/HMAC-SHA-256/sha-256.cpp: pad_message", "Authentication/HMAC-SHA-256/sha-256.h"]}
{"id": "C05", "title": "SHA-256 (Hash folder) is memory safe and correct for every message", "statement": "The copy of sha256_process_message in the Hash folder computes the FIPS 180-4 digest without undefined behaviour for every message length.", "quantifier": "all messages of every length", "why_tests_cant": "the failing lengths are one residue class modulo 64, easily missed by tests", "anchors": ["Hash/SHA/SHA-2/SHA-256/sha-256.cpp: sha256_process_message"]}
{"id": "C06", "title": "The two SHA-256 copies agree wherever both are defined", "statement": "For every message whose length is not 63 modulo 64 the Hash-folder and HMAC-folder functions write the same digest (the FIPS one); for every length that is 63 modulo 64 the Hash-folder function writes outside its padding buffer.", "quantifier": "all messages of every length", "why_tests_cant": "needs all lengths, not samples", "anchors": ["Authentication/HMAC-SHA-256/sha-256.cpp: sha256_process_message", "Hash/SHA/SHA-2/SHA-256/sha-256.cpp: sha256_process_message"]}
{"id": "C07", "title": "HMAC tag generation equals RFC 2104 HMAC-SHA-256", "statement": "After hmac_load_key with any key, hmac_tag_generation on a non-empty message writes the first tagSize bytes of HMAC-SHA-256(key, message) to the tag buffer and nothing else.", "quantifier": "all keys of every length, all non-empty messages, all tag lengths up to 32", "why_tests_cant": "unbounded keys and messages; branch on key length over 64", "anchors": ["Authentication/HMAC-SHA-256/hmac.cpp: hmac_load_key", "Authentication/HMAC-SHA-256/hmac.cpp: hmac_tag_generation", "Authentication/HMAC-SHA-256/hmac.h"]}
{"id": "C08", "title": "HMAC validation accepts exactly the right tag", "statement": "hmac_tag_validation on a non-empty message returns 1 if the given tag equals the first tagLength bytes of HMAC-SHA-256(key, message), and 0 for every other tag.", "quantifier": "all keys, non-empty messages, tags and tag lengths up to 32", "why_tests_cant": "acceptance of a single wrong tag among 2^256 cannot be found by testing", "anchors": ["Authentication/HMAC-SHA-256/hmac.cpp: hmac_tag_validation"]}
{"id": "C09", "title": "HMAC authenticates the empty message", "statement": "hmac_tag_generation and hmac_tag_validation also produce and check the RFC 2104 tag when the message is empty.", "quantifier": "all keys and tag lengths, message of length zero", "why_tests_cant": "needs reasoning about indeterminate memory: a test may pass by accident", "anchors": ["Authentication/HMAC-SHA-256/hmac.cpp: hmac_tag_generation", "Authentication/HMAC-SHA-256/hmac.cpp: hmac_tag_validation"]}
{"id": "C10", "title": "HMAC depends on the key only through its normalised 64-byte form", "statement": "Two keys whose zero-padded (or, above 64 bytes, hashed and zero-padded) 64-byte forms are equal give the same tag for every message; in particular a key of fewer than 64 bytes and the same key with trailing zero bytes are interchangeable.", "quantifier": "all pairs of keys, all messages", "why_tests_cant": "relates pairs of unbounded inputs", "anchors": ["Authentication/HMAC-SHA-256/hmac.cpp: hmac_load_key"]}
{"id": "C11", "title": "ChaCha packet processing equals the RFC 7539 stream", "statement": "After chacha_initialize(key, nonce), chacha_process_packet writes input XOR the ChaCha20 key stream with block counter starting at 1 (last block truncated), touching only the output buffer; it is correct with disjoint buffers and in place.", "quantifier": "all keys, nonces, inputs, all lengths below 2^31, disjoint or identical buffers", "why_tests_cant": "all lengths including every partial word and block; frame condition", "anchors": ["StreamCiphers/ChaCha/chacha.cpp: chacha_initialize", "StreamCiphers/ChaCha/chacha.cpp: chacha_block", "StreamCiphers/ChaCha/chacha.cpp: chacha_process_packet", "StreamCiphers/ChaCha/chacha.h: q_round", "StreamCiphers/ChaCha/chacha.h"]}
{"id": "C12", "title": "ChaCha decryption inverts encryption", "statement": "Processing a packet twice with states initialised with the same key and nonce returns the original bytes.", "quantifier": "all keys, nonces, inputs and lengths below 2^31", "why_tests_cant": "infinite domain", "anchors": ["StreamCiphers/ChaCha/chacha.cpp: chacha_process_packet"]}
{"id": "C13", "title": "ChaCha packets are independent of the history of the state", "statement": "The output of chacha_process_packet depends only on key, nonce and input, not on the packets processed before with the same state (every packet restarts the block counter at 1, so c1 xor c2 = p1 xor p2 for two packets under one nonce).", "quantifier": "all histories of packets", "why_tests_cant": "quantifies over every history", "anchors": ["StreamCiphers/ChaCha/chacha.cpp: chacha_process_packet", "StreamCiphers/ChaCha/chacha.cpp: chacha_block"]}
{"id": "C14", "title": "ChaCha 20/12/8-round variants all perform complete double rounds of an invertible permutation", "statement": "For each supported round count the block function before the final addition is a bijection on 512-bit states equal to the RFC column/diagonal double round iterated rounds/2 times.", "quantifier": "all 512-bit states", "why_tests_cant": "2^512 states", "anchors": ["StreamCiphers/ChaCha/chacha.cpp: chacha_block", "StreamCiphers/ChaCha/chacha.h: q_round"]}
{"id": "C15", "title": "HC-128 set-up and first packet equal the specification", "statement": "After hc128_initialize(key, iv), the first hc128_process_packet of any length XORs the input with the HC-128 key stream of the eSTREAM specification and touches nothing but the output (disjoint or in place).", "quantifier": "all keys, IVs, inputs and lengths", "why_tests_cant": "every length incl. partial words and more than 1024 words (table wrap-around)", "anchors": ["StreamCiphers/HC-128/hc128.cpp: hc128_initialize", "StreamCiphers/HC-128/hc128.cpp: hc128_generate_keystream", "StreamCiphers/HC-128/hc128.cpp: hc128_process_packet", "StreamCiphers/HC-128/hc128.h"]}
{"id": "C16", "title": "HC-128 sender and receiver stay synchronised", "statement": "If both sides start from the same key and IV and process the same sequence of packet lengths, every packet decrypts to the original, for every number of packets.", "quantifier": "all packet histories", "why_tests_cant": "all histories", "anchors": ["StreamCiphers/HC-128/hc128.cpp: hc128_process_packet"]}
{"id": "C17", "title": "HC-128 packets concatenate to one stream", "statement": "Encrypting a message in several hc128_process_packet calls gives the same bytes as encrypting it in one call.", "quantifier": "all ways of splitting a message into packets", "why_tests_cant": "all split points; tests use a single packet", "anchors": ["StreamCiphers/HC-128/hc128.cpp: hc128_generate_keystream"]}
{"id": "C18", "title": "Rabbit sender and receiver stay synchronised", "statement": "Two states with equal contents that process the same sequence of packet lengths decrypt every packet correctly, for every history; processing is correct in place.", "quantifier": "all packet histories", "why_tests_cant": "all histories", "anchors": ["StreamCiphers/Rabbit/rabbit.cpp: rabbit_process_packet", "StreamCiphers/Rabbit/rabbit.cpp: rabbit_load_key", "StreamCiphers/Rabbit/rabbit.cpp: rabbit_load_iv"]}
{"id": "C19", "title": "Rabbit follows RFC 4503", "statement": "The key stream of rabbit_load_key / rabbit_load_iv / rabbit_process_packet is the RFC 4503 key stream for every key and IV.", "quantifier": "all keys and IVs", "why_tests_cant": "the deviation (a counter sum exactly 2^32) has probability about 2^-32 per step, never hit by vectors", "anchors": ["StreamCiphers/Rabbit/rabbit.h: rabbit_counter", "StreamCiphers/Rabbit/rabbit.h: rabbit_next_state", "StreamCiphers/Rabbit/rabbit.cpp: rabbit_extract_keystream"]}
{"id": "C20", "title": "Rabbit equals RFC 4503 whenever no counter sum is exactly 2^32", "statement": "If during a run no counter addition equals exactly 2^32, the run equals the RFC 4503 run (with the carry bit kept as the implementation keeps it); the first such addition makes the states differ.", "quantifier": "all states and numbers of steps", "why_tests_cant": "all states", "anchors": ["StreamCiphers/Rabbit/rabbit.h: rabbit_counter", "StreamCiphers/Rabbit/rabbit.h: rabbit_next_state"]}
{"id": "C21", "title": "Rabbit re-keying the IV forgets the packet history", "statement": "After rabbit_load_iv the key stream depends only on the key and the IV, not on packets processed before.", "quantifier": "all histories before rabbit_load_iv", "why_tests_cant": "depends on a carry bit that differs only for some histories", "anchors": ["StreamCiphers/Rabbit/rabbit.cpp: rabbit_load_iv"]}
{"id": "C22", "title": "Rabbit packets split at 16-byte boundaries concatenate", "statement": "Processing a then b gives the same as processing a followed by b in one packet whenever the length of a is a multiple of 16.", "quantifier": "all messages and all split points that are multiples of 16", "why_tests_cant": "all split points", "anchors": ["StreamCiphers/Rabbit/rabbit.cpp: rabbit_process_packet"]}
{"id": "C23", "title": "Rabbit arithmetic has no undefined behaviour", "statement": "No signed integer overflow or out-of-range shift occurs in key set-up or packet processing.", "quantifier": "all keys, IVs and packets", "why_tests_cant": "compilers usually hide the overflow", "anchors": ["StreamCiphers/Rabbit/rabbit.h: g", "StreamCiphers/Rabbit/rabbit.h: WORDSIZE"]}
{"id": "C24", "title": "Bitsliced Serpent S-boxes equal the Serpent tables", "statement": "Each bitsliced S-box function maps every bit column of its four words by the corresponding Serpent 4-bit S-box, whatever the scratch register held before.", "quantifier": "all four-word inputs and scratch contents", "why_tests_cant": "2^128 inputs per S-box", "anchors": ["BlockCiphers/Serpent/serpent.cpp: S0..S7", "StreamCiphers/Sosemanuk/serpent.cpp: S0..S7"]}
{"id": "C25", "title": "Serpent key schedule and 24 rounds equal the specification", "statement": "For every key of up to 32 bytes the subkeys equal the Serpent key schedule (padding 1 then zeros), and the three outputs are the Serpent states after 12, 18 and 24 rounds as Sosemanuk defines them.", "quantifier": "all keys up to 32 bytes, all 16-byte blocks", "why_tests_cant": "2^256 keys", "anchors": ["BlockCiphers/Serpent/serpent.cpp: serpent_key_schedule", "BlockCiphers/Serpent/serpent.cpp: serpent_process_packet", "BlockCiphers/Serpent/serpent.cpp: LT"]}
{"id": "C26", "title": "serpent_process_packet is memory safe for every packet size", "statement": "serpent_process_packet with a buffer of size bytes does not access memory outside its buffers.", "quantifier": "all packet sizes", "why_tests_cant": "sizes above one block never tested", "anchors": ["BlockCiphers/Serpent/serpent.cpp: serpent_process_packet"]}
{"id": "C27", "title": "Sosemanuk sender and receiver stay synchronised", "statement": "Equal states that process the same sequence of packet lengths decrypt every packet, for every history; in-place processing is correct.", "quantifier": "all packet histories", "why_tests_cant": "all histories", "anchors": ["StreamCiphers/Sosemanuk/sosemanuk.cpp: sosemanuk_process_packet", "StreamCiphers/Sosemanuk/sosemanuk.cpp: sosemanuk_load_key", "StreamCiphers/Sosemanuk/sosemanuk.cpp: sosemanuk_load_iv"]}
{"id": "C28", "title": "Sosemanuk packets split at 16-byte boundaries concatenate", "statement": "Processing a then b equals processing both in one packet when the length of a is a multiple of 16.", "quantifier": "all messages and split points", "why_tests_cant": "all split points", "anchors": ["StreamCiphers/Sosemanuk/sosemanuk.cpp: sosemanuk_process_packet"]}
{"id": "C29", "title": "Sosemanuk follows its specification", "statement": "The key stream equals the eSTREAM Sosemanuk key stream for every key and IV.", "quantifier": "all keys and IVs", "why_tests_cant": "readme says unverified against vectors", "anchors": ["StreamCiphers/Sosemanuk/sosemanuk.cpp: sosemanuk_process_packet", "StreamCiphers/Sosemanuk/sosemanuk.h: sosemanuk_fsm_update", "StreamCiphers/Sosemanuk/sosemanuk.h: Trans"]}
{"id": "C30", "title": "Sosemanuk LFSR equals multiplication in GF(2^32) and is reversible", "statement": "The LFSR feedback equals s[t+9] xor alpha^-1 s[t+3] xor alpha s[t] in the specification's field; multiplication and division by alpha are inverse on all 32-bit words; the update is reversible.", "quantifier": "all LFSR states", "why_tests_cant": "2^320 states", "anchors": ["StreamCiphers/Sosemanuk/sosemanuk_tables.h: alpha, inv_alpha", "StreamCiphers/Sosemanuk/sosemanuk.h: sosemanuk_lfsr_update"]}
{"id": "C31", "title": "Table-based AES block encryption equals FIPS 197 AES-128", "statement": "For every 16-byte key and block, aes_load_key followed by the block function gives the FIPS 197 AES-128 encryption (and the round-reduced build gives the same cipher with rounds removed).", "quantifier": "all 2^128 keys and 2^128 blocks", "why_tests_cant": "2^256 combinations", "anchors": ["BlockCiphers/AES/AES/AES_CTR/aes_ctr.cpp: aes_load_key", "BlockCiphers/AES/AES/AES_CTR/aes_ctr.cpp: aes_encrypt", "BlockCiphers/AES/AES/AES_CTR/tables.h", "BlockCiphers/AES/AES/AES_CTR/aes_ctr.h"]}
{"id": "C32", "title": "x86 and ARM AES builds encrypt like the table build", "statement": "For every key and block, the AES-NI and ARMv8 builds produce the same block output as the table build.", "quantifier": "all keys and blocks", "why_tests_cant": "cannot be tested on one machine; 2^256 combinations", "anchors": ["BlockCiphers/AES/AES_x86/AES_CTR/aes_ctr.cpp: aes_encrypt", "BlockCiphers/AES/AES_ARM/AES_CTR/aes_ctr.cpp: aes_encrypt", "BlockCiphers/AES/AES/AES_CTR/aes_ctr.cpp: aes_encrypt"]}
{"id": "C33", "title": "AES-CTR equals SP 800-38A counter mode on whole-word packets", "statement": "For every key, nonce and packet whose length is a multiple of 4, aes_ctr_process_packet XORs with E(nonce || counter) with a 32-bit big-endian counter starting at 1 (wrapping modulo 2^32) and continues across packets of whole blocks.", "quantifier": "all keys, nonces, inputs, lengths multiple of 4, all histories of whole-block packets", "why_tests_cant": "all lengths and histories", "anchors": ["BlockCiphers/AES/AES/AES_CTR/aes_ctr.cpp: aes_ctr_process_packet", "BlockCiphers/AES/AES/AES_CTR/aes_ctr.cpp: aes_load_iv"]}
{"id": "C34", "title": "AES-CTR processes every packet length without undefined behaviour", "statement": "aes_ctr_process_packet is free of undefined behaviour and follows counter mode for every length.", "quantifier": "all packet lengths", "why_tests_cant": "the shift overflow is masked silently by hardware", "anchors": ["BlockCiphers/AES/AES/AES_CTR/aes_ctr.cpp: aes_ctr_process_packet", "BlockCiphers/AES/AES_x86/AES_CTR/aes_ctr.cpp: aes_ctr_process_packet", "BlockCiphers/AES/AES_ARM/AES_CTR/aes_ctr.cpp: aes_ctr_process_packet"]}
{"id": "C35", "title": "AES-CTR decryption inverts encryption", "statement": "Two equal states process the same packet lengths and recover every plaintext for every length on which the code is defined; in-place processing included.", "quantifier": "all packet histories with lengths 0 or 1 modulo 4", "why_tests_cant": "all histories", "anchors": ["BlockCiphers/AES/AES/AES_CTR/aes_ctr.cpp: aes_ctr_process_packet"]}
{"id": "C36", "title": "AES-CFB decryption inverts encryption over packet sequences", "statement": "Starting from equal states, decrypting the packets produced by encrypting any sequence of packets returns the plaintexts, in each of the three builds, for every length on which the code is defined.", "quantifier": "all packet sequences", "why_tests_cant": "all histories, with carry-over of partial blocks", "anchors": ["BlockCiphers/AES/AES/AES_CFB/aes_cfb.cpp: aes_cfb_process_packet", "BlockCiphers/AES/AES_x86/AES_CFB_Carry-Over/aes_cfb.cpp", "BlockCiphers/AES/AES_ARM/AES_CFB_Carry-Over/aes_cfb.cpp"]}
{"id": "C37", "title": "AES-CFB equals SP 800-38A CFB-128 on whole-block packets", "statement": "For packets of whole blocks the ciphertext is the SP 800-38A CFB-128 ciphertext, across any number of packets.", "quantifier": "all keys, IVs, sequences of whole-block packets", "why_tests_cant": "all histories", "anchors": ["BlockCiphers/AES/AES/AES_CFB/aes_cfb.cpp: aes_cfb_process_packet"]}
{"id": "C38", "title": "AES-CFB builds interoperate", "statement": "A packet sequence encrypted with one build (table, x86, ARM) decrypts with another.", "quantifier": "all packet sequences and pairs of builds", "why_tests_cant": "different machines; only partial packets diverge", "anchors": ["BlockCiphers/AES/AES/AES_CFB/aes_cfb.cpp", "BlockCiphers/AES/AES_x86/AES_CFB_Carry-Over/aes_cfb.cpp", "BlockCiphers/AES/AES_ARM/AES_CFB_Carry-Over/aes_cfb.cpp"]}
{"id": "C39", "title": "AES-CFB resynchronises after one whole ciphertext block", "statement": "After decrypting a packet that ends with a whole block, the receiver's state depends only on the last 16 ciphertext bytes, whatever state it had before.", "quantifier": "all states and packets of whole blocks", "why_tests_cant": "quantifies over every wrong state", "anchors": ["BlockCiphers/AES/AES/AES_CFB/aes_cfb.cpp: aes_cfb_process_packet"]}
{"id": "C40", "title": "AES-CFB works in place", "statement": "Encrypting and decrypting with output buffer equal to input buffer gives the same bytes as with separate buffers.", "quantifier": "all packets of one or more blocks", "why_tests_cant": "aliasing is rarely tested", "anchors": ["BlockCiphers/AES/AES/AES_CFB/aes_cfb.cpp: aes_cfb_process_packet"]}
{"id": "C41", "title": "AEGIS-128 decryption inverts encryption and accepts", "statement": "For every key, IV, associated data and plaintext of length 0 or at least 15, decrypting the produced ciphertext with the produced tag returns 1 and the plaintext.", "quantifier": "all keys, IVs, associated data up to 2^33 bytes, plaintexts of length 0 or >= 15, all packet histories, all pairs of builds", "why_tests_cant": "unbounded inputs", "anchors": ["StreamCiphers/AEGIS/AEGIS/aegis_128.cpp: aegis_encrypt_packet", "StreamCiphers/AEGIS/AEGIS/aegis_128.cpp: aegis_decrypt_packet"]}
{"id": "C42", "title": "AEGIS-128 equals its specification", "statement": "Ciphertext and tag equal AEGIS-128 v1.1 for every key, IV, associated data and plaintext of length 0 or at least 15.", "quantifier": "all inputs as above", "why_tests_cant": "unbounded inputs", "anchors": ["StreamCiphers/AEGIS/AEGIS/aegis_128.cpp: aegis_initialize", "StreamCiphers/AEGIS/AEGIS/aegis_128.cpp: aegis_finalize", "StreamCiphers/AEGIS/AEGIS/aegis_128.cpp: aegis_encrypt_packet"]}
{"id": "C43", "title": "AEGIS-128 is memory safe for every message length", "statement": "Encryption and decryption stay inside their buffers for every message length.", "quantifier": "all message lengths", "why_tests_cant": "lengths 1..14 crash only if memory after the buffer is unmapped", "anchors": ["StreamCiphers/AEGIS/AEGIS/aegis_128.cpp: aegis_encrypt_packet", "StreamCiphers/AEGIS/AEGIS/aegis_128.cpp: aegis_decrypt_packet"]}
{"id": "C44", "title": "AEGIS-128 accepts exactly the recomputed tag and hides plaintext otherwise", "statement": "aegis_decrypt_packet returns 1 iff the supplied tag equals the tag computed from key, IV, associated data and the returned plaintext; otherwise it returns 0 and the plaintext and tag buffers are all zero.", "quantifier": "all ciphertexts, tags and associated data", "why_tests_cant": "a single wrong accepted tag cannot be found by testing", "anchors": ["StreamCiphers/AEGIS/AEGIS/aegis_128.cpp: aegis_decrypt_packet"]}
{"id": "C45", "title": "AEGIS-128 ciphertexts that are accepted were produced by encryption", "statement": "If decryption accepts (ciphertext, tag) and returns plaintext p, encrypting p with the same key, IV and associated data returns exactly that ciphertext and tag.", "quantifier": "all accepted ciphertexts", "why_tests_cant": "all inputs", "anchors": ["StreamCiphers/AEGIS/AEGIS/aegis_128.cpp: aegis_decrypt_packet", "StreamCiphers/AEGIS/AEGIS/aegis_128.cpp: aegis_encrypt_packet"]}
{"id": "C46", "title": "AEGIS-128 works in place", "statement": "Encrypting and decrypting with output equal to input gives the same result as with separate buffers.", "quantifier": "all messages of length 0 or >= 15", "why_tests_cant": "aliasing is rarely tested", "anchors": ["StreamCiphers/AEGIS/AEGIS/aegis_128.cpp: aegis_encrypt_packet", "StreamCiphers/AEGIS/AEGIS/aegis_128.cpp: aegis_decrypt_packet"]}
{"id": "C47", "title": "AEGIS-128 x86 and ARM builds equal the table build", "statement": "The three builds produce the same ciphertext, tag and decision for all inputs.", "quantifier": "all inputs", "why_tests_cant": "different machines", "anchors": ["StreamCiphers/AEGIS/AEGIS_x86/aegis_128.h", "StreamCiphers/AEGIS/AEGIS_ARM/aegis_128.h", "StreamCiphers/AEGIS/AEGIS/aegis_128.h"]}
{"id": "C48", "title": "AEGIS-128 packets are independent of history", "statement": "Encryption and decryption results depend on key, IV, data only, not on packets processed before with the same state.", "quantifier": "all histories", "why_tests_cant": "all histories", "anchors": ["StreamCiphers/AEGIS/AEGIS/aegis_128.cpp: aegis_load_key", "StreamCiphers/AEGIS/AEGIS/aegis_128.cpp: aegis_initialize"]}
{"id": "C49", "title": "DES decryption inverts encryption", "statement": "des_ecb_block with the decryption schedule inverts des_ecb_block with the encryption schedule of the same key.", "quantifier": "all 2^56 keys and 2^64 blocks", "why_tests_cant": "2^120 combinations; test may use only one direction", "anchors": ["Legacy/DES/des.cpp: des_ecb_block", "Legacy/DES/des.h: DES_ROUND"]}
{"id": "C50", "title": "DES block function is an involution under any schedule", "statement": "Applying des_ecb_block twice with the same schedule returns the original block, for every schedule contents.", "quantifier": "all schedules and blocks", "why_tests_cant": "2^64 blocks times all schedules", "anchors": ["Legacy/DES/des.cpp: des_ecb_block"]}
{"id": "C51", "title": "DES initial and final permutations are the FIPS 46-3 permutations and mutually inverse", "statement": "The bit permutations applied before and after the rounds equal FIPS IP and IP^-1 and undo each other on every block.", "quantifier": "all 64-bit blocks", "why_tests_cant": "2^64 blocks", "anchors": ["Legacy/DES/des.h: DES_IP, DES_FP"]}
{"id": "C52", "title": "DES counter mode produces a fresh key stream block for every counter", "statement": "In DES-CTR the key stream blocks of one packet are encryptions of successive counter values.", "quantifier": "all keys, IVs, packets", "why_tests_cant": "needs comparing blocks of one packet", "anchors": ["Legacy/DES/des.cpp: des_process_packet_ctr"]}
{"id": "C53", "title": "DES counter mode decryption inverts encryption", "statement": "Processing a packet twice from the same state restores it, for every length that is a multiple of 8.", "quantifier": "all keys, IVs, inputs with length a multiple of 8", "why_tests_cant": "infinite domain", "anchors": ["Legacy/DES/des.cpp: des_process_packet_ctr"]}
{"id": "C54", "title": "DES counter mode handles every packet length", "statement": "des_process_packet_ctr terminates inside its buffers for every length.", "quantifier": "all lengths", "why_tests_cant": "non-multiples of 8", "anchors": ["Legacy/DES/des.cpp: des_process_packet_ctr"]}
{"id": "C55", "title": "MD5 equals RFC 1321 for every message", "statement": "Init, Update, Final give the RFC 1321 digest for every message and every length.", "quantifier": "all messages", "why_tests_cant": "all lengths and paddings", "anchors": ["Legacy/MD5/md5.cpp: MD5Init", "Legacy/MD5/md5.cpp: MD5Update", "Legacy/MD5/md5.cpp: MD5Final", "Legacy/MD5/md5.cpp: MD5_process_packet"]}
{"id": "C56", "title": "MD5 updates may be split anywhere", "statement": "Feeding a message in any sequence of Update calls gives the same digest as one call.", "quantifier": "all ways of cutting a message", "why_tests_cant": "all cut points", "anchors": ["Legacy/MD5/md5.cpp: MD5Update"]}
{"id": "C57", "title": "MD5 Update is safe for every 32-bit length", "statement": "MD5Update terminates and stays inside the input buffer for every inputLen.", "quantifier": "all 32-bit lengths and buffer fill levels", "why_tests_cant": "needs inputs near 4 GiB", "anchors": ["Legacy/MD5/md5.cpp: MD5Update"]}
{"id": "C58", "title": "MD5Final wipes the context", "statement": "After MD5Final every byte of the context is zero.", "quantifier": "all histories", "why_tests_cant": "all histories", "anchors": ["Legacy/MD5/md5.cpp: MD5Final"]}
{"id": "C59", "title": "Joye-Libert decryption inverts encryption", "statement": "For every key satisfying the key-generation conditions, every message 0 <= m < 2^k and every blinding value coprime to N, decrypt(encrypt m) = m.", "quantifier": "all valid keys, messages, random choices", "why_tests_cant": "all primes and messages", "anchors": ["AsymmetricCryptography/Joye_libert/joye_libert.cpp: joye_libert_encrypt", "AsymmetricCryptography/Joye_libert/joye_libert.cpp: joye_libert_decrypt"]}
{"id": "C60", "title": "Joye-Libert is additively homomorphic", "statement": "The product modulo N of encryptions of m1 and m2 decrypts to (m1 + m2) mod 2^k; inverses decrypt to negation.", "quantifier": "all valid keys, messages, random choices", "why_tests_cant": "all primes and messages", "anchors": ["AsymmetricCryptography/Joye_libert/joye_libert.cpp: joye_libert_encrypt", "AsymmetricCryptography/Joye_libert/joye_libert.cpp: joye_libert_decrypt"]}
{"id": "C61", "title": "Joye-Libert encryption is always decryptable", "statement": "For every blinding value that joye_libert_encrypt may draw, decryption returns the message.", "quantifier": "all random draws the code accepts", "why_tests_cant": "the bad draws have negligible probability", "anchors": ["AsymmetricCryptography/Joye_libert/joye_libert.cpp: joye_libert_encrypt"]}
{"id": "C62", "title": "Joye-Libert keys satisfy the scheme's conditions", "statement": "Whenever key generation terminates, p, q are primes with p = 1 mod 2^k, (p-1)/2^k prime, q = 3 mod 4, N = p q and y is a quadratic non-residue modulo p and q.", "quantifier": "all random streams for which it terminates", "why_tests_cant": "random streams are unbounded", "anchors": ["AsymmetricCryptography/Joye_libert/joye_libert.cpp: joye_libert_keygen"]}
{"id": "C63", "title": "Labeled HE encrypts and decrypts", "statement": "Both forms of he_decrypt recover m mod 2^k from an encryption for every message and label stream.", "quantifier": "all keys, messages, labels", "why_tests_cant": "all inputs", "anchors": ["AsymmetricCryptography/Labeled_homomorphic_encryption/LabeledHE/labeled_he.cpp: he_encrypt", "AsymmetricCryptography/Labeled_homomorphic_encryption/LabeledHE/labeled_he.cpp: he_decrypt", "AsymmetricCryptography/Labeled_homomorphic_encryption/LabeledHE/labeled_he.cpp: he_eval_mult"]}
{"id": "C64", "title": "Labeled HE evaluates every expression of additions, subtractions, scalar multiplications and degree-2 products", "statement": "Evaluating any such expression homomorphically and decrypting gives the value of the expression on the plaintexts modulo 2^k.", "quantifier": "all expressions and plaintexts", "why_tests_cant": "unbounded expressions", "anchors": ["AsymmetricCryptography/Labeled_homomorphic_encryption/LabeledHE/labeled_he.cpp: he_eval_add", "AsymmetricCryptography/Labeled_homomorphic_encryption/LabeledHE/labeled_he.cpp: he_eval_sub", "AsymmetricCryptography/Labeled_homomorphic_encryption/LabeledHE/labeled_he.cpp: he_eval_cmult", "AsymmetricCryptography/Labeled_homomorphic_encryption/LabeledHE/labeled_he.cpp: he_eval_mult"]}
{"id": "C65", "title": "Labeled HE labels determine the blinding", "statement": "The value b of an encryption is a function of the key and the label, so decryption needs only the label.", "quantifier": "all labels", "why_tests_cant": "depends on uninitialised memory and key-stream history", "anchors": ["AsymmetricCryptography/Labeled_homomorphic_encryption/LabeledHE/labeled_he.cpp: he_encrypt"]}
{"id": "C66", "title": "muLabeledHE user keys are recoverable by the evaluator", "statement": "Decrypting the upk produced by mu_he_keygen yields the user's secret key.", "quantifier": "all user keys and message sizes", "why_tests_cant": "depends on message size below 128", "anchors": ["AsymmetricCryptography/Labeled_homomorphic_encryption/muLabeledHE/mu_labeled_he.cpp: mu_he_keygen"]}
{"id": "C67", "title": "The encrypt-then-MAC example never decrypts data with a bad tag", "statement": "In the example, plaintext is produced only if the tag validates.", "quantifier": "all ciphertexts and tags", "why_tests_cant": "depends on control flow after failure", "anchors": ["Example_AuthenticatedEncryption/example_ae.cpp: main"]}
{"id": "C68", "title": "Poly1305 key clamping equals RFC 7539", "statement": "clamp sets exactly the bits RFC 7539 requires to be zero, for every 16-byte r.", "quantifier": "all 2^128 values", "why_tests_cant": "2^128 values", "anchors": ["Authentication/Poly1305/poly1305.h: clamp"]}
{"id": "C69", "title": "SHA-256 handles every length its size parameter can express", "statement": "sha256_process_message, whose size parameter is a 64-bit unsigned integer, computes the digest for every length.", "quantifier": "all 64-bit lengths", "why_tests_cant": "messages of two gigabytes and more", "anchors": ["Authentication/HMAC-SHA-256/sha-256.cpp: sha256_process_message"]}
{"id": "C70", "title": "ChaCha processes every length its size parameter can express", "statement": "chacha_process_packet, whose size parameter is a 64-bit unsigned integer, encrypts the whole packet for every length.", "quantifier": "all 64-bit lengths", "why_tests_cant": "packets of two gigabytes and more", "anchors": ["StreamCiphers/ChaCha/chacha.cpp: chacha_process_packet"]}
{"id": "C71", "title": "byte_swap writes the swapped words to its output", "statement": "byte_swap(output, input, size) stores every 32-bit word of the input with its bytes reversed into the output and leaves the input alone.", "quantifier": "all inputs and lengths", "why_tests_cant": "all inputs; the frame condition on the input", "anchors": ["StreamCiphers/ChaCha/chacha.cpp: byte_swap"]}
{"id": "C72", "title": "Different IVs give different Sosemanuk states", "statement": "Under one key, loading two different IVs never leaves the same cipher state.", "quantifier": "all keys, all pairs of IVs", "why_tests_cant": "2^256 pairs of IVs", "anchors": ["StreamCiphers/Sosemanuk/sosemanuk.cpp: sosemanuk_load_iv"]}
{"id": "C73", "title": "Serpent keys and blocks are never confused", "statement": "Different keys of one length give different subkeys, and under one key different blocks give different states after every round.", "quantifier": "all pairs of keys and of blocks", "why_tests_cant": "all pairs", "anchors": ["StreamCiphers/Sosemanuk/serpent.cpp: serpent_key_schedule", "StreamCiphers/Sosemanuk/serpent.cpp: serpent_process_packet"]}
{"id": "C74", "title": "Serpent with 256-bit keys equals the specification", "statement": "For every 32-byte key the subkeys equal the Serpent key schedule, and the three outputs are the Serpent states after 12, 18 and 24 rounds as Sosemanuk defines them.", "quantifier": "all 32-byte keys, all 16-byte blocks", "why_tests_cant": "2^256 keys, 2^128 blocks", "anchors": ["BlockCiphers/Serpent/serpent.cpp: serpent_key_schedule", "BlockCiphers/Serpent/serpent.cpp: serpent_process_packet", "BlockCiphers/Serpent/serpent.cpp: LT"]}
{"id": "C75", "title": "A short AES-CFB packet is the truncated CFB-128 ciphertext", "statement": "Encrypting a packet shorter than a block as the first packet gives the leading bytes of the SP 800-38A CFB-128 ciphertext.", "quantifier": "all keys, IVs and packets of 1 to 15 bytes", "why_tests_cant": "the round trip still works, so only a comparison with another implementation shows it", "anchors": ["BlockCiphers/AES/AES/AES_CFB/aes_cfb.cpp: aes_cfb_process_packet"]}
{"id": "C76", "title": "AEGIS-128 processes associated data of any length", "statement": "Encryption and decryption are defined for associated data of every length a 64-bit size can express.", "quantifier": "all associated data lengths", "why_tests_cant": "needs more than 8 GiB of associated data", "anchors": ["StreamCiphers/AEGIS/AEGIS/aegis_128.cpp: aegis_process_ad"]}
{"id": "C77", "title": "The DES key schedule is the standard's", "statement": "For every key the sixteen subkeys are those of FIPS 46-3, and the decryption schedule holds them in reverse order.", "quantifier": "all 2^64 keys", "why_tests_cant": "2^64 keys", "anchors": ["Legacy/DES/des.cpp: des_key_schedule_encrypt", "Legacy/DES/des.cpp: des_key_schedule_decrypt"]}
{"id": "C78", "title": "The DES block function is FIPS 46-3 DES", "statement": "des_ecb_block under an encryption schedule computes DES encryption of the block.", "quantifier": "all keys and blocks", "why_tests_cant": "2^120 combinations", "anchors": ["Legacy/DES/des.cpp: des_ecb_block", "Legacy/DES/des.h: DES_ROUND"]}
{"id": "C79", "title": "DES parity bits are ignored", "statement": "Keys that differ only in the lowest bit of their bytes give the same schedules.", "quantifier": "all pairs of such keys", "why_tests_cant": "2^64 keys times 2^8 parities", "anchors": ["Legacy/DES/des.cpp: des_key_schedule_encrypt"]}
{"id": "C80", "title": "Every effective DES key bit matters", "statement": "Keys that differ in a bit other than a parity bit do not encrypt all blocks alike.", "quantifier": "all pairs of keys", "why_tests_cant": "quantifies over all blocks", "anchors": ["Legacy/DES/des.cpp: des_ecb_block", "Legacy/DES/des.cpp: des_key_schedule_encrypt"]}
{"id": "C81", "title": "DES electronic code book packets are processed block by block and can be undone", "statement": "des_process_packet_ecb applies the block function to every eight bytes, in place or not, and a second run with the same schedule restores the packet.", "quantifier": "all schedules and packets of whole blocks", "why_tests_cant": "infinite domain", "anchors": ["Legacy/DES/des.cpp: des_process_packet_ecb"]}
{"id": "C82", "title": "DES electronic code book mode handles every packet length", "statement": "des_process_packet_ecb terminates inside its buffers for every length.", "quantifier": "all lengths", "why_tests_cant": "non-multiples of 8", "anchors": ["Legacy/DES/des.cpp: des_process_packet_ecb"]}
{"id": "C83", "title": "Joye-Libert keys are fresh", "statement": "Separate calls of joye_libert_keygen may give different keys.", "quantifier": "all calls with the same sizes", "why_tests_cant": "a test sees one program run at a time; freshness is about all runs", "anchors": ["AsymmetricCryptography/Joye_libert/joye_libert.cpp: joye_libert_keygen"]}
{"id": "C84", "title": "Joye-Libert keys have the size asked for", "statement": "The modulus made by joye_libert_keygen has (about) keysize bits.", "quantifier": "all random streams", "why_tests_cant": "small draws are too rare to test", "anchors": ["AsymmetricCryptography/Joye_libert/joye_libert.cpp: joye_libert_keygen"]}
{"id": "C85", "title": "Joye-Libert decryption works in place", "statement": "The result variable of joye_libert_decrypt may be the ciphertext variable.", "quantifier": "all keys and ciphertexts", "why_tests_cant": "all ciphertexts", "anchors": ["AsymmetricCryptography/Joye_libert/joye_libert.cpp: joye_libert_decrypt"]}
{"id": "C86", "title": "Joye-Libert moduli have two different prime factors", "statement": "Whenever key generation returns, p and q differ.", "quantifier": "all random streams and message sizes", "why_tests_cant": "coinciding draws are too rare to test", "anchors": ["AsymmetricCryptography/Joye_libert/joye_libert.cpp: joye_libert_keygen"]}
{"id": "C87", "title": "Labeled HE blinds every bit of the message", "statement": "The component a of a ciphertext is the message minus a blinding value that ranges over the whole message space, so a does not reveal the message.", "quantifier": "all message sizes, messages and labels", "why_tests_cant": "holds at the one size of the example program; depends on the message size modulo 32", "anchors": ["AsymmetricCryptography/Labeled_homomorphic_encryption/LabeledHE/labeled_he.cpp: he_encrypt"]}
{"id": "C88", "title": "Labeled HE decrypts in place", "statement": "Both forms of he_decrypt may write the message over one of the inputs (the ciphertext, or b) and give the same result as with a separate variable.", "quantifier": "all keys, ciphertexts and blinding values", "why_tests_cant": "aliasing of arguments, all values", "anchors": ["AsymmetricCryptography/Labeled_homomorphic_encryption/LabeledHE/labeled_he.cpp: he_decrypt"]}
{"id": "C89", "title": "HMAC as the authenticated-encryption example builds it is HMAC-SHA-256", "statement": "hmac_load_key, hmac_tag_generation and hmac_tag_validation, linked with the SHA-256 of the Hash folder as the example's readme says, compute RFC 2104 HMAC for every key and non-empty message.", "quantifier": "all keys and messages", "why_tests_cant": "only some lengths go wrong", "anchors": ["Authentication/HMAC-SHA-256/hmac.cpp: hmac_load_key, hmac_tag_generation, hmac_tag_validation", "Hash/SHA/SHA-2/SHA-256/sha-256.cpp: sha256_process_message"]}
{"id": "C90", "title": "The authenticated-encryption example recovers every plaintext", "statement": "For any keys, IV and plaintexts, the example prints messages that are ciphertext || tag and IV || ciphertext || tag, accepts its own tags, and prints back the plaintexts it sealed.", "quantifier": "all keys, IVs and plaintexts", "why_tests_cant": "the program is only ever run on its two built-in strings", "anchors": ["Example_AuthenticatedEncryption/example_ae.cpp: main"]}
{"id": "C91", "title": "The authenticated-encryption example has defined behaviour", "statement": "Running the example as shipped executes no undefined operation of standard C++.", "quantifier": "the shipped program, and every choice of plaintexts in its place", "why_tests_cant": "undefined behaviour need not be visible in a run", "anchors": ["Example_AuthenticatedEncryption/example_ae.cpp: main"]}
{"id": "C92", "title": "AES-CTR repeats key stream only when nonce and block number repeat", "statement": "Under one key, the key stream block used for block i of a conversation equals the one used for block j of another conversation exactly when the two nonces are equal and i = j modulo 2^32; so one nonce serves 2^32 blocks without a repeat and no more.", "quantifier": "all keys, nonces, packet sequences of whole blocks, block numbers, and every build", "why_tests_cant": "needs the block function to be injective on all 2^128 inputs and 64 GB of data to see the first repeat", "anchors": ["BlockCiphers/AES/AES/AES_CTR/aes_ctr.cpp: aes_ctr_process_packet, aes_load_key, aes_load_iv", "BlockCiphers/AES/AES_x86/AES_CTR/aes_ctr.cpp: aes_ctr_process_packet", "BlockCiphers/AES/AES_ARM/AES_CTR/aes_ctr.cpp: aes_ctr_process_packet"]}
{"id": "C93", "title": "Colliding SHA-256 digests expose a collision of the compression function", "statement": "If two different messages get the same digest from sha256_process_message, then among the calls of the compression function made for the two messages there are two different ones with the same result; padding and chaining add no collisions of their own.", "quantifier": "all pairs of different messages up to 2^31-73 bytes", "why_tests_cant": "a padding or chaining flaw shows only on specially related messages", "anchors": ["Authentication/HMAC-SHA-256/sha-256.cpp: sha256_process_message"]}
{"id": "C94", "title": "Colliding MD5 digests expose a collision of the compression function", "statement": "If two different messages, fed in any pieces, get the same digest from md5_final, then among the calls of the compression function made for the two messages there are two different ones with the same result.", "quantifier": "all pairs of different messages below 2^61 bytes and all ways of cutting them up", "why_tests_cant": "a buffering flaw shows only on specially related pieces", "anchors": ["Legacy/MD5/md5.cpp: md5_init, md5_update, md5_final"]}
{"id": "C95", "title": "A full HMAC tag is valid for another message only through a SHA-256 collision", "statement": "A 32-byte tag made by hmac_tag_generation for one message is rejected by hmac_tag_validation for any other message under the same key, unless the two inner or the two outer hash computations contain an explicit collision of the compression function.", "quantifier": "all keys and all pairs of different non-empty messages", "why_tests_cant": "ranges over all pairs of messages", "anchors": ["Authentication/HMAC-SHA-256/hmac.cpp: hmac_load_key, hmac_tag_generation, hmac_tag_validation"]}
{"id": "C96", "title": "SHA-256 and MD5 digests can be extended", "statement": "The digest of a message, together with its length, determines the digest of the padded message followed by any chosen suffix: a plain hash over a secret prefix is no authentication code.", "quantifier": "all messages and suffixes", "why_tests_cant": "ranges over all messages and suffixes", "anchors": ["Authentication/HMAC-SHA-256/sha-256.cpp: sha256_process_message", "Legacy/MD5/md5.cpp: md5_process_packet"]}
{"id": "C97", "title": "MD5 digests tell messages apart", "statement": "Two different messages given to md5_process_packet get different digests.", "quantifier": "all pairs of messages", "why_tests_cant": "colliding messages are not found by chance", "anchors": ["Legacy/MD5/md5.cpp: md5_process_packet"]}
{"id": "C98", "title": "The stream ciphers confine damage", "statement": "If bits of packets are altered on their way, the receiver's plaintext is altered in exactly the same bits; all other packets, and the receiver's final state, are as if nothing had happened.", "quantifier": "all keys, IVs, packet sequences and alterations", "why_tests_cant": "ranges over all alterations of all packet sequences", "anchors": ["StreamCiphers/ChaCha/chacha.cpp: chacha_process_packet", "StreamCiphers/HC-128/hc128.cpp: hc128_process_packet", "StreamCiphers/Rabbit/rabbit.cpp: rabbit_process_packet", "StreamCiphers/Sosemanuk/sosemanuk.cpp: sosemanuk_process_packet", "BlockCiphers/AES/AES/AES_CTR/aes_ctr.cpp: aes_ctr_process_packet"]}
{"id": "C99", "title": "AES-CFB confines damage to the altered block and the next", "statement": "For two receptions under one key (of any ciphertexts, from any IVs), the plaintexts of a block differ in exactly the bits in which the ciphertexts of that block differ, if and only if the preceding ciphertext blocks (the IVs, for the first) are equal.", "quantifier": "all keys, IVs, pairs of packet sequences of whole blocks, block positions and builds", "why_tests_cant": "ranges over all pairs of ciphertexts; the converse needs the block function to be injective on all 2^128 inputs", "anchors": ["BlockCiphers/AES/AES/AES_CFB/aes_cfb.cpp: aes_cfb_process_packet, aes_cfb_initialize", "BlockCiphers/AES/AES_x86/AES_CFB_Carry-Over/aes_cfb.cpp: aes_cfb_process_packet", "BlockCiphers/AES/AES_ARM/AES_CFB_Carry-Over/aes_cfb.cpp: aes_cfb_process_packet"]}
{"id": "C100", "title": "The stream-cipher demonstrations encrypt and recover", "statement": "Given a text, a key and a nonce in hexadecimal, the ChaCha, HC-128 and Sosemanuk demonstration programs print the text, the hexadecimal ciphertext that the cipher's specification gives for that key and nonce, and the text again as recovered.", "quantifier": "for all texts from 1 byte up to 2^29 bytes, all keys and nonces of the cipher's size", "why_tests_cant": "the programs run one text under one key; that nothing depends on these and that no read or write leaves a buffer needs a proof over all of them", "anchors": ["StreamCiphers/ChaCha/main.cpp: main", "StreamCiphers/HC-128/main.cpp: main", "StreamCiphers/Sosemanuk/main.cpp: main"]}
{"id": "C101", "title": "The Rabbit demonstration recovers both of its texts", "statement": "The Rabbit demonstration encrypts a text, processes some other data on the sending side only, loads the IV again on both sides and encrypts a second text; what it prints as recovered is in both cases the text that was encrypted.", "quantifier": "for all keys, IVs and texts from 1 byte up to 2^29 bytes", "why_tests_cant": "with the shipped texts the program happens to print the right thing, so running it cannot show that the second recovery depends on the data", "anchors": ["StreamCiphers/Rabbit/main.cpp: main", "StreamCiphers/Rabbit/rabbit.cpp: rabbit_process_packet"]}
{"id": "C102", "title": "Hex encoding needs exactly 2n+1 bytes of output", "statement": "Encoding n bytes is defined exactly if 2n+1 bytes of the output buffer may be written, the last one for the terminating NUL, and then writes those bytes and no others.", "quantifier": "for all byte strings below 2^30 bytes, all memories and all output pointers apart from the input", "why_tests_cant": "a one-byte overflow is usually invisible when a program is run, and the buffer sizes to try are unbounded", "anchors": ["Encoders/Hex/encoder.cpp: hex_encode"]}
{"id": "C103", "title": "The SHA-256 demonstration prints the digest", "statement": "The SHA-256 demonstration prints the SHA-256 digest of its message in hexadecimal without leaving any buffer.", "quantifier": "for all messages from 1 byte up to 2^29 bytes", "why_tests_cant": "the overflow of the 64-byte buffer by the terminating NUL does not change what is printed", "anchors": ["Hash/SHA/SHA-2/SHA-256/main.cpp: main", "Encoders/Hex/encoder.cpp: hex_encode"]}
{"id": "C104", "title": "The HMAC demonstration says SUCCESS exactly for the right tag", "statement": "The HMAC demonstration prints the first 16 bytes of the HMAC-SHA-256 of its message, says that validation of that tag succeeded, and ends with SUCCESS exactly if the expected tag it was given equals those 16 bytes, otherwise with FAILURE.", "quantifier": "for all expected tags of 16 bytes, all keys and messages from 1 byte up to 2^29 bytes", "why_tests_cant": "the program compares with a single expected tag; accepting a wrong tag can only be excluded for all tags by proof", "anchors": ["Authentication/HMAC-SHA-256/main.cpp: main", "Authentication/HMAC-SHA-256/hmac.cpp: hmac_tag_generation, hmac_tag_validation"]}
{"id": "C105", "title": "The AES-CFB demonstrations recover their text", "statement": "The AES-CFB demonstrations of the three builds print the text, a ciphertext (CFB-128 for whole blocks) and the text again as recovered, without undefined behaviour.", "quantifier": "for all keys, IVs and texts from 1 byte up to 2^29 bytes, in the table, x86 and ARM builds", "why_tests_cant": "the out-of-range shift for texts of length 2 or 3 mod 4 gives some value on every processor, so a run cannot show that it is undefined", "anchors": ["BlockCiphers/AES/AES/AES_CFB/main.cpp: main", "BlockCiphers/AES/AES_x86/AES_CFB_Carry-Over/main.cpp: main", "BlockCiphers/AES/AES_ARM/AES_CFB_Carry-Over/main.cpp: main"]}
{"id": "C106", "title": "The AEGIS demonstrations recover their text", "statement": "The AEGIS-128 demonstrations of the three builds encrypt and decrypt a text, print the hexadecimal AEGIS-128 ciphertext, the text and the recovered text, and exit with 0.", "quantifier": "for all keys, IVs and texts from 1 byte up to 2^29 bytes, in all builds and from any cipher state", "why_tests_cant": "only one text is shipped, and it is long enough not to meet the length wrap-around", "anchors": ["StreamCiphers/AEGIS/AEGIS/main.cpp: main", "StreamCiphers/AEGIS/AEGIS_x86/main.cpp: main", "StreamCiphers/AEGIS/AEGIS_ARM/main.cpp: main"]}
{"id": "C107", "title": "The MD5 and Serpent demonstrations print the specified result", "statement": "The MD5 demonstration prints the MD5 digest of its message in hexadecimal; the Serpent demonstration prints in hexadecimal the 24-round Serpent block it computes for the given key and plaintext.", "quantifier": "for all messages below 2^32 bytes and all contexts with the RFC 1321 start values; all 256-bit keys and 128-bit plaintexts", "why_tests_cant": "each program checks one fixed input", "anchors": ["Legacy/MD5/main.cpp: main", "BlockCiphers/Serpent/main.cpp: main"]}
{"id": "C108", "title": "The DES demonstrations print DES ciphertext", "statement": "The DES demonstrations print in hexadecimal the DES encryption of their text under the given key, in ECB mode and in counter mode with the given nonce.", "quantifier": "for all 64-bit keys, 12-byte nonce buffers and non-empty texts of whole blocks below 2^29 bytes", "why_tests_cant": "the programs print a ciphertext but compare it with nothing", "anchors": ["Legacy/DES/main.cpp: main", "Legacy/DES/main_ctr.cpp: main"]}
{"id": "C109", "title": "The Joye-Libert demonstration prints the sum of its messages", "statement": "The demonstration generates a key, encrypts two messages, multiplies the ciphertexts modulo N, decrypts and prints the sum of the messages modulo 2^k. The only exception is when the secret p divides one of the two random numbers used: then it prints 2^k - 1 whatever the messages. It never does anything undefined.", "quantifier": "for all non-negative messages, message sizes k of at least 1 bit, key sizes and random numbers, provided GMP's primality and Legendre answers are right", "why_tests_cant": "the key and the random numbers are new on each machine, and no run can show what happens for all of them", "anchors": ["AsymmetricCryptography/Joye_libert/main.cpp: main"]}
{"id": "C110", "title": "The labeled homomorphic encryption demonstration prints the right results", "statement": "The demonstration prints its messages, the published ciphertexts, and the recovered m1, m2, m1+m2, m2-m3, m1*m2, m1*m2*m3, m1*m2+m1*m2*m3 and m1*m2*m3-m1*m2, each modulo 2^k, whatever the labels.", "quantifier": "for all messages, labels of at most k/8 bytes, message sizes k, generated keys, HC-128 keys and IVs and random numbers prime to N", "why_tests_cant": "the blinding values come from uninitialised stack bytes when a label is shorter than k/8 bytes, so a passing run shows nothing about the next one", "anchors": ["AsymmetricCryptography/Labeled_homomorphic_encryption/LabeledHE/main.cpp: main"]}
{"id": "C111", "title": "The AES-CTR self test reports the published vectors correctly", "statement": "The self test runs to its end, prints for each vector the key stream result that AES counter mode defines, and the number it reports as successful is the number of vectors whose expected ciphertext is right.", "quantifier": "for all lists of vectors with 16-byte keys, 12-byte nonces and texts of any length, and all three builds", "why_tests_cant": "a test program can hardly test itself: it prints a number, and whether this number means anything for vectors of any length is a statement about all vectors", "anchors": ["BlockCiphers/AES/AES/AES_CTR/test_vectors.cpp: main", "BlockCiphers/AES/AES_x86/AES_CTR/test_vectors.cpp: main", "BlockCiphers/AES/AES_ARM/AES_CTR/test_vectors.cpp: main"]}
{"id": "C112", "title": "The AEGIS-128 self test accepts exactly the right vectors", "statement": "The self test never rejects its own tags, prints for each vector the ciphertext and tag of AEGIS-128 and the recovered plaintext, counts exactly the vectors whose expected ciphertext and tag are AEGIS-128's, and says SUCCESS exactly if all of them are. A vector with a plaintext of 14 bytes or fewer makes the run undefined.", "quantifier": "for all lists of vectors with 16-byte keys and IVs, associated data of up to 2^33 bytes, plaintexts of 15 bytes or more (undefined: 1 to 14), and all builds", "why_tests_cant": "the four vectors shipped say nothing about whether the comparison would notice a wrong one", "anchors": ["StreamCiphers/AEGIS/AEGIS/test_vectors.cpp: main", "StreamCiphers/AEGIS/AEGIS_x86/test_vectors.cpp: main", "StreamCiphers/AEGIS/AEGIS_ARM/test_vectors.cpp: main", "StreamCiphers/AEGIS/AEGIS_x86/aegis_128.cpp: aegis_encrypt_packet", "StreamCiphers/AEGIS/AEGIS_ARM/aegis_128.cpp: aegis_encrypt_packet"]}
{"id": "C113", "title": "The ChaCha test programs print what RFC 7539 defines", "statement": "The cipher test prints the encryption of its text split after 64 bytes, and ends with an uncaught exception if the text is shorter than that. The block test prints the block function's output for the given state with counter 1, and the quarter-round test prints the word rotated by 7 bits and the state with words 2, 7, 8 and 13 mixed, in the byte order of the RFC.", "quantifier": "for all keys, nonces, texts, states, words and numbers of rounds", "why_tests_cant": "the programs print without comparing, for one input each; byte order and the split after 64 bytes matter for other inputs", "anchors": ["StreamCiphers/ChaCha/cipher_test.cpp: main", "StreamCiphers/ChaCha/block_test.cpp: main", "StreamCiphers/ChaCha/quarter_test.cpp: main", "StreamCiphers/ChaCha/chacha.cpp: test_q"]}
{"id": "C114", "title": "Different keys or IVs keep HC-128 states apart", "statement": "Two HC-128 sessions that reach the same internal state after packets of the same lengths were started with the same key and the same IV, so no two initialisations ever merge into one key stream from then on.", "quantifier": "for all pairs of keys and IVs and all sequences of packets of the same lengths", "why_tests_cant": "there are 2^256 key and IV pairs; a merging pair would not be met by chance", "anchors": ["StreamCiphers/HC-128/hc128.cpp: hc128_initialize", "StreamCiphers/HC-128/hc128.cpp: hc128_generate_keystream", "StreamCiphers/HC-128/hc128.cpp: hc128_process_packet"]}
{"id": "C115", "title": "Reusing an AEGIS IV exposes where two messages first differ, and by how much", "statement": "Two packets sealed with the same key, IV and associated data have ciphertexts that agree wherever the messages agree on whole leading blocks of 16 bytes, and the next up to 16 ciphertext bytes differ by exactly the exclusive or of the messages. The ciphertexts are equal exactly if the messages are.", "quantifier": "for all keys, IVs, associated data and pairs of messages of supported lengths, all sessions and all pairs of builds", "why_tests_cant": "a claim about all pairs of messages and session histories", "anchors": ["StreamCiphers/AEGIS/AEGIS/aegis_128.cpp: aegis_encrypt_packet", "StreamCiphers/AEGIS/AEGIS_x86/aegis_128.cpp: aegis_encrypt_packet", "StreamCiphers/AEGIS/AEGIS_ARM/aegis_128.cpp: aegis_encrypt_packet"]}
{"id": "C116", "title": "How long HMAC validation takes says nothing about the right tag", "statement": "A sender who does not know the key and sees, for the tags they send with one message, only whether each was accepted and how long the check took, learns no more about the right tag than from the answers alone; in particular the time does not depend on how much of a wrong tag is right.", "quantifier": "for all keys, messages, tag lengths up to 32 bytes, tags sent and strategies of the sender", "why_tests_cant": "tests look at the answers only; a claim about time needs the number of steps for every tag, and one about strategies quantifies over all of them", "anchors": ["Authentication/HMAC-SHA-256/hmac.cpp: hmac_tag_validation"]}
{"id": "C117", "title": "Complementing key and data complements the DES result", "statement": "Encrypting the complement of a packet with the complement of the key gives the complement of the ciphertext, and likewise for decryption: whoever has the ciphertexts of a packet and of its complement needs half the trial encryptions to find the key.", "quantifier": "for all keys, packets of any number of whole blocks, memories and buffers", "why_tests_cant": "there are 2^56 keys and 2^64 blocks, and packets of any length", "anchors": ["Legacy/DES/des.cpp: des_key_schedule_encrypt", "Legacy/DES/des.cpp: des_key_schedule_decrypt", "Legacy/DES/des.cpp: des_process_packet_ecb"]}
{"id": "C118", "title": "The public Jacobi symbol does not show the parity of a Joye-Libert message", "statement": "For at least one message bit, a ciphertext is a square modulo one of the two secret primes exactly if it is one modulo the other, namely if the message is even. So its Jacobi symbol modulo N, which anyone can compute, is always 1, and who knows one of the primes can read the lowest bit.", "quantifier": "for all valid keys, generated or not, all messages and all numbers drawn that are coprime to N", "why_tests_cant": "a claim about squares modulo all keys; no test can try all square roots", "anchors": ["AsymmetricCryptography/Joye_libert/joye_libert.cpp: joye_libert_encrypt", "AsymmetricCryptography/Joye_libert/joye_libert.cpp: joye_libert_keygen"]}
{"id": "C119", "title": "HMAC lengths outside the standard are handled safely", "statement": "A tag length that HMAC-SHA-256 does not have, negative or above 32, and a negative key length are refused or truncated without reading or writing outside the caller's buffers.", "quantifier": "for all keys, non-empty messages, buffers and int values of the length", "why_tests_cant": "the damage is a read beyond a local array, which tests do not notice, and the claim is about all lengths", "anchors": ["Authentication/HMAC-SHA-256/hmac.cpp: hmac_tag_generation", "Authentication/HMAC-SHA-256/hmac.cpp: hmac_tag_validation", "Authentication/HMAC-SHA-256/hmac.cpp: hmac_load_key"]}
{"id": "C120", "title": "Equal AES-CFB ciphertext blocks expose the next plaintext blocks, and nothing else does", "statement": "Under one key, two ciphertext blocks (counting the initialisation vectors as first blocks) in any two transmissions are equal if and only if the blocks after them differ by exactly the exclusive or of their plaintexts. A reused initialisation vector is the case of the two first blocks.", "quantifier": "for all keys, initialisation vectors, sequences of packets of whole blocks, positions and pairs of builds with the same number of rounds", "why_tests_cant": "equal blocks turn up by chance once in 2^64 blocks, and the only-if direction is about all pairs of blocks", "anchors": ["BlockCiphers/AES/AES/AES_CFB/aes_cfb.cpp: aes_cfb_process_packet", "BlockCiphers/AES/AES_x86/AES_CFB_Carry-Over/aes_cfb.cpp: aes_cfb_process_packet", "BlockCiphers/AES/AES_ARM/AES_CFB_Carry-Over/aes_cfb.cpp: aes_cfb_process_packet"]}
{"id": "C121", "title": "Rabbit does not fall into a short cycle", "statement": "Whatever key and IVs were loaded and whatever was processed before, after further packets that use at least one and fewer than 2^32 blocks of 16 key stream bytes (64 GiB) the cipher's counters differ from what they were, so the cipher is not in its earlier state. If no carry of the counter system gets lost on the way (no counter sum is exactly 2^32), the state does not come back before 2^256 - 1 blocks.", "quantifier": "for every sequence of key loads, IV loads and packets of any lengths, every split of the further data into packets, both treatments of signed overflow in the squaring", "why_tests_cant": "The claim is about 2^32 (or 2^256) steps from every one of 2^513 states; no test can run a cipher that long even once.", "anchors": ["StreamCiphers/Rabbit/rabbit.h: rabbit_counter, rabbit_next_state", "StreamCiphers/Rabbit/rabbit.cpp: rabbit_load_key, rabbit_load_iv, rabbit_process_packet"]}
{"id": "C122", "title": "Different IVs keep Rabbit states apart", "statement": "Under one key and from one starting state, two different IVs that are not each other's bitwise complement put the cipher into different states, and the states stay different after equally many blocks of key stream, as long as no carry of the counter system gets lost (no counter sum is exactly 2^32).", "quantifier": "for every reachable state, every two such IVs, every number of blocks and every split of them into packets", "why_tests_cant": "There are 2^127 pairs of IVs for each of 2^128 keys and each number of blocks; a collision of internal states cannot be found or excluded by sampling.", "anchors": ["StreamCiphers/Rabbit/rabbit.cpp: rabbit_load_iv, rabbit_process_packet", "StreamCiphers/Rabbit/rabbit.h: rabbit_counter"]}
{"id": "C123", "title": "Sosemanuk does not fall into a short cycle", "statement": "After a key and an IV have been loaded and any packets processed, unless the shift register is all zero, further packets bring the shift register back to its contents exactly when the number of 16-byte key stream blocks they use is a multiple of 2^320 - 1; so the cipher is never back in an earlier state within 2^320 - 2 blocks. An all-zero shift register stays all zero.", "quantifier": "for every key of up to 32 bytes, every IV, every sequence of packets before and every sequence of packets in between", "why_tests_cant": "The claim is about 2^320 - 1 steps from each of 2^320 register contents; it needs the order of the feedback polynomial over GF(2^32), not observation.", "anchors": ["StreamCiphers/Sosemanuk/sosemanuk.h: sosemanuk_lfsr_update", "StreamCiphers/Sosemanuk/sosemanuk.cpp: sosemanuk_process_packet, sosemanuk_load_iv"]}
{"id": "C124", "title": "Different IVs keep Sosemanuk states apart", "statement": "Under one key, after loading two different IVs and then using equally many key stream blocks in packets of any lengths, the two cipher states differ (already in the shift register).", "quantifier": "for every key of up to 32 bytes, every two different IVs, every number of blocks and every split of them into packets", "why_tests_cant": "2^255 pairs of IVs for each of 2^256 keys and each number of blocks; a meeting of states cannot be found or excluded by sampling.", "anchors": ["StreamCiphers/Sosemanuk/sosemanuk.cpp: sosemanuk_load_iv, sosemanuk_process_packet", "StreamCiphers/Sosemanuk/sosemanuk.h: sosemanuk_lfsr_update"]}
{"id": "C125", "title": "Sosemanuk states that differ stay different", "statement": "Processing a packet never takes two different cipher states to the same state, as in the specification, where each step can be undone: no part of the 384-bit state set up from key and IV is lost.", "quantifier": "for all pairs of states and all packets", "why_tests_cant": "2^767 pairs of states; tests with known answers check the output for a few keys and not how much of the state it depends on.", "anchors": ["StreamCiphers/Sosemanuk/sosemanuk.h: sosemanuk_fsm_update, mux, Trans", "StreamCiphers/Sosemanuk/sosemanuk.cpp: sosemanuk_process_packet"]}
{"id": "C126", "title": "HMAC tag generation leaves no key material in released memory", "statement": "The memory that tag generation obtains and gives back to the heap does not depend on the key when it is given back.", "quantifier": "for every key, message, tag length and heap layout", "why_tests_cant": "Tests see tags and caller buffers, never the contents of released memory; independence from the key is a statement about all pairs of keys.", "anchors": ["Authentication/HMAC-SHA-256/hmac.cpp: hmac_tag_generation"]}
{"id": "C127", "title": "ChaCha leaves no key stream in released memory", "statement": "The memory that packet processing obtains and gives back to the heap does not depend on the key when it is given back.", "quantifier": "for every key, nonce, packet and heap layout", "why_tests_cant": "Tests see the output buffer, never the contents of released memory; independence from the key is a statement about all pairs of keys.", "anchors": ["StreamCiphers/ChaCha/chacha.cpp: chacha_process_packet"]}
{"id": "C128", "title": "An AEGIS-128 ciphertext and tag are accepted under one key only", "statement": "A ciphertext and tag accepted under one key are not accepted under another key, whatever IV and associated data accompany them.", "quantifier": "for all pairs of keys, IVs, associated data, messages, and all three builds", "why_tests_cant": "Finding a second key by trial is infeasible; the question is whether one exists and can be constructed for every key pair.", "anchors": ["StreamCiphers/AEGIS/AEGIS/aegis_128.cpp: aegis_decrypt_packet", "StreamCiphers/AEGIS/AEGIS_x86/aegis_128.cpp: aegis_decrypt_packet", "StreamCiphers/AEGIS/AEGIS_ARM/aegis_128.cpp: aegis_decrypt_packet"]}
{"id": "C129", "title": "In the first section of the AE example a message with a valid tag is recovered whatever IV the receiver starts from", "statement": "The example says that no IV is needed with a self-synchronising cipher: a receiver with the right keys who accepts the tag recovers the plaintext, whatever IV it initialised the cipher with.", "quantifier": "for all keys, IVs of sender and receiver, and plaintexts of whole blocks", "why_tests_cant": "The example uses one all-zero IV on both sides, so no run of it shows what another IV does.", "anchors": ["Example_AuthenticatedEncryption/example_ae.cpp: main"]}
{"id": "C130", "title": "Labeled HE: a message known under one label says nothing about messages under other labels", "statement": "When each label is encrypted from the initial key stream, as decryption needs, the public components and one known message do not determine another message.", "quantifier": "for all keys, pairs of labels that fill the label length, messages and random choices", "why_tests_cant": "Every encryption decrypts correctly; that the public values of two labels are related is a statement about all keys at once.", "anchors": ["AsymmetricCryptography/Labeled_homomorphic_encryption/LabeledHE/labeled_he.cpp: he_encrypt"]}
{"id": "C131", "title": "Messages of one section of the AE example are refused in the other", "statement": "A message that the sender of one section made is not accepted by the receiver of the other section, which uses another cipher and another message layout.", "quantifier": "for all keys shared by the sections, IVs and plaintexts of at least 16 bytes for which both sections are defined", "why_tests_cant": "The example gives each receiver its own message only; that every message of the other kind is accepted is a statement about all keys and plaintexts.", "anchors": ["Example_AuthenticatedEncryption/example_ae.cpp: main"]}
{"id": "C132", "title": "AEGIS-128 compares the whole tag however much of it is wrong", "statement": "Decryption makes the same number of comparisons for every tag, so a sender who sees the answers and the work spent on comparing and clearing learns no more about the right tag than from the answers alone.", "quantifier": "for all keys, IVs, associated data, ciphertexts of supported length, tags sent, strategies of the sender, and all three builds", "why_tests_cant": "Tests look at answers only; a claim about the work needs every tag, and one about strategies quantifies over all of them.", "anchors": ["StreamCiphers/AEGIS/AEGIS/aegis_128.cpp: aegis_decrypt_packet", "StreamCiphers/AEGIS/AEGIS_x86/aegis_128.cpp: aegis_decrypt_packet", "StreamCiphers/AEGIS/AEGIS_ARM/aegis_128.cpp: aegis_decrypt_packet"]}
{"id": "C133", "title": "Hex conversion takes every size its parameter can express", "statement": "hex_encode and hex_decode have an int size; every value of it is handled without undefined behaviour if the buffers are large enough (a negative one as nothing to do).", "quantifier": "for all values of size, memories and buffers", "why_tests_cant": "Sizes near 2^30 need gigabytes, and that no memory at all makes a size work is a statement about all of them.", "anchors": ["Encoders/Hex/encoder.cpp: hex_encode, hex_decode"]}
{"id": "C134", "title": "Labeled HE products can be written over an operand", "statement": "As with the numbers of the underlying library and with the sums, differences and constant multiples of this one, the variable that receives a product may be a part of one of the two ciphertexts multiplied; the result decrypts to the product of the messages all the same.", "quantifier": "for all valid keys, messages, blinding values, encryptions, and random numbers coprime to the modulus", "why_tests_cant": "The demonstration gives each result a variable of its own; what comes out otherwise depends on the key, the messages and the blinding values.", "anchors": ["AsymmetricCryptography/Labeled_homomorphic_encryption/LabeledHE/labeled_he.cpp: he_eval_mult, he_decrypt", "AsymmetricCryptography/Labeled_homomorphic_encryption/muLabeledHE/mu_labeled_he.cpp: mu_he_eval_mult"]}
{"id": "C135", "title": "An AES-CFB state carries the last 16 ciphertext bytes from packet to packet", "statement": "After any sequence of packets, the next one is encrypted as the continuation of one CFB-128 stream: its first block is the plaintext xor the enciphered last 16 bytes of the initialisation vector followed by all ciphertext so far.", "quantifier": "for all keys, initialisation vectors, builds and sequences of packets of any defined length", "why_tests_cant": "Sender and receiver of the same build stay in step whatever is carried, so round trips work; only the contents of the state after every length of packet decides.", "anchors": ["BlockCiphers/AES/AES/AES_CFB/aes_cfb.cpp: aes_cfb_process_packet, partial_state_update", "BlockCiphers/AES/AES_x86/AES_CFB_Carry-Over/aes_cfb.cpp: aes_cfb_process_packet, partial_state_update", "BlockCiphers/AES/AES_ARM/AES_CFB_Carry-Over/aes_cfb.cpp: aes_cfb_process_packet, partial_state_update"]}
{"id": "C136", "title": "Which table entries AES reads does not depend on the key", "statement": "Loading a key and encrypting with it reads the same entries of the AES tables, in the same order, whatever the key: nobody who shares the processor's cache learns anything about the key from the accesses.", "quantifier": "for all pairs of keys, nonces, packet sizes and buffers, and every build", "why_tests_cant": "A test sees outputs, not addresses; that accesses tell keys apart, and how much of the key they give away, is a statement about all pairs of keys.", "anchors": ["BlockCiphers/AES/AES/AES_CTR/aes_ctr.cpp: aes_load_key, aes_encrypt, aes_ctr_process_packet", "BlockCiphers/AES/AES/AES_CTR/aes_ctr.h: round, final_round", "BlockCiphers/AES/AES/AES_CFB/aes_cfb.cpp: aes_cfb_initialize, aes_encrypt", "BlockCiphers/AES/AES_x86/AES_CTR/aes_ctr.cpp: aes_key_expansion", "BlockCiphers/AES/AES_ARM/AES_CTR/aes_ctr.cpp: aes_key_expansion"]}
{"id": "C137", "title": "Which table entries AEGIS-128 reads does not depend on the key", "statement": "Starting a packet, to encrypt or to decrypt, reads the same entries of the AES tables, in the same order, whatever the key: nobody who shares the processor's cache learns anything about the key from the accesses.", "quantifier": "for all pairs of keys and of IVs, and every build", "why_tests_cant": "A test sees outputs, not addresses; what the accesses give away is a statement about all pairs of keys and IVs.", "anchors": ["StreamCiphers/AEGIS/AEGIS/aegis_128.h: round, aegis_state_update", "StreamCiphers/AEGIS/AEGIS/aegis_128.cpp: aegis_load_key, aegis_initialize", "StreamCiphers/AEGIS/AEGIS_x86/aegis_128.h: aegis_state_update", "StreamCiphers/AEGIS/AEGIS_ARM/aegis_128.h: aegis_state_update"]}
{"id": "C138", "title": "Which S-box entries DES reads does not depend on the key", "statement": "Encrypting or decrypting a block with DES reads the same entries of the S-boxes, in the same order, whatever the key: nobody who shares the processor's cache learns anything about the key from the accesses.", "quantifier": "for all pairs of keys, all blocks and all buffers", "why_tests_cant": "A test sees outputs, not addresses; how much of the key the accesses give away, and what can be done with it, is a statement about all pairs of keys and all blocks.", "anchors": ["Legacy/DES/des.h: DES_ROUND", "Legacy/DES/des.cpp: des_ecb_block, des_key_schedule_encrypt, des_key_schedule_decrypt"]}
{"id": "C139", "title": "A newly loaded key is used from the next packet on", "statement": "Once a new key has been loaded into a cipher state, the packets that follow are encrypted under the new key: a party that has only the old key can no longer read them, whether or not a new IV is loaded as well.", "quantifier": "for all old and new keys, IVs, packets sent before and after, and buffers", "why_tests_cant": "A test that loads key and IV together never separates them; that a key load changes nothing (or everything) for all later packets is a statement about all keys and all packet sequences.", "anchors": ["StreamCiphers/Sosemanuk/sosemanuk.cpp: sosemanuk_load_key, sosemanuk_load_iv, sosemanuk_process_packet", "BlockCiphers/AES/AES/AES_CTR/aes_ctr.cpp: aes_load_key, aes_load_iv, aes_ctr_process_packet"]}
{"id": "C140", "title": "Key and IV may be loaded in either order", "statement": "For the ciphers whose key and IV are loaded by two separate calls (AES-CTR, Rabbit, Sosemanuk), it does not matter which is loaded first: the packets that follow come out the same.", "quantifier": "for all keys, IVs, earlier contents of the state, packets and buffers", "why_tests_cant": "Each order runs without complaint and gives plausible ciphertext; that two orders agree is a statement about all keys, IVs and earlier states.", "anchors": ["BlockCiphers/AES/AES/AES_CTR/aes_ctr.cpp: aes_load_key, aes_load_iv", "StreamCiphers/Rabbit/rabbit.cpp: rabbit_load_key, rabbit_load_iv", "StreamCiphers/Sosemanuk/sosemanuk.cpp: sosemanuk_load_key, sosemanuk_load_iv"]}
{"id": "C141", "title": "Which table entries Sosemanuk reads does not depend on the key", "statement": "Encrypting a packet with Sosemanuk reads the same entries of its two tables, in the same order, whatever the key and the IV: nobody who shares the processor's cache learns anything about the state, and so about later packets, from the accesses.", "quantifier": "for all pairs of keys and IVs, all states, packets and buffers", "why_tests_cant": "A test sees outputs, not addresses; that the accesses of one packet pin down the state is a statement about all pairs of states.", "anchors": ["StreamCiphers/Sosemanuk/sosemanuk.h: sosemanuk_lfsr_update, alpha, inv_alpha", "StreamCiphers/Sosemanuk/sosemanuk.cpp: sosemanuk_process_packet"]}
{"id": "C142", "title": "Ciphertexts of small HC-128 packets rule out no messages", "statement": "An application that sends many packets of a few bytes under one HC-128 key and IV hides them as long as they are together shorter than the key: whoever sees the ciphertexts but not the key cannot exclude any messages of these lengths.", "quantifier": "for all keys and IVs and all sequences of packets of at most twelve bytes, at the start of a session or after any other packets", "why_tests_cant": "It is about all keys at once: a test runs one key and sees ciphertexts that look random, and the relation between packets only shows in an argument about every state.", "anchors": ["StreamCiphers/HC-128/hc128.cpp: hc128_generate_keystream, hc128_process_packet, hc128_initialize"]}
{"id": "C143", "title": "Which table entries HC-128 reads does not depend on the key", "statement": "Encrypting a packet with HC-128 reads the same places of its two tables, in the same order, whatever the key and the IV: nobody who shares the processor's cache learns anything about the tables from the accesses.", "quantifier": "for all pairs of keys and IVs, all packets sent before, all packets and buffers", "why_tests_cant": "A test sees outputs, not addresses; what the accesses of one packet say about the state is a statement about all pairs of states.", "anchors": ["StreamCiphers/HC-128/hc128.h: h1, h2", "StreamCiphers/HC-128/hc128.cpp: hc128_generate_keystream, hc128_process_packet"]}
{"id": "C144", "title": "Only weak DES keys leave a large set of easily found blocks unencrypted", "statement": "With a DES key that is not weak there is no recipe that turns any 32 bits into a block which encryption leaves as it is; in particular data made of such blocks is not sent in the clear.", "quantifier": "for all keys, all choices of 32 bits per block, all packets made of such blocks, all memories and placements of the buffers", "why_tests_cant": "A test tries a few of 2^64 blocks; unchanged blocks are one in 2^32, so trying blocks at random does not find them, and that every key has exactly 2^32 of them is a statement about all keys and blocks.", "anchors": ["Legacy/DES/des.h: DES_ROUND", "Legacy/DES/des.cpp: des_ecb_block, des_process_packet_ecb, des_key_schedule_encrypt"]}
