{
 "claims": [
  {
   "property": "C01",
   "status": "proved",
   "theorems": [
    "C01_hex_encode_then_decode"
   ],
   "note": "Sizes below 2^30 (the int index would overflow beyond)."
  },
  {
   "property": "C02",
   "status": "proved",
   "theorems": [
    "C02_hex_decode_then_encode",
    "C02_hex_decode_odd"
   ],
   "note": ""
  },
  {
   "property": "C03",
   "status": "partial",
   "theorems": [
    "C03_hex_lowercase_refuted",
    "C03_hex_case_exact",
    "C03_hex_never_rejects",
    "C03_hex_accepts_non_digits_refuted"
   ],
   "note": "REFUTED: lower-case digits decode wrongly. The exact extent (right iff all digits upper-case) is proved."
  },
  {
   "property": "C04",
   "status": "proved",
   "theorems": [
    "C04_sha256_is_fips"
   ],
   "note": "Messages of at most 2^31-73 bytes (longer ones: C69). SHA-256 constants of the specification are derived from prime roots."
  },
  {
   "property": "C05",
   "status": "partial",
   "theorems": [
    "C05_sha256_hash_folder_refuted",
    "C05_sha256_hash_folder_exact"
   ],
   "note": "REFUTED: the Hash folder copy writes outside its buffer when size = 63 mod 64; exact extent proved."
  },
  {
   "property": "C06",
   "status": "proved",
   "theorems": [
    "C06_sha256_copies_agree",
    "C05_sha256_hash_folder_exact"
   ],
   "note": ""
  },
  {
   "property": "C07",
   "status": "proved",
   "theorems": [
    "C07_hmac_generation_is_rfc2104"
   ],
   "note": ""
  },
  {
   "property": "C08",
   "status": "proved",
   "theorems": [
    "C08_hmac_validation_exact"
   ],
   "note": ""
  },
  {
   "property": "C09",
   "status": "partial",
   "theorems": [
    "C09_hmac_empty_message_refuted",
    "C09_hmac_empty_message_exact"
   ],
   "note": "REFUTED: no tag is written for an empty message and validation reads an uninitialised buffer."
  },
  {
   "property": "C10",
   "status": "proved",
   "theorems": [
    "C10_hmac_key_normalisation",
    "C10_hmac_equivalent_keys"
   ],
   "note": ""
  },
  {
   "property": "C11",
   "status": "proved",
   "theorems": [
    "C11_chacha_is_rfc7539"
   ],
   "note": "All round counts; packets below 2^31 bytes (longer: C70)."
  },
  {
   "property": "C12",
   "status": "proved",
   "theorems": [
    "C12_chacha_round_trip"
   ],
   "note": ""
  },
  {
   "property": "C13",
   "status": "proved",
   "theorems": [
    "C13_chacha_history_independent",
    "C13_chacha_keystream_reused"
   ],
   "note": ""
  },
  {
   "property": "C14",
   "status": "proved",
   "theorems": [
    "C14_chacha_block_is_rfc7539",
    "C14_chacha_rounds_permute"
   ],
   "note": ""
  },
  {
   "property": "C15",
   "status": "proved",
   "theorems": [
    "C15_hc128_is_estream"
   ],
   "note": "Packets up to 4(2^31-1) bytes, the range of the generator's int index."
  },
  {
   "property": "C16",
   "status": "proved",
   "theorems": [
    "C16_hc128_synchronised"
   ],
   "note": ""
  },
  {
   "property": "C17",
   "status": "partial",
   "theorems": [
    "C17_hc128_concatenation_refuted",
    "C17_hc128_concatenation_4096",
    "C17_hc128_packet_exact"
   ],
   "note": "REFUTED: the generator index restarts at 0 in every call. Proved for first packets whose length is a multiple of 4096; exact behaviour of the following packet proved."
  },
  {
   "property": "C18",
   "status": "proved",
   "theorems": [
    "C18_rabbit_synchronised",
    "C18_rabbit_synchronised_strict"
   ],
   "note": "Wrapping model: unconditional. Standard C++ model: whenever the sender's call is defined."
  },
  {
   "property": "C19",
   "status": "partial",
   "theorems": [
    "C19_rabbit_is_rfc4503_refuted"
   ],
   "note": "REFUTED: a counter sum of exactly 2^32 loses the carry. C20 gives the exact extent."
  },
  {
   "property": "C20",
   "status": "proved",
   "theorems": [
    "C20_rabbit_step_exact",
    "C20_rabbit_is_rfc4503_when_clean",
    "C20_rabbit_is_rfc4503_when_clean_no_iv"
   ],
   "note": ""
  },
  {
   "property": "C21",
   "status": "partial",
   "theorems": [
    "C21_rabbit_iv_forgets_history_refuted",
    "C21_rabbit_only_carry_survives"
   ],
   "note": "REFUTED: the carry bit survives rabbit_load_iv. Proved: nothing else does."
  },
  {
   "property": "C22",
   "status": "proved",
   "theorems": [
    "C22_rabbit_concatenation"
   ],
   "note": ""
  },
  {
   "property": "C23",
   "status": "partial",
   "theorems": [
    "C23_rabbit_no_ub_refuted",
    "C23_rabbit_ub_exact",
    "C23_rabbit_wrapping_total",
    "C23_rabbit_strict_refines_wrapping"
   ],
   "note": "REFUTED: signed 64-bit overflow for the zero key. Exact condition, totality with wrapping and agreement proved."
  },
  {
   "property": "C24",
   "status": "proved",
   "theorems": [
    "C24_serpent_sboxes",
    "C24_sbox_columns"
   ],
   "note": ""
  },
  {
   "property": "C25",
   "status": "partial",
   "theorems": [
    "C25_serpent_key_schedule_refuted",
    "C25_serpent_key_schedule_exact",
    "C25_serpent_short_keys_wrong",
    "C25_serpent_long_key"
   ],
   "note": "REFUTED: keys shorter than 32 bytes are padded with 0x80 instead of 0x01, so the subkeys are wrong for every such key (proved for all of them). Exact schedule proved; C74 is the 32-byte case."
  },
  {
   "property": "C26",
   "status": "partial",
   "theorems": [
    "C26_serpent_safe_refuted",
    "C26_serpent_safe_exact"
   ],
   "note": "REFUTED: more than one block overflows a local array. Proved: exactly the sizes 0 and 16 are safe."
  },
  {
   "property": "C27",
   "status": "proved",
   "theorems": [
    "C27_sosemanuk_synchronised"
   ],
   "note": ""
  },
  {
   "property": "C28",
   "status": "partial",
   "theorems": [
    "C28_sosemanuk_concatenation_refuted",
    "C28_sosemanuk_packet_exact",
    "C28_sosemanuk_split_skips_block"
   ],
   "note": "REFUTED: every packet takes one block of key stream more than it needs when its length is a multiple of 16. Exact behaviour proved."
  },
  {
   "property": "C29",
   "status": "partial",
   "theorems": [
    "C29_sosemanuk_is_estream_refuted",
    "C29_sosemanuk_fsm_refuted",
    "C29_sosemanuk_exact"
   ],
   "note": "REFUTED: two deviations in the FSM and the key padding. The exact key stream is proved for all inputs."
  },
  {
   "property": "C30",
   "status": "proved",
   "theorems": [
    "C30_sosemanuk_lfsr",
    "C30_alpha_inverse",
    "C30_lfsr_reversible"
   ],
   "note": ""
  },
  {
   "property": "C31",
   "status": "proved",
   "theorems": [
    "C31_aes_is_fips197",
    "C31_aes_cfb_is_fips197"
   ],
   "note": "S-box, round constants and field arithmetic of the specification are computed independently of the tables."
  },
  {
   "property": "C32",
   "status": "proved",
   "theorems": [
    "C32_aes_builds_agree",
    "C32_aes_ctr_packets_agree"
   ],
   "note": "The AESENC/AESE instruction semantics are taken from the vendor manuals (AesModel)."
  },
  {
   "property": "C33",
   "status": "proved",
   "theorems": [
    "C33_aes_ctr_is_counter_mode",
    "C33_aes_ctr_continues_across_packets"
   ],
   "note": "For packets that are not whole blocks the read of an uninitialised pointer (value unused) is assumed harmless; whole-block packets need no such assumption."
  },
  {
   "property": "C34",
   "status": "partial",
   "theorems": [
    "C34_aes_ctr_every_length_refuted",
    "C34_aes_ctr_follows_counter_mode_refuted",
    "C34_aes_ctr_undefined_exactly",
    "C34_aes_ctr_odd_byte"
   ],
   "note": "REFUTED: shifts by 32 and 40 and a read of an uninitialised pointer; the exact set of bad lengths is proved."
  },
  {
   "property": "C35",
   "status": "proved",
   "theorems": [
    "C35_aes_ctr_round_trip"
   ],
   "note": "Lengths 0/1 mod 4, and every length where the out-of-range shift has some fixed result."
  },
  {
   "property": "C36",
   "status": "proved",
   "theorems": [
    "C36_aes_cfb_round_trip",
    "C36_aes_cfb_undefined_exactly"
   ],
   "note": "Receiver's buffers separate (in place: C40)."
  },
  {
   "property": "C37",
   "status": "proved",
   "theorems": [
    "C37_aes_cfb_is_cfb128"
   ],
   "note": ""
  },
  {
   "property": "C38",
   "status": "partial",
   "theorems": [
    "C38_aes_cfb_x86_to_table_refuted",
    "C38_aes_cfb_builds_interoperate"
   ],
   "note": "REFUTED for x86 against table or ARM after a partial packet; proved for table/ARM always and for all pairs when the packets before the last are whole blocks."
  },
  {
   "property": "C39",
   "status": "proved",
   "theorems": [
    "C39_aes_cfb_resynchronises",
    "C39_aes_cfb_receivers_converge"
   ],
   "note": ""
  },
  {
   "property": "C40",
   "status": "partial",
   "theorems": [
    "C40_aes_cfb_encrypts_in_place",
    "C40_aes_cfb_decrypts_in_place_refuted",
    "C40_aes_cfb_decrypt_in_place_is_encrypt"
   ],
   "note": "REFUTED for decryption: in place it feeds back the plaintext, that is, it encrypts. Encryption in place is proved."
  },
  {
   "property": "C41",
   "status": "proved",
   "theorems": [
    "C41_aegis_round_trip"
   ],
   "note": ""
  },
  {
   "property": "C42",
   "status": "proved",
   "theorems": [
    "C42_aegis_encrypt_is_aegis128",
    "C42_aegis_decrypt_is_aegis128"
   ],
   "note": "Output buffer separate from the plaintext for encryption; see C46. Associated data up to 2^33 bytes; see C76."
  },
  {
   "property": "C43",
   "status": "partial",
   "theorems": [
    "C43_aegis_short_messages_refuted",
    "C43_aegis_1_to_14_always_undefined",
    "C43_aegis_other_lengths_safe"
   ],
   "note": "REFUTED: every message of 1 to 14 bytes runs off the buffers (msglen-15 wraps); proved safe for length 0 and 15 or more."
  },
  {
   "property": "C44",
   "status": "proved",
   "theorems": [
    "C44_aegis_accepts_only_the_tag"
   ],
   "note": ""
  },
  {
   "property": "C45",
   "status": "proved",
   "theorems": [
    "C45_aegis_accepted_was_encrypted"
   ],
   "note": ""
  },
  {
   "property": "C46",
   "status": "partial",
   "theorems": [
    "C46_aegis_decrypt_in_place",
    "C46_aegis_encrypt_in_place_refuted",
    "C46_aegis_encrypt_one_block_in_place_rejected",
    "C46_aegis_encrypt_in_place_absorbs_ciphertext",
    "C46_aegis_encrypt_in_place_one_block"
   ],
   "note": "REFUTED for encryption of 16 bytes or more: the state absorbs the ciphertext. Proved for decryption and for encryption of 0 or 15 bytes; for every other length the ciphertext and the tag produced are given exactly."
  },
  {
   "property": "C47",
   "status": "proved",
   "theorems": [
    "C47_aegis_builds_agree"
   ],
   "note": ""
  },
  {
   "property": "C48",
   "status": "proved",
   "theorems": [
    "C48_aegis_independent_of_history"
   ],
   "note": ""
  },
  {
   "property": "C49",
   "status": "partial",
   "theorems": [
    "C49_des_decrypt_inverts_refuted",
    "C49_des_decrypt_after_encrypt",
    "C49_des_decrypt_inverts_if_subkeys_agree"
   ],
   "note": "REFUTED: all rounds use the schedule's first subkey, so decryption uses another subkey than encryption. Exact result proved for all keys and blocks; it inverts where the first and last subkeys agree."
  },
  {
   "property": "C50",
   "status": "proved",
   "theorems": [
    "C50_des_block_involution"
   ],
   "note": ""
  },
  {
   "property": "C51",
   "status": "proved",
   "theorems": [
    "C51_des_initial_permutation",
    "C51_des_final_permutation",
    "C51_des_permutations_undo"
   ],
   "note": ""
  },
  {
   "property": "C52",
   "status": "partial",
   "theorems": [
    "C52_des_ctr_fresh_keystream_refuted",
    "C52_des_ctr_keystream_constant",
    "C52_des_ctr_ignores_nonce_tail"
   ],
   "note": "REFUTED: the counter word never reaches the block function, so all key stream blocks of a packet are equal. Exact key stream proved."
  },
  {
   "property": "C53",
   "status": "proved",
   "theorems": [
    "C53_des_ctr_round_trip"
   ],
   "note": ""
  },
  {
   "property": "C54",
   "status": "partial",
   "theorems": [
    "C54_des_ctr_every_length_refuted",
    "C54_des_ctr_partial_block_undefined",
    "C54_des_ctr_whole_blocks_inside"
   ],
   "note": "REFUTED: every length that is not a multiple of 8 runs off the buffers; proved safe for all multiples of 8."
  },
  {
   "property": "C55",
   "status": "proved",
   "theorems": [
    "C55_md5_packet_is_rfc1321",
    "C55_md5_is_rfc1321"
   ],
   "note": "Any total length in pieces; single packets below 2^32 bytes. The sine table of the specification is computed."
  },
  {
   "property": "C56",
   "status": "proved",
   "theorems": [
    "C56_md5_pieces",
    "C56_md5_ordinary_pieces",
    "C55_md5_is_rfc1321"
   ],
   "note": "For every cut the calls of which return (C57); pieces below 2^32-63 bytes always do."
  },
  {
   "property": "C57",
   "status": "partial",
   "theorems": [
    "C57_md5_update_every_length_refuted",
    "C57_md5_update_exact"
   ],
   "note": "REFUTED: i + 63 wraps, so after a partial block an input reaching 2^32 bytes loops for ever and runs off the buffer. The exact set of good calls is proved."
  },
  {
   "property": "C58",
   "status": "proved",
   "theorems": [
    "C58_md5_final_wipes",
    "C58_md5_final_returns"
   ],
   "note": ""
  },
  {
   "property": "C59",
   "status": "proved",
   "theorems": [
    "C59_joye_libert_round_trip",
    "C59_joye_libert_decrypts_message",
    "C59_joye_libert_encrypt_waits"
   ],
   "note": "For every integer message (negative ones too), modulo 2^k; needs only that p does not divide the number drawn."
  },
  {
   "property": "C60",
   "status": "proved",
   "theorems": [
    "C60_joye_libert_product_adds",
    "C60_joye_libert_inverse_negates",
    "C60_joye_libert_power_multiplies",
    "C60_joye_libert_decrypts_all",
    "C60_joye_libert_encryption_not_divided"
   ],
   "note": "For arbitrary ciphertexts that p does not divide, not only fresh encryptions."
  },
  {
   "property": "C61",
   "status": "partial",
   "theorems": [
    "C61_joye_libert_always_decryptable_refuted",
    "C61_joye_libert_every_draw"
   ],
   "note": "REFUTED: a drawn multiple of p decrypts to 2^k - 1; exact for every draw."
  },
  {
   "property": "C62",
   "status": "proved",
   "theorems": [
    "C62_joye_libert_keygen_valid",
    "C62_joye_libert_keygen_defined",
    "C62_joye_libert_generated_key_works"
   ],
   "note": "mpz_probab_prime_p and mpz_legendre are parameters, taken to be right when they say prime and -1."
  },
  {
   "property": "C63",
   "status": "partial",
   "theorems": [
    "C63_labeled_he_round_trip_refuted",
    "C63_labeled_he_round_trip",
    "C63_labeled_he_short_label_undefined",
    "C63_labeled_he_long_label_undefined"
   ],
   "note": "REFUTED: the array for the label is not initialised, so a label shorter than k/8 bytes (main.cpp's are) leaves indeterminate bytes that are used, and a longer one overflows. Proved for all keys, messages, labels of at most k/8 bytes when the stack holds bytes; products are C64."
  },
  {
   "property": "C64",
   "status": "proved",
   "theorems": [
    "C64_labeled_he_evaluates"
   ],
   "note": "Programs of any length over both kinds of ciphertext, operands and results may coincide, triple products included. Labels fit, the stack holds bytes, the numbers drawn are coprime to N (see C61, C63)."
  },
  {
   "property": "C65",
   "status": "partial",
   "theorems": [
    "C65_labeled_he_label_determines_b_refuted",
    "C65_labeled_he_blinding",
    "C65_labeled_he_full_label"
   ],
   "note": "REFUTED: b depends on the bytes on the stack and on the labels before. Exact value proved; it depends on key, IV and label only for a fresh key stream and a label of exactly k/8 bytes."
  },
  {
   "property": "C66",
   "status": "partial",
   "theorems": [
    "C66_mu_he_user_key_refuted",
    "C66_mu_he_user_key"
   ],
   "note": "REFUTED below 128 bits; upk decrypts to usk mod 2^k, which is usk from 128 bits on."
  },
  {
   "property": "C67",
   "status": "partial",
   "theorems": [
    "C67_ae_never_decrypts_bad_tag_refuted",
    "C67_ae_section1_decrypts_only_valid",
    "C67_ae_section2_exact"
   ],
   "note": "REFUTED: section 2 prints 'Invalid tag!' and goes on to decrypt. Section 1 is proved to decrypt only valid messages."
  },
  {
   "property": "C68",
   "status": "proved",
   "theorems": [
    "C68_clamp_is_rfc7539"
   ],
   "note": "Only clamp is modelled; the rest of Poly1305 does not compile."
  },
  {
   "property": "C69",
   "status": "partial",
   "theorems": [
    "C69_sha256_long_messages_refuted",
    "C69_sha256_long_messages_exact"
   ],
   "note": "REFUTED: the padded length is kept in an int; exact bound 2^31-73 proved."
  },
  {
   "property": "C70",
   "status": "partial",
   "theorems": [
    "C70_chacha_long_packets_refuted",
    "C70_chacha_long_packets_exact"
   ],
   "note": "REFUTED: sizes 2^31 to 2^32-1 return without writing the output; C11 covers all sizes below 2^31."
  },
  {
   "property": "C71",
   "status": "partial",
   "theorems": [
    "C71_byte_swap_refuted",
    "C71_byte_swap_exact"
   ],
   "note": "REFUTED: the input is overwritten and the output never written; exact behaviour proved."
  },
  {
   "property": "C72",
   "status": "proved",
   "theorems": [
    "C72_sosemanuk_ivs_distinct"
   ],
   "note": ""
  },
  {
   "property": "C73",
   "status": "proved",
   "theorems": [
    "C73_serpent_keys_distinct",
    "C73_serpent_blocks_distinct"
   ],
   "note": ""
  },
  {
   "property": "C74",
   "status": "proved",
   "theorems": [
    "C74_serpent_is_serpent24",
    "C74_serpent_rounds"
   ],
   "note": ""
  },
  {
   "property": "C75",
   "status": "partial",
   "theorems": [
    "C75_aes_cfb_short_packet_is_cfb_refuted",
    "C75_aes_cfb_short_packet"
   ],
   "note": "REFUTED: the key stream words are used from the last to the first; exact behaviour proved for whole-word packets."
  },
  {
   "property": "C76",
   "status": "partial",
   "theorems": [
    "C76_aegis_any_associated_data_refuted",
    "C76_aegis_long_associated_data",
    "C42_aegis_encrypt_is_aegis128"
   ],
   "note": "REFUTED: above 2^33 bytes the int 4*i overflows; proved up to 2^33 bytes."
  },
  {
   "property": "C77",
   "status": "partial",
   "theorems": [
    "C77_des_key_schedule_fips_refuted",
    "C77_des_key_schedule",
    "C77_des_key_schedule_palindromes"
   ],
   "note": "REFUTED: the key's four-byte halves are read little-endian. Proved: the schedule is the standard's for the key with the bytes of both halves reversed."
  },
  {
   "property": "C78",
   "status": "partial",
   "theorems": [
    "C78_des_block_fips_refuted",
    "C78_des_block_exact",
    "C78_des_block_weak_keys"
   ],
   "note": "REFUTED: every round uses the first subkey, and byte order. The exact function is proved; it is DES up to byte order for keys with sixteen equal subkeys."
  },
  {
   "property": "C79",
   "status": "proved",
   "theorems": [
    "C79_des_parity_bits_ignored"
   ],
   "note": ""
  },
  {
   "property": "C80",
   "status": "partial",
   "theorems": [
    "C80_des_every_key_bit_matters_refuted",
    "C80_des_encryption_uses_first_subkey_only"
   ],
   "note": "REFUTED: keys with the same first subkey (8 effective bits are not in it) encrypt every block alike."
  },
  {
   "property": "C81",
   "status": "proved",
   "theorems": [
    "C81_des_ecb_blockwise",
    "C81_des_ecb_round_trip"
   ],
   "note": ""
  },
  {
   "property": "C82",
   "status": "partial",
   "theorems": [
    "C82_des_ecb_every_length_refuted",
    "C82_des_ecb_partial_block_undefined",
    "C81_des_ecb_blockwise"
   ],
   "note": "REFUTED: every length that is not a multiple of 8 runs off the buffers; proved for all multiples of 8."
  },
  {
   "property": "C83",
   "status": "partial",
   "theorems": [
    "C83_joye_libert_keys_fresh_refuted",
    "C83_joye_libert_keys_repeat"
   ],
   "note": "REFUTED: the generator is never seeded, so all keys of given sizes are equal."
  },
  {
   "property": "C84",
   "status": "partial",
   "theorems": [
    "C84_joye_libert_key_size_refuted",
    "C84_joye_libert_p_from_draw"
   ],
   "note": "REFUTED: the top bits are not set; p is exactly the first suitable number from the one drawn."
  },
  {
   "property": "C85",
   "status": "partial",
   "theorems": [
    "C85_joye_libert_decrypt_in_place_refuted",
    "C85_joye_libert_decrypt_in_place"
   ],
   "note": "REFUTED: in place every ciphertext decrypts to 2^k - 1."
  },
  {
   "property": "C86",
   "status": "partial",
   "theorems": [
    "C86_joye_libert_primes_differ_refuted",
    "C86_joye_libert_primes_differ"
   ],
   "note": "REFUTED for one-bit messages; proved for two bits and more."
  },
  {
   "property": "C87",
   "status": "partial",
   "theorems": [
    "C87_labeled_he_message_blinded_refuted",
    "C87_labeled_he_blinding_size",
    "C87_labeled_he_small_messages_bare"
   ],
   "note": "REFUTED: b has 32*(k/32) bits, so messages of fewer than 32 bits are published as they are."
  },
  {
   "property": "C88",
   "status": "partial",
   "theorems": [
    "C88_labeled_he_decrypt_in_place_refuted",
    "C88_labeled_he_decrypt_over_b",
    "C88_labeled_he_decrypt_over_ciphertext"
   ],
   "note": "REFUTED for products, exact results proved. Pairs may be decrypted in place (C63)."
  },
  {
   "property": "C89",
   "status": "partial",
   "theorems": [
    "C89_hmac_hash_folder_refuted",
    "C89_hmac_hash_folder_exact"
   ],
   "note": "REFUTED for messages (and keys over 64 bytes) of length 63 modulo 64; correct for all others."
  },
  {
   "property": "C90",
   "status": "partial",
   "theorems": [
    "C90_ae_example_every_plaintext_refuted",
    "C90_ae_example_recovers"
   ],
   "note": "REFUTED for an empty first plaintext and for lengths 63 (section 1) and 47 (section 2) modulo 64; the exact output is proved for all others."
  },
  {
   "property": "C91",
   "status": "partial",
   "theorems": [
    "C91_ae_example_defined_refuted",
    "C91_ae_example_standard_exact"
   ],
   "note": "REFUTED: the shipped plaintext has 71 bytes, and lengths 2 and 3 modulo 4 shift out of range."
  },
  {
   "property": "C92",
   "status": "proved",
   "theorems": [
    "C92_aes_block_injective",
    "C92_aes_ctr_stream_repeats"
   ],
   "note": "Every build, including the round-reduced one."
  },
  {
   "property": "C93",
   "status": "proved",
   "theorems": [
    "C93_sha256_collision"
   ],
   "note": "Messages up to 2^31-73 bytes, the lengths on which the code works (C69)."
  },
  {
   "property": "C94",
   "status": "proved",
   "theorems": [
    "C94_md5_collision"
   ],
   "note": "Any pieces the code accepts (C57), total below 2^61 bytes."
  },
  {
   "property": "C95",
   "status": "proved",
   "theorems": [
    "C95_hmac_forgery_is_collision"
   ],
   "note": "Full 32-byte tags."
  },
  {
   "property": "C96",
   "status": "proved",
   "theorems": [
    "C96_sha256_extension",
    "C96_md5_extension"
   ],
   "note": ""
  },
  {
   "property": "C97",
   "status": "partial",
   "theorems": [
    "C97_md5_distinguishes_refuted"
   ],
   "note": "REFUTED: two known 128-byte messages have the same digest; a property of MD5 itself. C94 says what remains."
  },
  {
   "property": "C98",
   "status": "proved",
   "theorems": [
    "C98_chacha_damage",
    "C98_hc128_damage",
    "C98_rabbit_damage",
    "C98_sosemanuk_damage",
    "C98_aes_ctr_damage"
   ],
   "note": "ChaCha: any two states reached under one key and nonce. Rabbit: wrapping arithmetic. AES-CTR: packet lengths on which the code is defined (C34)."
  },
  {
   "property": "C99",
   "status": "proved",
   "theorems": [
    "C99_aes_cfb_damage"
   ],
   "note": "Every build; sequences of packets of whole blocks."
  },
  {
   "property": "C100",
   "status": "proved",
   "theorems": [
    "C100_chacha_demo",
    "C100_hc128_demo",
    "C100_sosemanuk_demo"
   ],
   "note": "Shipped key, nonce and text as parameters."
  },
  {
   "property": "C101",
   "status": "partial",
   "theorems": [
    "C101_rabbit_demo",
    "C101_rabbit_demo_recovers_refuted",
    "C101_rabbit_demo_shipped"
   ],
   "note": "REFUTED: the IV is loaded again on both sides, but loading keeps the carry bit (C21), which the sender's extra packet may have changed; the second text is then lost (witness). Exact: the first text is always recovered, the second whenever the extra packet leaves the sender's carry unchanged, as with the shipped texts; with strict signed arithmetic the shipped demonstration is undefined."
  },
  {
   "property": "C102",
   "status": "proved",
   "theorems": [
    "C102_hex_encode_footprint"
   ],
   "note": ""
  },
  {
   "property": "C103",
   "status": "partial",
   "theorems": [
    "C103_sha256_demo_undefined",
    "C103_sha256_demo_refuted",
    "C103_sha256_demo_with_room"
   ],
   "note": "REFUTED: the 64-byte array is one too small, so the demonstration is undefined for every message. With 65 bytes or more it prints the digest, except for lengths 63 mod 64 (C05)."
  },
  {
   "property": "C104",
   "status": "proved",
   "theorems": [
    "C104_hmac_demo"
   ],
   "note": ""
  },
  {
   "property": "C105",
   "status": "partial",
   "theorems": [
    "C105_aes_cfb_demo",
    "C105_aes_cfb_demo_undefined",
    "C105_aes_cfb_demo_refuted"
   ],
   "note": "REFUTED: undefined for lengths 2 and 3 mod 4, among them the text shipped with the table build. All other lengths, and all lengths if out-of-range shifts give any value, recover."
  },
  {
   "property": "C106",
   "status": "partial",
   "theorems": [
    "C106_aegis_demo",
    "C106_aegis_demo_short_undefined",
    "C106_aegis_demo_recovers_refuted"
   ],
   "note": "REFUTED: undefined for texts of 1 to 14 bytes; as claimed for all longer ones."
  },
  {
   "property": "C107",
   "status": "proved",
   "theorems": [
    "C107_md5_demo",
    "C107_serpent_demo"
   ],
   "note": "The Serpent folder builds the 24-round variant (C25)."
  },
  {
   "property": "C108",
   "status": "partial",
   "theorems": [
    "C108_des_demo",
    "C108_des_ctr_demo",
    "C108_des_demo_refuted",
    "C108_des_ctr_demo_refuted"
   ],
   "note": "REFUTED: what is printed uses the first round key in all rounds and, in counter mode, the same counter for every block; the theorems say exactly what is printed."
  },
  {
   "property": "C109",
   "status": "proved",
   "theorems": [
    "C109_joye_demo",
    "C109_joye_demo_returns"
   ],
   "note": ""
  },
  {
   "property": "C110",
   "status": "partial",
   "theorems": [
    "C110_he_demo",
    "C110_he_demo_returns_only",
    "C110_he_demo_refuted"
   ],
   "note": "REFUTED: the shipped labels 1, 2, 3 fill one of the four bytes read; on a fresh stack the program never prints. With determinate bytes there it prints exactly the results claimed."
  },
  {
   "property": "C111",
   "status": "partial",
   "theorems": [
    "C111_aes_ctr_self_test",
    "C111_aes_ctr_self_test_undefined",
    "C111_aes_ctr_self_test_refuted"
   ],
   "note": "REFUTED: the program's own third vector (36 bytes) is undefined through the pointer read of partial blocks. Vectors of whole blocks (of whole words where that read is harmless) are reported and counted exactly."
  },
  {
   "property": "C112",
   "status": "proved",
   "theorems": [
    "C112_aegis_self_test",
    "C112_aegis_self_test_short_undefined"
   ],
   "note": "all vector lists; the four shipped vectors pass, shown beside the theorem"
  },
  {
   "property": "C113",
   "status": "proved",
   "theorems": [
    "C113_chacha_cipher_test",
    "C113_chacha_block_test",
    "C113_chacha_quarter_test"
   ],
   "note": "all inputs; the shipped inputs give the RFC 7539 values, shown beside the theorems"
  },
  {
   "property": "C114",
   "status": "proved",
   "theorems": [
    "C114_hc128_states_distinct"
   ],
   "note": ""
  },
  {
   "property": "C115",
   "status": "proved",
   "theorems": [
    "C115_aegis_iv_reuse",
    "C115_aegis_repeats_show"
   ],
   "note": "a property users must know of: it holds of AEGIS-128 itself, hence of the code"
  },
  {
   "property": "C116",
   "status": "partial",
   "theorems": [
    "C116_hmac_validation_time",
    "C116_hmac_time_hides_tag_refuted"
   ],
   "note": "REFUTED: the comparison stops at the first wrong byte. The exact number of comparisons is proved, and a fixed strategy that finds the right tag for every key and message with at most 256 questions per byte."
  },
  {
   "property": "C117",
   "status": "proved",
   "theorems": [
    "C117_des_encrypt_complement",
    "C117_des_decrypt_complement"
   ],
   "note": "holds of the code although its rounds all use one subkey (C78); the standard has the property too (fips_des_complement)"
  },
  {
   "property": "C118",
   "status": "proved",
   "theorems": [
    "C118_joye_libert_parity",
    "C118_joye_libert_generated_key_parity"
   ],
   "note": ""
  },
  {
   "property": "C119",
   "status": "partial",
   "theorems": [
    "C119_hmac_tag_length_exact",
    "C119_hmac_negative_key_length_undefined",
    "C119_hmac_tag_length_refuted"
   ],
   "note": "REFUTED: every tag length outside 0..32 reads outside a local array, every negative key length copies a huge size; lengths 0..32 are exact."
  },
  {
   "property": "C120",
   "status": "proved",
   "theorems": [
    "C120_aes_cfb_equal_blocks"
   ],
   "note": ""
  },
  {
   "property": "C121",
   "status": "proved",
   "theorems": [
    "C121_rabbit_no_short_cycle",
    "C121_rabbit_full_cycle_when_clean"
   ],
   "note": "Both parts. The first needs no assumption on carries; the second is for runs in which no counter sum is exactly 2^32 (C19, C20), in the terms of RFC 4503. States are those reachable by rabbit_load_key, rabbit_load_iv and rabbit_process_packet in any order."
  },
  {
   "property": "C122",
   "status": "proved",
   "theorems": [
    "C122_rabbit_ivs_kept_apart"
   ],
   "note": "For IV set-ups and runs in which no counter sum is exactly 2^32, as the statement says. C122_complement_needed shows a (not necessarily reachable) master state from which complementary IVs make the counters meet."
  },
  {
   "property": "C123",
   "status": "proved",
   "theorems": [
    "C123_sosemanuk_register_cycle",
    "C123_sosemanuk_no_short_cycle",
    "C123_sosemanuk_zero_register"
   ],
   "note": "All three parts. The order of the feedback is computed from the factorisation of 2^320 - 1, whose 16 prime factors are proved prime in Pocklington.v."
  },
  {
   "property": "C124",
   "status": "proved",
   "theorems": [
    "C124_sosemanuk_ivs_stay_apart"
   ],
   "note": ""
  },
  {
   "property": "C125",
   "status": "partial",
   "theorems": [
    "C125_sosemanuk_states_apart_refuted",
    "C125_sosemanuk_second_register",
    "C125_sosemanuk_states_meet",
    "C125_sosemanuk_upper_bits_unused",
    "C125_sosemanuk_registers_stay_apart",
    "C125_specification_states_apart"
   ],
   "note": "REFUTED: the code applies Trans to the new R1, so after any packet R2 = Trans(R1), and the two registers set up from key and IV count only through one 32-bit word; the upper 31 bits of R1 never matter. States with the same shift register and the same such word encrypt every packet alike and meet in the first packet. States with different shift registers stay apart. The specification's step is proved injective."
  },
  {
   "property": "C126",
   "status": "partial",
   "theorems": [
    "C126_hmac_released_memory_exact",
    "C126_hmac_released_memory_refuted"
   ],
   "note": "REFUTED: the released buffer is not cleared. Exact contents are proved for every key and message: 64 masked key bytes, enough to make the tag of every message, and the message."
  },
  {
   "property": "C127",
   "status": "partial",
   "theorems": [
    "C127_chacha_released_memory_exact",
    "C127_chacha_released_memory_refuted"
   ],
   "note": "REFUTED: the released buffer is the whole key stream of the packet; with the ciphertext it gives the message. Exact contents are proved for every key, nonce and packet below 2^31 bytes."
  },
  {
   "property": "C128",
   "status": "partial",
   "theorems": [
    "C128_aegis_accepted_under_any_key",
    "C128_aegis_one_key_refuted"
   ],
   "note": "REFUTED, as a property of AEGIS-128 itself: for every two keys and IVs, 80 bytes of associated data make every ciphertext and tag of the first key acceptable under the second, with the same message."
  },
  {
   "property": "C129",
   "status": "partial",
   "theorems": [
    "C129_ae_section1_other_iv",
    "C129_ae_section1_needs_iv_refuted"
   ],
   "note": "REFUTED: with another IV the tag is valid, every block after the first is right, and the first block is wrong by the xor of the two encrypted IVs; the plaintext is recovered exactly when the IVs are equal. Proved for plaintexts of whole blocks."
  },
  {
   "property": "C130",
   "status": "partial",
   "theorems": [
    "C130_labeled_he_labels_related",
    "C130_labeled_he_labels_independent_refuted"
   ],
   "note": "REFUTED: the blinding values of two labels differ by the xor of the labels, so one known message gives every other one from public values alone. Proved for every key, k a multiple of 32 and labels of exactly k/8 bytes."
  },
  {
   "property": "C131",
   "status": "partial",
   "theorems": [
    "C131_ae_section1_message_in_section2",
    "C131_ae_section2_message_in_section1",
    "C131_ae_sections_kept_apart_refuted"
   ],
   "note": "REFUTED: the sections share the authentication key and nothing under the tag tells them apart, so every message of one section has a valid tag in the other; what is printed as recovered is proved exactly."
  },
  {
   "property": "C132",
   "status": "proved",
   "theorems": [
    "C132_aegis_check_exact",
    "C132_aegis_time_hides_tag"
   ],
   "note": "Work means comparisons and bytes cleared. The exact theorem also counts the assignments flag = 1, one for each wrong 32-bit word; a build that executes them as branches shows that number."
  },
  {
   "property": "C133",
   "status": "partial",
   "theorems": [
    "C133_hex_encode_every_size_refuted",
    "C133_hex_encode_sizes",
    "C133_hex_encode_other_sizes",
    "C133_hex_decode_every_size"
   ],
   "note": "REFUTED: hex_encode with a negative size or one of 2^30 or more is undefined whatever the buffers; sizes from 0 to 2^30 - 1 are exactly those that work, and hex_decode takes every size."
  },
  {
   "property": "C134",
   "status": "partial",
   "theorems": [
    "C134_product_over_first_operand",
    "C134_product_over_second_operand",
    "C134_product_elsewhere",
    "C134_product_over_operand_refuted"
   ],
   "note": "REFUTED: over the beta of the first operand the result decrypts to m1 m2 + a2 (a1 a2 - b1), over that of the second to m1 m2 + a1 (a1 a2 - b2); into a variable of its own it decrypts to m1 m2."
  },
  {
   "property": "C135",
   "status": "partial",
   "theorems": [
    "C135_aes_cfb_session_exact",
    "C135_aes_cfb_x86_carries",
    "C135_aes_cfb_carries_last_block_refuted"
   ],
   "note": "REFUTED: after 4 bytes with the table build the enciphered register is carried on, and after 8 bytes the x86 build reads its second word at offset 1 of the ciphertext. Ciphertext, plaintext and register are proved exactly for every sequence of packets of 4q or 4q + 1 bytes on every build; the claim holds on x86 for packets of 16q or 16q + 4 bytes."
  },
  {
   "property": "C136",
   "status": "partial",
   "theorems": [
    "C136_aes_lookups_independent_of_key_refuted",
    "C136_aes_load_key_lookups",
    "C136_aes_cfb_initialize_lookups",
    "C136_aes_load_key_lookups_determine_key",
    "C136_aes_block_lookups",
    "C136_aes_ctr_packet_lookups",
    "C136_aes_ctr_first_round_shows_key",
    "C136_aes_vector_packets_read_no_table"
   ],
   "note": "REFUTED: in every build the first 16 S-box entries read while a key is loaded determine the key, also where vector instructions encrypt; in the table build the first 16 entries of a packet, seen in groups of 2^g, show exactly all but the low g bits of every key byte. The entries read are given exactly for loading, for a block and for CTR packets; the packets of the vector builds read none."
  },
  {
   "property": "C137",
   "status": "partial",
   "theorems": [
    "C137_aegis_lookups_independent_of_key_refuted",
    "C137_aegis_initialize_lookups",
    "C137_aegis_first_round_shows_key",
    "C137_aegis_initialize_lookups_determine_key"
   ],
   "note": "REFUTED: in the table build the first 16 entries read, seen in groups of 2^g, show exactly all but the low g bits of every key byte, whatever the IVs and without knowing them; the entries themselves give the key. All 800 entries read while key and IV are taken in are given exactly; the vector builds read none."
  },
  {
   "property": "C138",
   "status": "partial",
   "theorems": [
    "C138_des_lookups_independent_of_key_refuted",
    "C138_des_block_lookups",
    "C138_des_first_round_shows_subkey",
    "C138_des_first_lookups_suffice"
   ],
   "note": "REFUTED: for a known block the first 8 entries, seen in groups of 2^g, show exactly all but the low g bits of the eight parts of the first subkey; as that subkey is used in every round, two keys with the same first 8 entries on one block encrypt every block alike and decrypt each other's blocks. All 128 entries read for a block are given exactly."
  },
  {
   "property": "C139",
   "status": "partial",
   "theorems": [
    "C139_new_key_takes_effect_refuted",
    "C139_sosemanuk_key_waits_for_iv",
    "C139_sosemanuk_old_key_stays",
    "C139_aes_ctr_key_takes_effect_at_once"
   ],
   "note": "REFUTED for Sosemanuk: loading a key changes only the Serpent subkeys, so from any state every sequence of packets is encrypted as if no key had been loaded, under the key in force at the last IV load (exact ciphertexts given); it takes effect with the next IV. AES-CTR: proved, the new key is used at once and the counter goes on."
  },
  {
   "property": "C140",
   "status": "partial",
   "theorems": [
    "C140_sosemanuk_either_order_refuted",
    "C140_rabbit_either_order_refuted",
    "C140_aes_ctr_either_order",
    "C140_sosemanuk_order_exact",
    "C140_rabbit_iv_before_key_is_lost"
   ],
   "note": "REFUTED for Sosemanuk (IV before key: the key stream is that of the key held before) and Rabbit (IV before key: the IV has no effect). AES-CTR: proved, both orders give the same state, in counter mode under the key and nonce."
  },
  {
   "property": "C141",
   "status": "partial",
   "theorems": [
    "C141_sosemanuk_lookups_independent_of_key_refuted",
    "C141_sosemanuk_packet_lookups",
    "C141_sosemanuk_lookups_determine_lfsr",
    "C141_sosemanuk_one_word_remains"
   ],
   "note": "REFUTED: the entries of every packet are given exactly; the first 48 entries of any packet of at least 80 bytes determine the whole shift register (320 bits) whatever the rest of the state, and all that is left open for every later packet is one 32-bit word."
  },
  {
   "property": "C142",
   "status": "partial",
   "theorems": [
    "C142_hc128_small_packets_hide_messages_refuted",
    "C142_hc128_small_packets_exact",
    "C142_hc128_small_packets_any_time",
    "C142_hc128_small_packets_leak",
    "C142_hc128_last_words_exact",
    "C142_hc128_last_words_any_time",
    "C142_hc128_last_words_leak",
    "C142_hc128_small_packets_readable",
    "C142_hc128_last_words_readable"
   ],
   "note": "REFUTED: as every call starts at index 0, packet n of a sequence of packets of at most four bytes is encrypted with x xor (a + (n+1) d) for three words that never change; so whatever the key, bit 0 of packets n and n+2, and the low b bits of packets n and n + 2^b, are encrypted with the same key stream, and three one-byte ciphertexts already exclude messages; a packet of L bytes is read without the key from any earlier known packet of L bytes that lies a multiple of 256^L packets back; the same holds of the last words of packets of two or three words."
  },
  {
   "property": "C143",
   "status": "partial",
   "theorems": [
    "C143_hc128_lookups_independent_of_key_refuted",
    "C143_hc128_packet_lookups",
    "C143_hc128_lookups_determine_half",
    "C143_hc128_small_packets_same_lookups"
   ],
   "note": "REFUTED: the entries of every packet of a session are given exactly; equal entries mean that the table words used as arguments agree in their lowest and third bytes (half the bits of a table for a packet of 2048 bytes); packets of at most four bytes read the same two entries for ever."
  },
  {
   "property": "C144",
   "status": "partial",
   "theorems": [
    "C144_des_only_weak_keys_refuted",
    "C144_des_unchanged_blocks_exact",
    "C144_des_unchanged_blocks_all",
    "C144_des_unchanged_packets",
    "C144_des_ctr_nonce_is_keystream"
   ],
   "note": "REFUTED: as one subkey is used in all rounds, every key leaves exactly the blocks unchanged whose halves are equal after eight rounds; there are 2^32 of them for every key, each found by eight rounds, and packets made of them are sent in the clear; a counter-mode nonce that starts with one is itself the key stream."
  }
 ]
}