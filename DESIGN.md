# Formal model of CryptoToolbox: design

Everything is in Rocq/Coq 8.16.1 under `rocq/theories/`. The C++ in /repo is
read as text and transcribed by hand, function by function; tables are copied
by script. Nothing is extracted from or linked with the C++.

## 1. Modelling conventions

* **Words and bytes** are `N`; every C operation that wraps is written with an
  explicit reduction (`Words.v`: `u8`, `u32`, `u64`, `add32`, `shl32`, ...).
* **Results** have type `res A` (`Res.v`): `Ret a`, `UB` (undefined behaviour:
  out-of-bounds access, read of an indeterminate byte, out-of-range shift,
  signed overflow, overlapping `memcpy`) and `NoFuel` (a loop whose
  termination is not structural ran out of fuel; theorems exclude it, or
  quantify over every large enough fuel).
* **Memory** (`Mem.v`): a list of blocks, a block is a list of cells, a cell is
  `Some byte` or `None` (indeterminate). A pointer is a block number and an
  offset. Every access is bounds checked against its block. Two buffers can be
  in different blocks, in the same block, or identical, so aliasing and
  in-place use are expressible. Local arrays are modelled as separate lists
  (with the same cells when they can be indeterminate or overflow).
* **Loops** are structural recursion, or explicit fuel.
* **GMP numbers** (`Gmp.v`): an `mpz_t` variable is an index into a store of
  integers, so that arguments may be the same variable. Random numbers are an
  arbitrary sequence; a theorem about encryption holds for every sequence.
* **Specifications** are in `*Spec.v` files that do not import any model file;
  they use arithmetic (`mod 2^n`, `/ 2^n`) rather than the C operators. Where a
  standard defines its constants (prime roots, sines, inverses in GF(2^8),
  powers of alpha), the specification computes them instead of copying a table.
* Files: `XModel.v` (definitions citing /repo lines, no proofs), `XSpec.v`,
  `XProofs.v` and other helpers, `XProps.v` (the property theorems, each
  followed by `Print Assumptions` and with a concrete instance beside it).
* A theorem's name starts with the id of its property. A property that is false
  of the faithful model has a theorem `..._refuted` with a witness and one that
  says exactly what holds instead.

## 2. Trusted base

* Coq 8.16.1 kernel (including `vm_compute`).
* Axioms: none. Section 5 has the recorded output of `Print Assumptions`.
* The hand transcription of the cited C++ lines, in particular:
  little-endian host; 8-bit bytes; 32-bit `int`; 64-bit `long`;
  casts between `uint8_t*` and `uint32_t*` behave as byte-wise little-endian
  access (strict-aliasing and alignment rules are not modelled); heap
  allocation succeeds and VLAs fit the stack;
  `ceil(double(n)/c)` is exact (true below 2^53).
* The specifications, written from memory of the standards (no network):
  validated inside Coq by test vectors (examples in the `*Spec.v` and
  `*Tests.v` files).
* Intrinsics (`_mm_aesenc_si128`, `vaeseq_u8`, ...) are modelled from their
  documented semantics.
* GMP: `mpz_powm`, `mpz_mod`, `mpz_invert`, `mpz_export`, `mpz_import`, ... have
  the meaning the GMP manual gives them. Primality and Legendre tests are
  parameters; what they are assumed to say is a hypothesis of the theorem
  (`C62`).

### Code that is modelled

| /repo folder | Model | Functions |
|---|---|---|
| Encoders/Hex | HexModel | hex_encode, hex_decode |
| Hash/SHA, Authentication/HMAC-SHA-256 (sha-256.cpp) | ShaModel | both copies of sha256_process_message and what it calls |
| Authentication/HMAC-SHA-256 (hmac.cpp) | HmacModel | hmac_load_key, hmac_tag_generation, hmac_tag_validation |
| hmac_tag_validation of hmac.cpp, once more | TimingModel | the same function, also counting the iterations of the comparison loop; the rest takes a time that does not depend on the tag given and is not counted |
| aegis_decrypt_packet of aegis_128.cpp, once more | AegisTimingModel | the same function, also counting comparisons, assignments to the flag and bytes cleared |
| aes_key_expansion, aes_encrypt, aes_ctr_process_packet of the AES folders, once more | AesLookupModel | the same functions, also listing the entries of Sbox and T0 to T3 they read; all other addresses are fixed by the arguments; the vector instructions are taken to read no table |
| aegis_state_update, aegis_initialize of the AEGIS folders, once more | AegisLookupModel | the same functions, also listing the entries of T0 to T3 they read; the vector instructions are taken to read no table; the accesses after the initialisation are not listed |
| DES_ROUND, des_ecb_block, once more | DesLookupModel | the same functions, also listing the entries of Sbox1 to Sbox8 they read; the key schedule's reads of LHs and RHs are not listed |
| sosemanuk_lfsr_update, sosemanuk_process_packet, once more | SosemanukLookupModel | the same functions, also listing the entries of the tables of alpha and its inverse they read; key and IV loading is not listed |
| hc128_generate_keystream, hc128_process_packet, once more | HcLookupModel | the same functions, also listing the entries that h1 and h2 read; those of hc128_initialize are not listed |
| hmac_tag_generation of hmac.cpp and chacha_process_packet of chacha.cpp, once more | RemainsModel | the same functions, also returning the contents of the heap buffer they release; lemmas `hmac_released_same` and `chacha_released_same` show the rest equal. What the allocator does with released memory is not modelled |
| Authentication/Poly1305 | PolyModel | clamp only; le_bytes_to_num and poly1305_mac do not compile |
| StreamCiphers/ChaCha | ChachaModel | all but printing |
| StreamCiphers/HC-128 | HcModel | all but printing |
| StreamCiphers/Rabbit | RabbitModel | all but printing, with wrapping and with strict signed arithmetic |
| BlockCiphers/Serpent and the copy in StreamCiphers/Sosemanuk | SerpentModel | all, with SOSEMANUK_H defined as in both copies |
| StreamCiphers/Sosemanuk | SosemanukModel, SosemanukTables | all |
| BlockCiphers/AES (6 folders) | AesModel, AesTables | key expansion, block function in the table, x86 and ARM builds, CTR and CFB modes |
| StreamCiphers/AEGIS (3 folders) | AegisModel | all, three builds |
| Legacy/DES | DesModel, DesTables | all |
| Legacy/MD5 | Md5Model | all but the printing and timing of the demo |
| AsymmetricCryptography/Joye_libert | JoyeModel, Gmp | keygen, encrypt, decrypt |
| AsymmetricCryptography/Labeled_homomorphic_encryption | HeModel, Gmp | LabeledHE and muLabeledHE, all functions |
| Example_AuthenticatedEncryption | AeModel | main, keys, IV and plaintexts as parameters |
| main.cpp of the symmetric folders, main_ctr.cpp of DES | DemoModel | main with its constants as parameters; console output is a list of labelled texts; the timing loops and commented-out code are left out |
| main.cpp of Joye_libert and of LabeledHE | DemoHeModel | main with its messages, labels and sizes as parameters; `stack` gives the bytes the label buffer of each call already holds; output is the list of numbers printed |
| test_vectors.cpp of AES_CTR and AEGIS, cipher_test.cpp, block_test.cpp and quarter_test.cpp of ChaCha | SelfTestModel | main with its vectors as parameters; repeated code for each vector is a function of the vector |

Not modelled: the test driver test_rf.cpp of Rabbit, the muLabeledHE `main.cpp` (it does not compile), printing functions, timing and
side channels, allocation failure, alignment, the uncompilable parts of
Poly1305, the macro-less builds other than those named in `AesModel.v`.

## 3. Properties: what is modelled and how it is proved

| Id | Model | Proof |
|----|-------|-------|
| C01 C02 | hex_encode/hex_decode on memory | induction on length; digit table by exhaustive check |
| C03 | same | false: `_refuted` by vm_compute; exact condition by cases on the character |
| C04 C69 | pad_message + sha256_process_message with a bounds-checked padding buffer | refinement to the FIPS 180-4 spec, induction on blocks; C69 (lengths above 2^31-73) false |
| C05 | Hash-folder copy | false at size = 63 mod 64 |
| C06 | both copies | exact characterisation by residue |
| C07 C08 C10 | hmac_* over memory | refinement to the RFC 2104 spec |
| C09 | same | false: generation writes nothing, validation reads indeterminate bytes |
| C11-C14 C70 C71 | chacha_* | refinement to the RFC 7539 spec; generic XOR-loop lemma over memory; inverse of the quarter round; C70, C71 false |
| C15 C16 | hc128_* | refinement to the HC-128 spec; state synchronisation (SyncSpec) |
| C17 | same | false: `_refuted`; exact split condition |
| C18-C23 | rabbit_* (both wrapping and strict signed arithmetic) | refinement; C19, C21, C23 false |
| C24-C26 C73 C74 | serpent | per-bit-column S-box proof; refinement; inverses of all steps; C25, C26 false |
| C27-C30 C72 | sosemanuk_* | refinement; GF(2^32) arithmetic; C28, C29 false |
| C31-C35 | AES table code, x86, ARM code, CTR | T-table lemma lifted from 256-entry checks; refinement to FIPS 197, SP 800-38A; C34 false |
| C92 | the same, all builds | inverses of SubBytes, ShiftRows, MixColumns (kernel of the column map from additivity of doubling), AddRoundKey |
| C36-C40 C75 | AES-CFB, three builds | induction on packets; C38, C40, C75 false in part |
| C41-C48 C76 | AEGIS-128, three builds | refinement to the AEGIS-128 spec; C43, C46, C76 false in part |
| C49-C54 C77-C82 | DES | Feistel involution; bit-selection proofs (BitSel); C49, C52, C54, C77, C78, C80, C82 false |
| C99 | AES-CFB, three builds | block equation of CFB decryption; injectivity from C92 |
| C98 | the five stream modes | generic lemma over any synchronous cipher (`StreamProofs.v`), instantiated with the invariants of C11-C35 |
| C55-C58 | MD5 | buffer invariant; refinement to RFC 1321; C57 false near 2^32 |
| C93-C97 | SHA-256, HMAC, MD5 over the theorems C04, C07, C55 | generic Merkle-Damgard argument (`Merkle.v`, `MerklePad.v`): chains that end equal are equal or contain a collision, padding is suffix-free; C97 false |
| C59-C62 C83-C86 | Joye-Libert | Fermat, Euler's criterion and discrete logarithms over Z/pZ from the standard library only (NumTheory, JoyeMath); C61, C83-C86 false |
| C63-C66 C87 C88 | LabeledHE/muLabeledHE | programs of homomorphic operations over a store, by induction; the label value through the HC-128 model; C63, C65, C66, C87, C88 false in part |
| C67 C89-C91 | main of the example over the HMAC, AES-CFB, HC-128 and hex models | composition of the theorems above; false in part |
| C68 | clamp | per-byte check lifted to the number |
| C100-C108 | main of the demonstration programs | composition of the theorems above over the programs' own allocations; C102 also proves the lower bound of hex_encode's buffer; C101, C103, C105, C106, C108 false in part |
| C109, C110 | main of the two asymmetric demonstrations | composition of C59-C64 over the programs' variables; C110 false for labels shorter than k/8 bytes on a fresh stack |
| C111 | main of the AES-CTR test_vectors.cpp | C33 for each vector, comparison byte by byte; false for partial blocks (the shipped third vector) |
| C112 | main of the AEGIS test_vectors.cpp | C42 for each vector, comparison of hexadecimal texts |
| C113 | main of the three ChaCha test programs | C11, C14, C71 and the quarter round |
| C114 | hc128_initialize, hc128_process_packet | HcSpec: set-up and step are injective on states |
| C115 | aegis_encrypt_packet twice with one IV | C42 and AegisSpec.encrypt_blocks |
| C116 | hmac_tag_validation with the iterations of its loop counted | TimingSpec: strategies that see answers and times; false |
| C117 | DES key schedules and des_process_packet_ecb | complement of lists of bytes; C81 and DesSpec |
| C118 | joye_libert_keygen, joye_libert_encrypt | Legendre and Jacobi symbols; C59, C62 |
| C119 | hmac_load_key, hmac_tag_generation, hmac_tag_validation | lengths outside the standard's are undefined; false |
| C120 | aes_cfb_initialize, aes_cfb_process_packet | C37 and injectivity of AES (C92) |
| C121 | rabbit_load_key, rabbit_load_iv, rabbit_process_packet | carries summed per counter word: words 0 and 3 cannot both return within 2^32 steps; without lost carries the counters add a unit modulo 2^256 - 1 |
| C122 | rabbit_load_iv, rabbit_process_packet | the same addition modulo 2^256 - 1; only all-zero and all-one counters are confused |
| C123 C124 | sosemanuk_load_iv, sosemanuk_process_packet | the shift register is a linear map on 320 bits; its order is 2^320 - 1 by evaluating the characteristic polynomial and the powers for each prime divisor (LinearCycle, Pocklington, SosemanukLfsr, SosemanukOrder) |
| C125 | sosemanuk_process_packet | false: the finite state machine forgets 32 bits; exact word that counts; the specification's step is injective |
| C126 C127 | hmac_tag_generation, chacha_process_packet with the released buffer | exact contents from the proofs of C07 and C11; false |
| C128 | aegis_encrypt_packet, aegis_decrypt_packet, all three builds | a round is undone block by block, so five blocks of associated data reach any state; false |
| C129 | section 1 of example_ae.cpp | C67 and the CFB equations with two IVs; exact first block; false |
| C130 | he_encrypt from the initial key stream | C65, C87 and HC-128 as an exclusive or; false |
| C131 | both senders and receivers of example_ae.cpp | C67 with the ciphertext of the other section; exact outputs; false |
| C132 | aegis_decrypt_packet with its comparisons counted (AegisTimingModel) | C44; strategies as in C116 |
| C133 | hex_encode and hex_decode for every int size | sizes that can return; false for the encoder |
| C134 | he_eval_mult with the result over an operand | messages and blinding values of HeSpec; exact results; false |
| C135 | AES-CFB state between packets, three builds | AesCarrySpec: key stream of a tail and carried register byte by byte; induction on packets; false in part |
| C136 | AES functions listing the table entries they read (AesLookupModel) | AesLookupSpec: entries of the FIPS 197 rounds and key expansion; the schedule is solved backwards from four of its words; false |
| C137 | AEGIS initialisation listing the table entries it reads (AegisLookupModel) | AegisLookupSpec: entries of the ten updates of AEGIS-128; register 4 is key xor constant at the first; false |
| C138 | DES block function listing the S-box entries it reads (DesLookupModel) | DesLookupSpec: inputs of the S-boxes of FIPS 46-3; xor with a known E(R) is undone; false |
| C139 | key load on used states, AES-CTR and Sosemanuk | CTR mode under the new key from the current counter; packets unchanged by a Sosemanuk key load; false for Sosemanuk |
| C140 | key and IV loads, AES-CTR, Rabbit, Sosemanuk | both orders give one state (AES-CTR); key stream of the old key (Sosemanuk), of the key alone (Rabbit); false for these two |
| C141 | Sosemanuk packet function listing the entries of alpha and inv_alpha it reads (SosemanukLookupModel) | SosemanukLookupSpec: bytes of the LFSR words that go through tables; 24 steps determine the register; false |
| C142 | hc128_* on sequences of packets of at most four (twelve) bytes | HcSmallSpec, HcLastSpec: key stream that goes by constant steps; false |
| C143 | HC-128 packet function listing the entries of P and Q that h1 and h2 read (HcLookupModel) | HcLookupSpec: lowest and third byte of the word twelve places back; false |
| C144 | des_ecb_block, des_process_packet_ecb on blocks with equal halves after eight rounds | DesFixedSpec: eight rounds back from (H, H); sixteen equal rounds swap the halves exactly if they are equal in the middle; false |

## 4. Findings

Every item is proved of the model by the theorem named. "Exact" means that a
theorem says precisely what happens on all inputs.

### Memory safety and undefined behaviour
* **SHA-256, Hash folder**: at lengths 63 mod 64 the padding is written outside
  its buffer (C05). Both copies keep the padded length in an `int`: lengths
  above 2^31-73 fail (C69). The demonstration gives hex_encode a 64-byte
  buffer, one byte too small, and so is undefined for every message (C103).
* **HMAC**: for the empty message generation writes no tag and validation
  compares with an uninitialised buffer (C09). With the Hash folder's SHA, as
  the authenticated-encryption example is built, messages of length 63 mod 64
  are undefined (C89).
* **AES-CTR, AES-CFB**: the last bytes of a packet are taken with shifts by 32
  and 40; lengths 2 and 3 mod 4 are undefined. AES-CTR reads an uninitialised
  pointer for every partial block (C34, C36). The text shipped with the
  table-build CFB demonstration has such a length (C105), and the third vector
  of the AES-CTR self test is a partial block (C111).
* **AEGIS-128**: messages of 1 to 14 bytes always run off the buffers, because
  `msglen - 15` wraps (C43); associated data above 2^33 bytes overflows an `int`
  (C76).
* **Serpent**: any size other than 0 and 16 overflows a local array or is not a
  packet (C26).
* **DES**: any length not a multiple of 8 makes the size wrap and runs off the
  buffers, in both modes (C54, C82).
* **MD5**: `i + 63` wraps for inputs reaching 2^32 bytes after a partial block
  (C57).
* **Rabbit**: signed 64-bit overflow, already for the zero key (C23).
* **LabeledHE**: the label buffer is not initialised; labels shorter than k/8
  bytes (main.cpp's labels 1, 2, 3) use indeterminate bytes, longer ones
  overflow (C63). The demonstration as shipped never prints on a fresh stack (C110).
* **Authenticated-encryption example**: undefined for its own 71-byte plaintext
  (C91), for an empty first plaintext and for lengths 63 and 47 mod 64 (C90).

### Deviations from the standards
* **Hex**: lower-case digits decode wrongly, no character is ever rejected (C03).
* **Rabbit**: a counter sum of exactly 2^32 loses the carry (C19, exact C20).
* **Serpent**: keys shorter than 32 bytes are padded with 0x80 instead of 0x01;
  every such key gets wrong subkeys (C25).
* **Sosemanuk**: the finite state machine deviates in two places, and short keys
  as in Serpent (C29). One of the two makes it lose state: R2 is computed from
  the new R1, so the second register repeats the first and 32 of the 64 bits set
  up from key and IV have no influence on the key stream (C125).
* **AES-CFB**: partial blocks use the key stream words from the last to the
  first (C75); the feedback after 7 bytes uses the wrong register; the x86 build
  differs from the table and ARM builds after a partial packet (C38). What is
  carried to the next packet is not the last ciphertext block: the table and ARM
  builds carry parts of the enciphered register, and after 8 or 12 bytes the words
  are read at offsets 0, 1, 2 instead of 0, 4, 8 (C135).
* **AES** gives its key away through the addresses it reads. The key expansion of
  every build, also of those with vector instructions, looks up four words of
  the schedule in the S-box first; these determine the key. In the table build
  an observer of cache lines (16 words) sees the upper half of every key byte in
  the first round of any packet whose nonce they know (C136).
* **AEGIS-128**, table build: the first 16 table entries of every packet show the
  key, whatever the IV and without knowing it (C137).
* **DES**: the first 8 S-box entries of a known block give the one subkey that is
  used in all rounds, so all that is needed to read and write messages (C138).
* **A Sosemanuk key is not used until an IV is loaded.**  `sosemanuk_load_key`
  changes only the Serpent subkeys; the packets that follow are encrypted under
  the key that was in force when the last IV was loaded, so a user who changes
  the key without a new IV goes on using the old one (C139).  Loading the IV
  first and the key second has the same effect, and with Rabbit that order loses
  the IV (C140).  AES-CTR is right in both respects.
* **Sosemanuk**: an observer of the table entries read for 80 bytes of a packet
  learns the whole shift register; as the code's FSM carries one word only (C125),
  32 bits are left to guess to read everything that follows (C141).
* **HC-128**: the table entries read for a packet show two of the four bytes of every
  table word they are chosen by (C143).
* **DES**: every round uses the first subkey (C78), so decryption does not undo
  encryption (C49) and some key bits do not matter (C80); the key halves are
  read little-endian (C77).
* **DES**: for the same reason every key leaves exactly 2^32 blocks as they are, and
  eight rounds give the one that belongs to any 32 bits (C144).
* **ChaCha**: sizes from 2^31 return without writing the output (C70); byte_swap
  overwrites its input and not its output (C71).

### Modes and state
* **HC-128**: the key stream index restarts in each call, so packets do not
  concatenate unless cut at 4096 bytes (C17).
* **HC-128**: for the same reason packets of at most four bytes are encrypted with
  `x xor (a + n d)` for three constants, so the low b bits of packets n and n + 2^b
  use the same key stream whatever the key (bit 0: every second packet); likewise the
  last words of packets of two or three words.  A packet of L <= 4 bytes is read
  without the key from a known packet of L bytes 256^L packets earlier (C142).
* **Rabbit**: the carry survives loading a new IV (C21); the demonstration can lose its
  second text to this (C101).
* **Sosemanuk**: a packet of a multiple of 16 bytes wastes a block of key
  stream (C28).
* **ChaCha**: each packet starts the same key stream again (C13).
* **DES-CTR**: the counter does not reach the block function; all key stream
  blocks of a packet are equal, and the last third of the nonce is ignored (C52).
* **In-place use** fails for AES-CFB decryption (C40), AEGIS-128 encryption of
  16 bytes or more (C46), Joye-Libert decryption (C85), the decryption of
  labeled products (C88) and their computation (C134).

### Homomorphic encryption
* **Joye-Libert**: keys of given sizes are always the same, since the generator
  is not seeded (C83); key sizes are not guaranteed (C84); p = q is possible for
  one-bit messages (C86); a drawn multiple of p decrypts to 2^k-1 (C61).
* **LabeledHE**: the blinding value depends on stack contents and on earlier
  labels (C65) and has only 32*(k/32) bits, so messages below 32 bits are
  published as they are (C87).
* **muLabeledHE**: the user's public key decrypts to the secret key modulo 2^k
  only (C66). Its include paths are wrong and main.cpp does not compile.

### Authentication
* **Authenticated-encryption example**: section 2 prints "Invalid tag!" and then
  decrypts all the same (C67).
* **MD5**: the code reproduces the published collision of two 128-byte messages
  (C97).  This is a property of MD5, not a defect of the code.
* **HMAC**: the comparison of tags stops at the first wrong byte. Who sees the
  time finds the tag of any message, byte by byte, with at most 256 questions
  per byte (C116).
* **HMAC**: a tag length above 32 or below 0 and a negative key length are not
  checked and are undefined (C119).
* **HMAC, ChaCha**: heap buffers are released without being cleared. What HMAC
  releases suffices to make the tag of every message (C126); what ChaCha
  releases decrypts the packet (C127).
* **AEGIS-128**: who knows two keys can make associated data under which one
  ciphertext and tag are accepted with both (C128).  This is a property of
  AEGIS-128, not a defect of the code.
* **Authenticated-encryption example**: section 1 says that the IV is
  unnecessary.  A receiver with another IV accepts the tag and recovers a wrong
  first block (C129).
* **Authenticated-encryption example**: the two sections share the
  authentication key, and a message of one is accepted in the other (C131).
* **Hex**: a negative size, or one of 2^30 or more, sends hex_encode past every
  buffer (C133).
* **AEGIS-128**: the tag check does not stop early (C132).  It executes one
  assignment for each wrong 32-bit word of the tag; whether that shows depends
  on the compiler.
* **LabeledHE**: labels are encrypted with one and the same key stream, so one
  known message gives all messages under other labels (C130).
* Not modelled, seen while reading: Joye-Libert and LabeledHE never call
  mpz_clear or gmp_randclear, so each call leaks its GMP integers.

## 5. Print Assumptions

`Print Assumptions` says "Closed under the global context" for each of the
following 341 theorems (all that MANIFEST.json names), so none of them depends on
an axiom:

* `AeCrossProps.v`: C131_ae_section1_message_in_section2, C131_ae_section2_message_in_section1, C131_ae_sections_kept_apart_refuted
* `AeIvProps.v`: C129_ae_section1_other_iv, C129_ae_section1_needs_iv_refuted
* `AeProps.v`: C67_ae_never_decrypts_bad_tag_refuted, C67_ae_section1_decrypts_only_valid, C67_ae_section2_exact, C89_hmac_hash_folder_refuted, C89_hmac_hash_folder_exact, C90_ae_example_every_plaintext_refuted, C90_ae_example_recovers, C91_ae_example_defined_refuted, C91_ae_example_standard_exact
* `AegisCommitProps.v`: C128_aegis_accepted_under_any_key, C128_aegis_one_key_refuted
* `AegisLookupProps.v`: C137_aegis_lookups_independent_of_key_refuted, C137_aegis_initialize_lookups, C137_aegis_first_round_shows_key, C137_aegis_initialize_lookups_determine_key
* `AegisProps.v`: C41_aegis_round_trip, C42_aegis_encrypt_is_aegis128, C42_aegis_decrypt_is_aegis128, C43_aegis_short_messages_refuted, C43_aegis_1_to_14_always_undefined, C43_aegis_other_lengths_safe, C44_aegis_accepts_only_the_tag, C45_aegis_accepted_was_encrypted, C46_aegis_decrypt_in_place, C46_aegis_encrypt_in_place_refuted, C46_aegis_encrypt_one_block_in_place_rejected, C46_aegis_encrypt_in_place_absorbs_ciphertext, C46_aegis_encrypt_in_place_one_block, C47_aegis_builds_agree, C48_aegis_independent_of_history, C76_aegis_any_associated_data_refuted, C76_aegis_long_associated_data
* `AegisReuseProps.v`: C115_aegis_iv_reuse, C115_aegis_repeats_show
* `AegisSelfTestProps.v`: C112_aegis_self_test, C112_aegis_self_test_short_undefined
* `AegisTimingProps.v`: C132_aegis_check_exact, C132_aegis_time_hides_tag
* `AesCfbCarryProps.v`: C135_aes_cfb_session_exact, C135_aes_cfb_x86_carries, C135_aes_cfb_carries_last_block_refuted
* `AesCfbReuseProps.v`: C120_aes_cfb_equal_blocks
* `AesInjProps.v`: C92_aes_block_injective, C92_aes_ctr_stream_repeats, C99_aes_cfb_damage
* `AesLookupProps.v`: C136_aes_lookups_independent_of_key_refuted, C136_aes_load_key_lookups, C136_aes_cfb_initialize_lookups, C136_aes_load_key_lookups_determine_key, C136_aes_block_lookups, C136_aes_ctr_packet_lookups, C136_aes_ctr_first_round_shows_key, C136_aes_vector_packets_read_no_table
* `AesProps.v`: C31_aes_is_fips197, C31_aes_cfb_is_fips197, C32_aes_builds_agree, C32_aes_ctr_packets_agree, C33_aes_ctr_is_counter_mode, C33_aes_ctr_continues_across_packets, C34_aes_ctr_every_length_refuted, C34_aes_ctr_follows_counter_mode_refuted, C34_aes_ctr_undefined_exactly, C34_aes_ctr_odd_byte, C35_aes_ctr_round_trip, C36_aes_cfb_round_trip, C36_aes_cfb_undefined_exactly, C37_aes_cfb_is_cfb128, C38_aes_cfb_x86_to_table_refuted, C38_aes_cfb_builds_interoperate, C39_aes_cfb_resynchronises, C39_aes_cfb_receivers_converge, C40_aes_cfb_encrypts_in_place, C40_aes_cfb_decrypts_in_place_refuted, C40_aes_cfb_decrypt_in_place_is_encrypt, C75_aes_cfb_short_packet_is_cfb_refuted, C75_aes_cfb_short_packet, C98_aes_ctr_damage
* `ChachaProps.v`: C11_chacha_is_rfc7539, C12_chacha_round_trip, C13_chacha_history_independent, C13_chacha_keystream_reused, C14_chacha_block_is_rfc7539, C14_chacha_rounds_permute, C70_chacha_long_packets_refuted, C70_chacha_long_packets_exact, C71_byte_swap_refuted, C71_byte_swap_exact, C98_chacha_damage
* `ChachaSelfTestProps.v`: C113_chacha_cipher_test, C113_chacha_block_test, C113_chacha_quarter_test
* `DemoCipherProps.v`: C105_aes_cfb_demo, C105_aes_cfb_demo_undefined, C105_aes_cfb_demo_refuted, C106_aegis_demo, C106_aegis_demo_short_undefined, C106_aegis_demo_recovers_refuted
* `DemoHashProps.v`: C103_sha256_demo_undefined, C103_sha256_demo_refuted, C103_sha256_demo_with_room, C104_hmac_demo
* `DemoHeProps.v`: C109_joye_demo, C109_joye_demo_returns, C110_he_demo
* `DemoHeShipProps.v`: C110_he_demo_returns_only, C110_he_demo_refuted
* `DemoLegacyProps.v`: C107_md5_demo, C107_serpent_demo, C108_des_demo, C108_des_ctr_demo, C108_des_demo_refuted, C108_des_ctr_demo_refuted
* `DemoProps.v`: C100_chacha_demo, C100_hc128_demo, C100_sosemanuk_demo, C101_rabbit_demo, C101_rabbit_demo_recovers_refuted, C101_rabbit_demo_shipped
* `DesComplementProps.v`: C117_des_encrypt_complement, C117_des_decrypt_complement
* `DesFixedProps.v`: C144_des_only_weak_keys_refuted, C144_des_unchanged_blocks_exact, C144_des_unchanged_blocks_all, C144_des_unchanged_packets, C144_des_ctr_nonce_is_keystream
* `DesLookupProps.v`: C138_des_lookups_independent_of_key_refuted, C138_des_block_lookups, C138_des_first_round_shows_subkey, C138_des_first_lookups_suffice
* `DesProps.v`: C49_des_decrypt_inverts_refuted, C49_des_decrypt_after_encrypt, C49_des_decrypt_inverts_if_subkeys_agree, C50_des_block_involution, C51_des_initial_permutation, C51_des_final_permutation, C51_des_permutations_undo, C52_des_ctr_fresh_keystream_refuted, C52_des_ctr_keystream_constant, C52_des_ctr_ignores_nonce_tail, C53_des_ctr_round_trip, C54_des_ctr_every_length_refuted, C54_des_ctr_partial_block_undefined, C54_des_ctr_whole_blocks_inside, C77_des_key_schedule_fips_refuted, C77_des_key_schedule, C77_des_key_schedule_palindromes, C78_des_block_fips_refuted, C78_des_block_exact, C78_des_block_weak_keys, C79_des_parity_bits_ignored, C80_des_every_key_bit_matters_refuted, C80_des_encryption_uses_first_subkey_only, C81_des_ecb_blockwise, C81_des_ecb_round_trip, C82_des_ecb_every_length_refuted, C82_des_ecb_partial_block_undefined
* `HcDistinctProps.v`: C114_hc128_states_distinct
* `HcLastProps.v`: C142_hc128_last_words_exact, C142_hc128_last_words_any_time, C142_hc128_last_words_leak
* `HcLookupProps.v`: C143_hc128_lookups_independent_of_key_refuted, C143_hc128_packet_lookups, C143_hc128_lookups_determine_half, C143_hc128_small_packets_same_lookups
* `HcPeriodProps.v`: C142_hc128_small_packets_readable, C142_hc128_last_words_readable
* `HcProps.v`: C15_hc128_is_estream, C16_hc128_synchronised, C17_hc128_concatenation_refuted, C17_hc128_concatenation_4096, C17_hc128_packet_exact, C98_hc128_damage
* `HcSmallProps.v`: C142_hc128_small_packets_hide_messages_refuted, C142_hc128_small_packets_exact, C142_hc128_small_packets_any_time, C142_hc128_small_packets_leak
* `HeAliasProps.v`: C134_product_over_first_operand, C134_product_over_second_operand, C134_product_elsewhere, C134_product_over_operand_refuted
* `HeLabelProps.v`: C130_labeled_he_labels_related, C130_labeled_he_labels_independent_refuted
* `HeProps.v`: C63_labeled_he_round_trip_refuted, C63_labeled_he_round_trip, C63_labeled_he_short_label_undefined, C63_labeled_he_long_label_undefined, C64_labeled_he_evaluates, C65_labeled_he_label_determines_b_refuted, C65_labeled_he_blinding, C65_labeled_he_full_label, C66_mu_he_user_key_refuted, C66_mu_he_user_key, C87_labeled_he_message_blinded_refuted, C87_labeled_he_blinding_size, C87_labeled_he_small_messages_bare, C88_labeled_he_decrypt_in_place_refuted, C88_labeled_he_decrypt_over_b, C88_labeled_he_decrypt_over_ciphertext
* `HexBoundProps.v`: C102_hex_encode_footprint
* `HexProps.v`: C01_hex_encode_then_decode, C02_hex_decode_then_encode, C02_hex_decode_odd, C03_hex_lowercase_refuted, C03_hex_case_exact, C03_hex_never_rejects, C03_hex_accepts_non_digits_refuted
* `HexSizeProps.v`: C133_hex_encode_every_size_refuted, C133_hex_encode_sizes, C133_hex_encode_other_sizes, C133_hex_decode_every_size
* `HmacLengthProps.v`: C119_hmac_tag_length_exact, C119_hmac_negative_key_length_undefined, C119_hmac_tag_length_refuted
* `HmacProps.v`: C07_hmac_generation_is_rfc2104, C08_hmac_validation_exact, C09_hmac_empty_message_refuted, C09_hmac_empty_message_exact, C10_hmac_key_normalisation, C10_hmac_equivalent_keys
* `HmacTimingProps.v`: C116_hmac_validation_time, C116_hmac_time_hides_tag_refuted
* `JoyeParityProps.v`: C118_joye_libert_parity, C118_joye_libert_generated_key_parity
* `JoyeProps.v`: C59_joye_libert_round_trip, C59_joye_libert_decrypts_message, C59_joye_libert_encrypt_waits, C60_joye_libert_product_adds, C60_joye_libert_inverse_negates, C60_joye_libert_power_multiplies, C60_joye_libert_decrypts_all, C60_joye_libert_encryption_not_divided, C61_joye_libert_always_decryptable_refuted, C61_joye_libert_every_draw, C62_joye_libert_keygen_valid, C62_joye_libert_keygen_defined, C62_joye_libert_generated_key_works, C83_joye_libert_keys_fresh_refuted, C83_joye_libert_keys_repeat, C84_joye_libert_key_size_refuted, C84_joye_libert_p_from_draw, C85_joye_libert_decrypt_in_place_refuted, C85_joye_libert_decrypt_in_place, C86_joye_libert_primes_differ_refuted, C86_joye_libert_primes_differ
* `LoadOrderProps.v`: C139_new_key_takes_effect_refuted, C139_sosemanuk_key_waits_for_iv, C139_sosemanuk_old_key_stays, C139_aes_ctr_key_takes_effect_at_once, C140_sosemanuk_either_order_refuted, C140_rabbit_either_order_refuted, C140_aes_ctr_either_order, C140_sosemanuk_order_exact, C140_rabbit_iv_before_key_is_lost
* `Md5Props.v`: C55_md5_packet_is_rfc1321, C55_md5_is_rfc1321, C56_md5_pieces, C56_md5_ordinary_pieces, C57_md5_update_every_length_refuted, C57_md5_update_exact, C58_md5_final_wipes, C58_md5_final_returns
* `MerkleProps.v`: C93_sha256_collision, C94_md5_collision, C95_hmac_forgery_is_collision, C96_sha256_extension, C96_md5_extension, C97_md5_distinguishes_refuted
* `PolyProps.v`: C68_clamp_is_rfc7539
* `RabbitCycleProps.v`: C121_rabbit_no_short_cycle, C121_rabbit_full_cycle_when_clean, C122_rabbit_ivs_kept_apart
* `RabbitProps.v`: C18_rabbit_synchronised, C18_rabbit_synchronised_strict, C19_rabbit_is_rfc4503_refuted, C20_rabbit_step_exact, C20_rabbit_is_rfc4503_when_clean, C20_rabbit_is_rfc4503_when_clean_no_iv, C21_rabbit_iv_forgets_history_refuted, C21_rabbit_only_carry_survives, C22_rabbit_concatenation, C23_rabbit_no_ub_refuted, C23_rabbit_ub_exact, C23_rabbit_wrapping_total, C23_rabbit_strict_refines_wrapping, C98_rabbit_damage
* `RemainsProps.v`: C126_hmac_released_memory_exact, C126_hmac_released_memory_refuted, C127_chacha_released_memory_exact, C127_chacha_released_memory_refuted
* `SelfTestProps.v`: C111_aes_ctr_self_test, C111_aes_ctr_self_test_undefined, C111_aes_ctr_self_test_refuted
* `SerpentProps.v`: C24_serpent_sboxes, C24_sbox_columns, C25_serpent_key_schedule_refuted, C25_serpent_key_schedule_exact, C25_serpent_short_keys_wrong, C25_serpent_long_key, C26_serpent_safe_refuted, C26_serpent_safe_exact, C73_serpent_keys_distinct, C73_serpent_blocks_distinct, C74_serpent_is_serpent24, C74_serpent_rounds
* `ShaProps.v`: C04_sha256_is_fips, C05_sha256_hash_folder_refuted, C05_sha256_hash_folder_exact, C06_sha256_copies_agree, C69_sha256_long_messages_refuted, C69_sha256_long_messages_exact
* `SosemanukCycleProps.v`: C123_sosemanuk_register_cycle, C123_sosemanuk_no_short_cycle, C123_sosemanuk_zero_register, C124_sosemanuk_ivs_stay_apart, C125_sosemanuk_states_apart_refuted, C125_sosemanuk_second_register, C125_sosemanuk_states_meet, C125_sosemanuk_upper_bits_unused, C125_sosemanuk_registers_stay_apart, C125_specification_states_apart
* `SosemanukLookupProps.v`: C141_sosemanuk_lookups_independent_of_key_refuted, C141_sosemanuk_packet_lookups, C141_sosemanuk_lookups_determine_lfsr, C141_sosemanuk_one_word_remains
* `SosemanukProps.v`: C27_sosemanuk_synchronised, C28_sosemanuk_concatenation_refuted, C28_sosemanuk_packet_exact, C28_sosemanuk_split_skips_block, C29_sosemanuk_is_estream_refuted, C29_sosemanuk_fsm_refuted, C29_sosemanuk_exact, C30_sosemanuk_lfsr, C30_alpha_inverse, C30_lfsr_reversible, C72_sosemanuk_ivs_distinct, C98_sosemanuk_damage

`coqchk` also lists, for the whole development, the parameters
`Coq.ssr.ssrunder.Under_rel.*` (7 entries). They belong to a module type
instance of the standard library that `Setoid` loads; no theorem depends on
them, as the output above shows.
