{
 "claims": [
  {
   "property": "C01",
   "status": "proved",
   "theorems": [
    "C01_chunking",
    "C01_chunking_xof",
    "C01_empty_absorb",
    "C01_empty_absorb_xof",
    "C01_any_history",
    "C01_any_history_empty"
   ],
   "note": "Every public type (LibraryTypes.v lists them all, run-time and static sizes, blake2bp/sp also with OpenMP). Fixed-output types: every history of calls (the _any_history theorems include reset(true) on blake2bp/sp). XOF histories: squeezes are non-empty (see C12), absorb does not follow squeeze before the next reset or set_*. After a squeeze an empty absorb can change the output (C02_squeezed_empty_refuted)."
  },
  {
   "property": "C02",
   "status": "partial",
   "theorems": [
    "C02_squeezed_refuted",
    "C02_squeezed_empty_refuted",
    "C02_absorb_forms",
    "C02_absorb_forms_xof",
    "C02_any_history"
   ],
   "note": "Every public type (LibraryTypes.v lists them all, run-time and static sizes, blake2bp/sp also with OpenMP). Fixed-output types: every history of calls (the _any_history theorems include reset(true) on blake2bp/sp). XOF histories: squeezes are non-empty (see C12), absorb does not follow squeeze before the next reset or set_*. In states after a squeeze the claim is false: the iterator form absorbs byte by byte and gives other output than the pointer form (C02_squeezed_refuted, C02_squeezed_empty_refuted)."
  },
  {
   "property": "C03",
   "status": "proved",
   "theorems": [
    "C03_any_history",
    "C03_any_history_repeats",
    "C03_digest_observes",
    "C03_digest_repeats"
   ],
   "note": "Every public type (LibraryTypes.v lists them all, run-time and static sizes, blake2bp/sp also with OpenMP). The C03_any_history theorems cover every history of calls, also absorb() after squeeze(), empty squeezes and reset(true) on blake2bp/sp; only squeeze(0, iterator) and hexsqueeze(0), which are undefined behaviour (C08_empty_squeeze_refuted), are left out."
  },
  {
   "property": "C04",
   "status": "partial",
   "theorems": [
    "C04_any_history_xof",
    "C04_any_history_ascon_cxof",
    "C04_any_history_blake2p_partial",
    "C04_blake2bp_refuted",
    "C04_blake2sp_refuted",
    "C04_reset_fresh",
    "C04_reset_fresh_xof",
    "C04_any_history"
   ],
   "note": "Every public type (LibraryTypes.v lists them all, run-time and static sizes, blake2bp/sp also with OpenMP). The C04_any_history theorems cover every history of calls, also absorb() after squeeze(), empty squeezes and reset(true) on blake2bp/sp; only squeeze(0, iterator) and hexsqueeze(0), which are undefined behaviour (C08_empty_squeeze_refuted), are left out. blake2bp/sp: the full statement is false when the history contains reset(true) (C04_blake2bp_refuted, C04_blake2sp_refuted), there the object behaves as a new one that received reset(true) once and the set_* calls after the last reset(true) (C04_any_history)."
  },
  {
   "property": "C05",
   "status": "partial",
   "theorems": [
    "C05_ascon_cxof_refuted",
    "C05_any_history_xof_partial",
    "C05_reset_true_fresh_partial",
    "C05_reset_true_fresh_xof_partial",
    "C05_blake2bp_refuted",
    "C05_blake2sp_refuted",
    "C05_blake2p_lost",
    "C05_blake2p_omp_lost"
   ],
   "note": "Proved for every history except for ascon_cxof, blake2bp and blake2sp, where it is refuted (customization survives; the tree parameters are lost). C05_blake2p_lost says exactly what blake2bp/sp compute after reset(true), in every history."
  },
  {
   "property": "C06",
   "status": "proved",
   "theorems": [
    "C06_digest_buffer",
    "C06_any_history"
   ],
   "note": "Every public type (LibraryTypes.v lists them all, run-time and static sizes, blake2bp/sp also with OpenMP). Every history of calls."
  },
  {
   "property": "C07",
   "status": "proved",
   "theorems": [
    "C07_hexdigest",
    "C07_hexsqueeze",
    "C07_hex_injective",
    "C07_any_history",
    "C07_any_history_xof"
   ],
   "note": "Every public type (LibraryTypes.v lists them all, run-time and static sizes, blake2bp/sp also with OpenMP). Fixed-output types: every history of calls (the _any_history theorems include reset(true) on blake2bp/sp). C07_any_history_xof: every history of calls, also absorbs after squeezes and empty squeezes in between; only the pieces themselves are non-empty."
  },
  {
   "property": "C08",
   "status": "partial",
   "theorems": [
    "C08_any_history",
    "C08_any_history_xof",
    "C08_empty_squeeze_refuted",
    "C08_no_undefined_behaviour",
    "C08_no_undefined_behaviour_xof"
   ],
   "note": "Every public type (LibraryTypes.v lists them all, run-time and static sizes, blake2bp/sp also with OpenMP). The C08_any_history theorems cover every history of calls, also absorb() after squeeze(), empty squeezes and reset(true) on blake2bp/sp; only squeeze(0, iterator) and hexsqueeze(0), which are undefined behaviour (C08_empty_squeeze_refuted), are left out. Table lookups and word-array indices inside the compression functions: see the checked versions of C45."
  },
  {
   "property": "C09",
   "status": "proved",
   "theorems": [
    "C09_any_history",
    "C09_any_history_xof",
    "C09_memory_irrelevant",
    "C09_memory_irrelevant_xof"
   ],
   "note": "Every public type (LibraryTypes.v lists them all, run-time and static sizes, blake2bp/sp also with OpenMP). The C09_any_history theorems cover every history of calls, also absorb() after squeeze(), empty squeezes and reset(true) on blake2bp/sp; only squeeze(0, iterator) and hexsqueeze(0), which are undefined behaviour (C08_empty_squeeze_refuted), are left out."
  },
  {
   "property": "C10",
   "status": "partial",
   "theorems": [
    "C10_sha512",
    "C10_kmac",
    "C10_groestl",
    "C10_jh",
    "C10_echo",
    "C10_lsh",
    "C10_skein",
    "C10_blake2",
    "C10_blake2x_partial",
    "C10_blake2x_refuted",
    "C10_size_list_refuted",
    "C10_size_list_partial",
    "C10_accepted_undefined"
   ],
   "note": "Exact set of accepted sizes proved for sha512/t, kmac, groestl, jh, echo, lsh, skein, blake2b/s, blake2bp/sp (all size_t values, any memory). Refuted for blake, sha3, kupyna, streebog, esch: the overload of validate_hash_size taking a list rejects only 0, and some of the sizes accepted by mistake lead to undefined behaviour (C10_accepted_undefined). Refuted for blake2xb/blake2xs, documented as arbitrary but limited to 16368 / 4080 bits."
  },
  {
   "property": "C11",
   "status": "proved",
   "theorems": [
    "C11_squeeze_pieces",
    "C11_any_history"
   ],
   "note": "Every public type (LibraryTypes.v lists them all, run-time and static sizes, blake2bp/sp also with OpenMP). Histories: squeezes are non-empty (see C12), absorb does not follow squeeze before the next reset or set_*, no reset(true) on blake2bp/blake2sp (see C05). C11_any_history: every history of calls, also absorbs after squeezes and empty squeezes in between; only the pieces themselves are non-empty."
  },
  {
   "property": "C12",
   "status": "partial",
   "theorems": [
    "C12_shake128_refuted",
    "C12_shake256_refuted",
    "C12_cshake128_refuted",
    "C12_cshake256_refuted",
    "C12_kmac128_xof_refuted",
    "C12_kmac256_xof_refuted",
    "C12_k12_refuted",
    "C12_m14_refuted",
    "C12_kt256_refuted",
    "C12_ascon_xof_refuted",
    "C12_ascon_cxof_refuted",
    "C12_esch256_xof_refuted",
    "C12_esch384_xof_refuted",
    "C12_blake2xb_xof_refuted",
    "C12_blake2xs_xof_refuted",
    "C12_skein256_xof_refuted",
    "C12_skein512_xof_refuted",
    "C12_skein1024_xof_refuted",
    "C12_types",
    "C12_sponge_partial",
    "C12_other_partial",
    "C12_boundary",
    "C12_first",
    "C12_first_esch256",
    "C12_first_esch384",
    "C12_first_skein",
    "C12_first_blake2x"
   ],
   "note": "False of the code, refuted for every XOF type. Exact for every type, history and position: harmless once output has been squeezed (sponges: away from block boundaries); at a boundary it loses a block; as the first squeeze it loses up to a block, or discloses the chaining value (Skein) or the root hash (BLAKE2X)."
  },
  {
   "property": "C13",
   "status": "proved",
   "theorems": [
    "C13_static_same",
    "C13_any_history"
   ],
   "note": "Every public type (LibraryTypes.v lists them all, run-time and static sizes, blake2bp/sp also with OpenMP). Every history of calls."
  },
  {
   "property": "C14",
   "status": "proved",
   "theorems": [
    "C14_md5_conforms"
   ],
   "note": "All histories; RFC 1321 with the length taken modulo 2^64."
  },
  {
   "property": "C15",
   "status": "proved",
   "theorems": [
    "C15_sha1_conforms"
   ],
   "note": ""
  },
  {
   "property": "C16",
   "status": "proved",
   "theorems": [
    "C16_sha224_conforms",
    "C16_sha256_conforms"
   ],
   "note": ""
  },
  {
   "property": "C17",
   "status": "proved",
   "theorems": [
    "C17_sha384_conforms",
    "C17_sha512_conforms",
    "C17_sha512_384_conforms",
    "C17_sha512t_conforms"
   ],
   "note": "IVs derived from the SHA-512/t generation function."
  },
  {
   "property": "C18",
   "status": "proved",
   "theorems": [
    "C18_sha3_conforms",
    "C18_sha3_static_conforms"
   ],
   "note": ""
  },
  {
   "property": "C19",
   "status": "proved",
   "theorems": [
    "C19_shake128_conforms",
    "C19_shake256_conforms"
   ],
   "note": "Non-empty squeezes; for empty ones see C12."
  },
  {
   "property": "C20",
   "status": "partial",
   "theorems": [
    "C20_cshake128_conforms_partial",
    "C20_cshake256_conforms_partial",
    "C20_cshake128_refuted",
    "C20_cshake256_refuted",
    "C20_cshake128_exact",
    "C20_cshake256_exact",
    "C20_fits",
    "C20_spills"
   ],
   "note": "Proved when the unpadded header is not a multiple of the rate; refuted otherwise. The _exact theorems say what the code computes for all parameters, messages and histories: 1 to w instead of 0 to w - 1 zero bytes of padding, so that a header filling its block is followed by a block of zeros (C20_spills)."
  },
  {
   "property": "C21",
   "status": "partial",
   "theorems": [
    "C21_kmac128_conforms_partial",
    "C21_kmac128_static_conforms_partial",
    "C21_kmac128_xof_conforms_partial",
    "C21_kmac128_refuted",
    "C21_kmac128_xof_refuted",
    "C21_kmac256_conforms_partial",
    "C21_kmac256_static_conforms_partial",
    "C21_kmac256_xof_conforms_partial",
    "C21_kmac256_refuted",
    "C21_kmac256_xof_refuted",
    "C21_kmac128_exact",
    "C21_kmac256_exact",
    "C21_kmac128_xof_exact",
    "C21_kmac256_xof_exact"
   ],
   "note": "Proved when the unpadded header is not a multiple of the rate; refuted otherwise. The _exact theorems say what the code computes for all parameters, messages and histories: 1 to w instead of 0 to w - 1 zero bytes of padding, so that a header filling its block is followed by a block of zeros (C20_spills)."
  },
  {
   "property": "C22",
   "status": "proved",
   "theorems": [
    "C22_k12_conforms",
    "C22_m14_conforms",
    "C22_kt256_conforms"
   ],
   "note": ""
  },
  {
   "property": "C23",
   "status": "proved",
   "theorems": [
    "C23_blake2b_conforms",
    "C23_blake2s_conforms"
   ],
   "note": "All histories; messages shorter than 2^61 bytes (the byte counter of the specification is taken modulo 2^61)."
  },
  {
   "property": "C24",
   "status": "proved",
   "theorems": [
    "C24_blake2xb_conforms",
    "C24_blake2xs_conforms",
    "C24_blake2xb_xof_conforms",
    "C24_blake2xs_xof_conforms"
   ],
   "note": "All histories, all output lengths; non-empty squeezes, see C12."
  },
  {
   "property": "C25",
   "status": "proved",
   "theorems": [
    "C25_blake2bp_conforms",
    "C25_blake2sp_conforms",
    "C25_blake2bp_openmp_conforms",
    "C25_blake2sp_openmp_conforms",
    "C25_schedule_independence",
    "C25_reset_true_lost"
   ],
   "note": "All histories without reset(true) (which is broken, see C05; C25_reset_true_lost says what is computed instead), every schedule of the OpenMP loop that keeps the blocks of one leaf in order; messages shorter than 2^61 bytes per leaf (byte counters of the specification are taken modulo 2^61)."
  },
  {
   "property": "C26",
   "status": "proved",
   "theorems": [
    "C26_blake_conforms"
   ],
   "note": "All histories; the bit counter of the specification is taken modulo 2^64."
  },
  {
   "property": "C27",
   "status": "partial",
   "theorems": [
    "C27_sm3_conforms_partial",
    "C27_sm3_defined_refuted"
   ],
   "note": "Conformance on machines with masked shift counts; definedness refuted (shift by 32)."
  },
  {
   "property": "C28",
   "status": "partial",
   "theorems": [
    "C28_streebog_exact",
    "C28_streebog_refuted",
    "C28_streebog_partial",
    "C28_streebog_checksum"
   ],
   "note": "Refuted in full: addm (streebog_provider.hpp:87-98) loses a carry when a 64-bit word sums to 2^64-1 and receives a carry. Proved for every message below 2^61 bytes in whose checksum no carry is lost; the exact condition is C28_streebog_checksum. C28_streebog_exact says what is computed for all messages and histories, with the lossy addition and the 64-bit counter spelled out."
  },
  {
   "property": "C29",
   "status": "proved",
   "theorems": [
    "C29_whirlpool_conforms"
   ],
   "note": ""
  },
  {
   "property": "C30",
   "status": "proved",
   "theorems": [
    "C30_groestl_conforms",
    "C30_groestl_padding"
   ],
   "note": "All sizes and histories; the number of blocks is taken modulo 2^61/bs (exact below 2^61 - 256 bytes, C30_groestl_padding)."
  },
  {
   "property": "C31",
   "status": "proved",
   "theorems": [
    "C31_kupyna_conforms"
   ],
   "note": "All histories; the length is taken modulo 2^64. S-boxes transcribed from the standard."
  },
  {
   "property": "C32",
   "status": "proved",
   "theorems": [
    "C32_jh_conforms"
   ],
   "note": "All sizes 8..512 that are multiples of 8 and all histories; the length field is the bit count modulo 2^64 (exact below 2^61 bytes)."
  },
  {
   "property": "C33",
   "status": "proved",
   "theorems": [
    "C33_echo_conforms",
    "C33_echo_length"
   ],
   "note": "All sizes, salts and histories; the length field is the bit count modulo 2^64, exact below 2^61 bytes (C33_echo_length). An absent salt is sixteen zero bytes."
  },
  {
   "property": "C34",
   "status": "partial",
   "theorems": [
    "C34_lsh_conforms_partial",
    "C34_lsh_defined_refuted"
   ],
   "note": "Proved for all sizes and histories when out-of-range shift counts are masked; as C++ the rotation by gamma = 0 shifts by the width, so construction itself is undefined (refuted)."
  },
  {
   "property": "C35",
   "status": "proved",
   "theorems": [
    "C35_skein_conforms",
    "C35_skein_xof_conforms"
   ],
   "note": "All state sizes, digest sizes, parameter sets and histories; tweak position taken modulo 2^64; non-empty squeezes, see C12."
  },
  {
   "property": "C36",
   "status": "proved",
   "theorems": [
    "C36_ascon_hash_conforms",
    "C36_ascon_xof_conforms",
    "C36_ascon_cxof_conforms"
   ],
   "note": "reset(true) on ascon_cxof is treated in C05."
  },
  {
   "property": "C37",
   "status": "proved",
   "theorems": [
    "C37_esch256_conforms",
    "C37_esch384_conforms",
    "C37_esch256_xof_conforms",
    "C37_esch384_xof_conforms"
   ],
   "note": ""
  },
  {
   "property": "C38",
   "status": "proved",
   "theorems": [
    "C38_any_history",
    "C38_any_history_xof",
    "C38_set_throws",
    "C38_set_throws_xof",
    "C38_rejected_unchanged",
    "C38_rejected_unchanged_xof"
   ],
   "note": "Every public type (LibraryTypes.v lists them all, run-time and static sizes, blake2bp/sp also with OpenMP). The C38_any_history theorems cover every history of calls, also absorb() after squeeze(), empty squeezes and reset(true) on blake2bp/sp; only squeeze(0, iterator) and hexsqueeze(0), which are undefined behaviour (C08_empty_squeeze_refuted), are left out."
  },
  {
   "property": "C39",
   "status": "partial",
   "theorems": [
    "C39_any_history_xof",
    "C39_any_history_ascon_cxof",
    "C39_any_history_blake2p_partial",
    "C39_blake2bp_refuted",
    "C39_blake2sp_refuted",
    "C39_any_history_commute",
    "C39_any_history_commute_xof",
    "C39_any_history_last",
    "C39_any_history_last_xof",
    "C39_set_restarts",
    "C39_set_restarts_xof",
    "C39_setters_commute",
    "C39_setters_commute_xof",
    "C39_last_set_wins",
    "C39_last_set_wins_xof",
    "C39_any_history"
   ],
   "note": "Every public type (LibraryTypes.v lists them all, run-time and static sizes, blake2bp/sp also with OpenMP). The C39_any_history theorems cover every history of calls, also absorb() after squeeze(), empty squeezes and reset(true) on blake2bp/sp; only squeeze(0, iterator) and hexsqueeze(0), which are undefined behaviour (C08_empty_squeeze_refuted), are left out. For blake2bp/sp the claim is false after reset(true) (C39_blake2bp_refuted, C39_blake2sp_refuted); there the new object has to receive reset(true) too (C39_any_history)."
  },
  {
   "property": "C40",
   "status": "proved",
   "theorems": [
    "C40_any_history",
    "C40_objects_independent",
    "C40_objects_total",
    "C40_const_calls"
   ],
   "note": "Objects as per-object state, calls as the unit of interleaving."
  },
  {
   "property": "C41",
   "status": "proved",
   "theorems": [
    "C41_copies_independent"
   ],
   "note": "Copies are member-wise."
  },
  {
   "property": "C42",
   "status": "proved",
   "theorems": [
    "C42_cshake_inputs",
    "C42_k12_inputs",
    "C42_cshake",
    "C42_kmac",
    "C42_k12",
    "C42_ascon_cxof",
    "C42_encode_string"
   ],
   "note": "cSHAKE/KMAC as the code builds the header (always at least one zero byte, see C20), K12/M14/KT256 including the tree, ascon_cxof; C42_*_inputs and C44_kmac*_inputs tie the inputs to the types for all call histories."
  },
  {
   "property": "C43",
   "status": "proved",
   "theorems": [
    "C43_lsh_inputs",
    "C43_sha3_inputs",
    "C43_shake_inputs",
    "C43_ascon_inputs",
    "C43_esch_inputs",
    "C43_md",
    "C43_kupyna",
    "C43_groestl",
    "C43_jh",
    "C43_lsh",
    "C43_echo",
    "C43_blake",
    "C43_blake2",
    "C43_blake2p",
    "C43_skein",
    "C43_streebog",
    "C43_keccak",
    "C43_ascon",
    "C43_esch"
   ],
   "note": "C43_*: the sequences of compression/permutation inputs (blocks with counters, tweaks or domain constants) of different messages differ; without length bound except BLAKE and Skein (2^61 bytes). C47_* and C43_*_inputs tie these sequences to what every type computes after any calls."
  },
  {
   "property": "C44",
   "status": "proved",
   "theorems": [
    "C44_xof_prefix",
    "C44_kmac_inputs",
    "C44_kmacxof_inputs",
    "C44_kmac_length",
    "C44_any_history"
   ],
   "note": "KMAC: C44_kmac_inputs/C44_kmac_length. XOF: C44_xof_prefix for every type in xlibrary, non-empty squeezes (see C12). C44_any_history: every history of calls, also absorbs after squeezes and empty squeezes in between; only the pieces themselves are non-empty."
  },
  {
   "property": "C45",
   "status": "partial",
   "theorems": [
    "C45_md5_shifts",
    "C45_sha1_shifts",
    "C45_sha2_shifts",
    "C45_blake_shifts",
    "C45_blake2_shifts",
    "C45_blake2_init_shifts",
    "C45_blake2x_shifts",
    "C45_keccak_shifts",
    "C45_ascon_shifts",
    "C45_esch_shifts",
    "C45_jh_shifts",
    "C45_skein_shifts",
    "C45_skein_tweak_shifts",
    "C45_whirlpool_shifts",
    "C45_groestl_shifts",
    "C45_kupyna_shifts",
    "C45_streebog_shifts",
    "C45_echo_shifts",
    "C45_encode_shifts",
    "C45_byteswap_shifts",
    "C45_sm3_refuted",
    "C45_sm3_rounds_refuted",
    "C45_sm3_partial",
    "C45_lsh_refuted",
    "C45_lsh_gamma_refuted",
    "C45_lsh_partial"
   ],
   "note": "Refuted for SM3 (C45_sm3_refuted: every digest; sm3_provider.hpp:137, 153) and LSH (C45_lsh_refuted: every constructor; lsh_provider.hpp:176), whose other shifts are in range (C45_sm3_partial, C45_lsh_partial). For every other shift of the library: the checked computation (Checked.v, undefined behaviour as an outcome) yields exactly the words of the model, for all states of the type's length and all inputs. The checked versions also check table and state array indices."
  },
  {
   "property": "C46",
   "status": "proved",
   "theorems": [
    "C46_byteswap",
    "C46_byteswap_involution",
    "C46_byteswap_bytes",
    "C46_rotations",
    "C46_rotations_inverse"
   ],
   "note": "functions.hpp: byteswap for 16, 32 and 64 bits, rotate_left and rotate_right for every width and every count strictly between 0 and the width."
  },
  {
   "property": "C47",
   "status": "proved",
   "theorems": [
    "C47_md5",
    "C47_sha1",
    "C47_sha2",
    "C47_sm3",
    "C47_whirlpool",
    "C47_kupyna",
    "C47_jh",
    "C47_exact",
    "C47_groestl",
    "C47_groestl_exact",
    "C47_blake",
    "C47_echo",
    "C47_counters_exact",
    "C47_blake2",
    "C47_blake2x",
    "C47_blake2x_xof",
    "C47_blake2p",
    "C47_blake2p_omp",
    "C47_blake2_exact",
    "C47_skein",
    "C47_skein_xof",
    "C47_streebog",
    "C47_streebog_exact"
   ],
   "note": "For every type with a length or counter, after any calls (hence any chunking). Groestl encodes the number of blocks, exact while the padded message is shorter than 2^61 bytes. BLAKE2 counters are kept modulo 2^61 bytes, Skein positions modulo 2^64 bytes."
  },
  {
   "property": "C48",
   "status": "partial",
   "theorems": [
    "C48_blake2b_salt_refuted",
    "C48_blake2b_personalization_refuted",
    "C48_blake2s_salt_refuted",
    "C48_blake2s_personalization_refuted",
    "C48_blake2xb_salt_refuted",
    "C48_blake2xs_salt_refuted",
    "C48_blake2xb_xof_salt_refuted",
    "C48_blake2xs_xof_salt_refuted",
    "C48_blake2bp_salt_refuted",
    "C48_blake2bp_personalization_refuted",
    "C48_blake2sp_salt_refuted",
    "C48_blake2sp_personalization_refuted",
    "C48_cshake",
    "C48_kmac128",
    "C48_kmac256",
    "C48_k12",
    "C48_ascon_cxof",
    "C48_blake2_key",
    "C48_blake2p_key",
    "C48_blake_salt",
    "C48_skein",
    "C48_echo_salt"
   ],
   "note": "Refuted for BLAKE2, BLAKE2X and BLAKE2bp/sp salt and personalization; proved for the parameters of cSHAKE, KMAC, K12, Ascon-CXOF, Skein, BLAKE2 keys and the BLAKE and ECHO salts."
  },
  {
   "property": "C49",
   "status": "proved",
   "theorems": [
    "C49_whirlpool_tables",
    "C49_groestl_tables",
    "C49_kupyna_tables",
    "C49_streebog_tables",
    "C49_echo_tables"
   ],
   "note": "Every entry of every table, against the S-box and the GF(2^8) matrix of each specification."
  },
  {
   "property": "C50",
   "status": "proved",
   "theorems": [
    "C50_md5_constants",
    "C50_md5_iv",
    "C50_sha1_iv",
    "C50_sha1_constants",
    "C50_sha256_constants",
    "C50_sha512_constants",
    "C50_sha256_iv",
    "C50_sha224_iv",
    "C50_sha512_iv",
    "C50_sha384_iv",
    "C50_sha512t_iv",
    "C50_blake_constants",
    "C50_blake_iv",
    "C50_blake2_iv",
    "C50_esch_constants",
    "C50_frac_word_unique",
    "C50_skein_constant",
    "C50_keccak_constants",
    "C50_ascon_constants",
    "C50_ascon_iv",
    "C50_whirlpool_constants",
    "C50_jh_constants",
    "C50_lsh_constants"
   ],
   "note": "Every table entry and initial value with a published rule: MD5 (sine), SHA-1/SHA-2 (square and cube roots of primes, stated over the reals), SHA-512/t IV generation, BLAKE (pi), BLAKE2 (square roots), SPARKLE (e), Threefish C240 (AES-256), Keccak (LFSR), Ascon (constants and permuted initial states), Whirlpool (S-box), JH (sqrt 2 and R6), LSH (recurrence). Round constants that the code computes by formula (Groestl, Kupyna, ECHO) are covered by the conformance theorems. The Streebog constants have no rule in the standard."
  },
  {
   "property": "C51",
   "status": "partial",
   "theorems": [
    "C51_clear",
    "C51_clear_strings",
    "C51_reset_forgets",
    "C51_reset_zero_refuted",
    "C51_ascon_cxof_keeps"
   ],
   "note": "Every clear(), hence every destructor, overwrites chaining state, buffer, salt and key strings with zeros, in every state; reset(true) leaves a state independent of the history. Literally 'only zeros after reset(true)' is refuted: it re-initialises, so the chaining state holds the IV (and KMAC's K the encoding of the empty key). Bytes of a std::string beyond size() are not modelled."
  },
  {
   "property": "C52",
   "status": "proved",
   "theorems": [
    "C52_absorb_continues",
    "C52_any_history"
   ],
   "note": "Every public type (LibraryTypes.v lists them all, run-time and static sizes, blake2bp/sp also with OpenMP). Every history of calls."
  },
  {
   "property": "C53",
   "status": "proved",
   "theorems": [
    "C53_blake2_inputs",
    "C53_blake2x_inputs",
    "C53_blake2x_xof_inputs",
    "C53_blake2",
    "C53_nodes",
    "C53_x_node",
    "C53_blake2p_inputs",
    "C53_blake2p",
    "C53_skein_inputs",
    "C53_skein_xof_inputs",
    "C53_skein",
    "C53_blake_inputs",
    "C53_blake",
    "C53_echo_inputs",
    "C53_echo"
   ],
   "note": "All digest sizes of blake2b/s, blake2xb/xs and their XOF forms, blake2bp/sp (also OpenMP), skein, blake, echo, and all parameters any history of calls can put in force. BLAKE below 2^61 bytes and Skein below 2^64 bytes of message (and of each parameter), because the code's counters wrap there; BLAKE2X output nodes below index 2^32 for the same reason."
  },
  {
   "property": "C54",
   "status": "proved",
   "theorems": [
    "C54_keccak",
    "C54_ascon",
    "C54_sparkle",
    "C54_blake",
    "C54_blake2",
    "C54_md5",
    "C54_sha1",
    "C54_sha2",
    "C54_sm3",
    "C54_skein",
    "C54_jh",
    "C54_lsh",
    "C54_groestl",
    "C54_groestl_Q",
    "C54_kupyna",
    "C54_kupyna_Q",
    "C54_whirlpool",
    "C54_streebog",
    "C54_echo"
   ],
   "note": "Keccak, Ascon, Sparkle, BLAKE, BLAKE2 as permutations of the model's state arrays; where a compression function feeds its input forward, the theorem removes that input again from the result of the model's compression function. One to one by inverting every layer (linear layers by inverse matrices or bit relations checked on a basis), onto by counting."
  },
  {
   "property": "C55",
   "status": "proved",
   "theorems": [
    "C55_sha512",
    "C55_sha256",
    "C55_jh",
    "C55_lsh",
    "C55_groestl",
    "C55_kupyna",
    "C55_streebog",
    "C55_blake",
    "C55_echo",
    "C55_sha3_inputs",
    "C55_shake_inputs",
    "C55_cshake_inputs",
    "C55_kmac_inputs",
    "C55_kmacxof_inputs",
    "C55_keccak",
    "C55_keccak_exceptions",
    "C55_k12_inputs",
    "C55_k12",
    "C55_ascon",
    "C55_esch"
   ],
   "note": "Sizes: SHA-512/t for every t, SHA-224/256, JH, LSH, Groestl, Kupyna, Streebog, BLAKE, ECHO start from different values (BLAKE2 and Skein: C53). SHA-3, SHAKE, cSHAKE, KMAC, KMACXOF: equal blocks, compared as additions to the whole state, mean the same function, parameters and message; C55_*_inputs link these blocks to the code for every call history. KangarooTwelve and KT256, the three Ascon functions, Esch and XOEsch likewise. C55_keccak_exceptions: cSHAKE without parameters is SHAKE and the name KMAC is KMAC's, as in SP 800-185."
  },
  {
   "property": "C56",
   "status": "proved",
   "theorems": [
    "C56_md5",
    "C56_sha1",
    "C56_sha256",
    "C56_sha512",
    "C56_sm3",
    "C56_whirlpool",
    "C56_streebog512",
    "C56_blake",
    "C56_blake2",
    "C56_sha2_short",
    "C56_blake_short",
    "C56_blake2_short",
    "C56_blake2x",
    "C56_blake2x_xof",
    "C56_kupyna",
    "C56_jh",
    "C56_groestl",
    "C56_echo",
    "C56_streebog",
    "C56_skein",
    "C56_skein_xof",
    "C56_lsh",
    "C56_blake2p",
    "C56_blake2p_omp",
    "C56_sha3",
    "C56_shake",
    "C56_cshake",
    "C56_kmac",
    "C56_kmacxof",
    "C56_k12",
    "C56_ascon",
    "C56_esch",
    "C56_long_md",
    "C56_long_jh",
    "C56_long_groestl",
    "C56_long_streebog",
    "C56_long_blake2"
   ],
   "note": "The conclusion names the colliding calls: both occur in the run that C42, C43, C44 and C47 prove to be the one the code makes. Bounds: 2^61 bytes (length fields of 64 bits), 2^61-256 for Groestl, 2^61-128 for BLAKE2, 2^64 for Skein, none for LSH and the sponges; C56_long_* have no bound and allow that the chain returns to the initial value. The example for MD5 runs the collision of Wang et al. through the model."
  },
  {
   "property": "C57",
   "status": "proved",
   "theorems": [
    "C57_direct",
    "C57_direct_xof",
    "C57_last_values",
    "C57_last_values_xof"
   ],
   "note": "C57_direct and C57_direct_xof give the direct form, C57_last_values and C57_last_values_xof drop the order and the overwritten values. The exception for empty values is the defect refuted in C48. reset(true) of BLAKE2bp and BLAKE2sp (see C04), squeezing 0 bytes and absorbing after squeezing are not calls of these histories (see C02 and C12)."
  },
  {
   "property": "C58",
   "status": "proved",
   "theorems": [
    "C58_calls",
    "C58_calls_xof",
    "C58_direct",
    "C58_direct_xof",
    "C58_low_bytes"
   ],
   "note": "C58_calls(_xof): exact state and results for every provider, state and history. C58_direct(_xof): for the types of the library such histories reduce to settings, bytes and squeezed length as in C57 (same exceptions). C58_stream_tail shows the consequence that a stream with exceptions enabled loses its last incomplete buffer. Exceptions of memory allocation are not modelled."
  },
  {
   "property": "C59",
   "status": "proved",
   "theorems": [
    "C59_blake",
    "C59_blake_static",
    "C59_blake2p",
    "C59_blake2p_omp",
    "C59_blake2",
    "C59_blake2_static",
    "C59_blake2x_xof",
    "C59_k12",
    "C59_blake2_long_refuted"
   ],
   "note": "the loops as written (Exact.v) give the results of Blake.v, Blake2.v, Blake2p.v and K12.v, over which the other properties are proved; C59_blake2_long_refuted shows on one object with the counter of 2^61 - 128 bytes that the bound of BLAKE2 is real"
  },
  {
   "property": "C60",
   "status": "proved",
   "theorems": [
    "C60_md5",
    "C60_sha1",
    "C60_sha2",
    "C60_sm3",
    "C60_keccak",
    "C60_ascon",
    "C60_esch",
    "C60_blake",
    "C60_blake2",
    "C60_jh",
    "C60_skein",
    "C60_lsh",
    "C60_whirlpool",
    "C60_groestl",
    "C60_kupyna",
    "C60_streebog",
    "C60_echo",
    "C60_whirlpool_column",
    "C60_whirlpool_indices",
    "C60_groestl_indices",
    "C60_kupyna_indices",
    "C60_streebog_indices",
    "C60_echo_indices"
   ],
   "note": "the program of each function is the function itself on symbolic words (Oblivious.v), equal to the model at machine words; C60_*_indices: two inputs with different table indices. Source level only: what the compiler makes of it is not modelled."
  },
  {
   "property": "C61",
   "status": "partial",
   "theorems": [
    "C61_refuted",
    "C61_aligned_iff_partial",
    "C61_any_size_partial",
    "C61_multiples_partial",
    "C61_k12_partial",
    "C61_blake2p",
    "C61_model"
   ],
   "note": "false of the code: after a number of bytes that is no multiple of the word size, whole blocks of the next call are read at an unaligned address (C61_refuted, every provider that casts the pointer; LSH, ECHO and the leaves of blake2bp/sp copy first). Proved instead: exactly which calls do so (C61_aligned_iff_partial, C61_any_size_partial, C61_k12_partial) and that aligned data in multiples of words is safe (C61_multiples_partial). The addresses of the buffers inside the object are a hypothesis; reading bytes through word pointers at all (strict aliasing) is not modelled."
  },
  {
   "property": "C62",
   "status": "proved",
   "theorems": [
    "C62_outcome",
    "C62_outcome_xof",
    "C62_accepts",
    "C62_accepts_xof",
    "C62_lengths_only",
    "C62_lengths_only_xof"
   ],
   "note": "for every history with byte arguments (also absorb after squeeze and reset(true) on blake2bp/sp); squeeze(0, iterator) and hexsqueeze(0) are excluded, they are undefined (C12)."
  },
  {
   "property": "C63",
   "status": "proved",
   "theorems": [
    "C63_absorb",
    "C63_absorb_wraps"
   ],
   "note": "the calls of transform and the new position; C61_model ties the version without overflow to the model used everywhere else. In the other functions all subtractions of sizes are guarded by a comparison, they are not restated."
  },
  {
   "property": "C64",
   "status": "proved",
   "theorems": [
    "C64_md5",
    "C64_sha1",
    "C64_sha256",
    "C64_sha512",
    "C64_sm3",
    "C64_whirlpool",
    "C64_equal_digests"
   ],
   "note": "SHA-512 at its full size, run-time and static; the other types do not show the whole chaining value in the digest (C56 covers them). From C47 and the decoding of the digest."
  },
  {
   "property": "C65",
   "status": "partial",
   "theorems": [
    "C65_hexdigest_partial",
    "C65_hexsqueeze_partial",
    "C65_hexdigest_grouped",
    "C65_exact",
    "C65_hexdigest_refuted"
   ],
   "note": "false for locales whose grouping starts with 1, which separate single digits (C65_hexdigest_refuted); proved for all other locales, with the exact output and condition for the rest (C65_hexdigest_grouped, C65_exact). The formatting of the standard library is modelled from the C++ standard."
  },
  {
   "property": "C66",
   "status": "partial",
   "theorems": [
    "C66_absorb_documented",
    "C66_absorb_iterator",
    "C66_set_documented",
    "C66_absorb_others",
    "C66_absorb_std_byte",
    "C66_absorb_same",
    "C66_absorb_same_xof",
    "C66_squeeze_buffer",
    "C66_output_iterator",
    "C66_round_trip",
    "C66_digest_buffer_partial",
    "C66_digest_buffer_refuted"
   ],
   "note": "false for digest(buffer, length): copy.final(buf) has no reinterpret_cast, so it compiles for unsigned char only (C66_digest_buffer_refuted, C66_digest_buffer_partial); proved for all other calls. Well-formedness is modelled as the template condition and the conversions in the body of each function."
  },
  {
   "property": "C67",
   "status": "partial",
   "theorems": [
    "C67_calls_partial",
    "C67_update_partial",
    "C67_64",
    "C67_counter",
    "C67_md5_512MB",
    "C67_cshake_partial",
    "C67_kmac_partial",
    "C67_kmacxof_partial",
    "C67_ascon_cxof_partial",
    "C67_kmac_512MB",
    "C67_kmac_refuted",
    "C67_refuted"
   ],
   "note": "false for single arguments of 2^(W-3) bytes or more (C67_refuted, 512 MB at 32 bits: C67_md5_512MB; keys of KMAC: C67_kmac_refuted, C67_kmac_512MB); proved for all sequences of calls with shorter arguments, for the counting types (C67_calls_partial) and for cSHAKE, KMAC and Ascon-CXOF, which encode the lengths of strings (C67_cshake_partial etc.), and the exact counter in general (C67_counter). SHA-3, SHAKE, Esch and Skein output neither; K12's counter of chunks, also a size_t, is not modelled at other widths."
  },
  {
   "property": "C68",
   "status": "partial",
   "theorems": [
    "C68_hash_partial",
    "C68_xof_partial",
    "C68_kmac_partial",
    "C68_kmacxof_partial",
    "C68_blake2p_partial",
    "C68_kmac_repair",
    "C68_blake2p_repair",
    "C68_kmac_refuted",
    "C68_blake2p_refuted",
    "C68_hexsqueeze_refuted",
    "C68_hexdigest_refuted"
   ],
   "note": "false for reset(true) of KMAC (C68_kmac_refuted), set_key of blake2bp/sp after its first allocation (C68_blake2p_refuted), hexsqueeze and squeeze to an iterator after the squeeze (C68_hexsqueeze_refuted), and the string stream of hexdigest and hexsqueeze (C68_hexdigest_refuted); proved for all other failures in every history, with the lost or truncated outputs described exactly, and the two broken states are repaired by the next reset(true) or set_key (C68_kmac_repair, C68_blake2p_repair). Which calls allocate, and in which order, is part of the model."
  },
  {
   "property": "C69",
   "status": "partial",
   "theorems": [
    "C69_default_partial",
    "C69_default_refuted",
    "C69_jh",
    "C69_sized",
    "C69_static_partial",
    "C69_static_zero",
    "C69_static_refuted",
    "C69_static_zero_same",
    "C69_two_sizes_partial",
    "C69_two_sizes_refuted",
    "C69_skein_ignores",
    "C69_documented",
    "C69_xof",
    "C69_digest_bits",
    "C69_default_size",
    "C69_static_same",
    "C69_covered_partial",
    "C69_declared",
    "C69_xdeclared"
   ],
   "note": "False as stated for jh (default size although none is documented), static_size types with size 0 (the run-time types), the limit of blake2xb/blake2xs and Skein with a second size (ignored), each refuted; for everything else exactly the documented declarations compile and construct the types of the other theorems."
  },
  {
   "property": "C70",
   "status": "partial",
   "theorems": [
    "C70_types",
    "C70_types_xof",
    "C70_empty_partial",
    "C70_empty_xof_partial",
    "C70_same_partial",
    "C70_same_xof_partial",
    "C70_no_effect_partial",
    "C70_no_effect_xof_partial",
    "C70_strict_refuted",
    "C70_strict_xof_refuted",
    "C70_setters",
    "C70_setters_xof"
   ],
   "note": "Proved if memcpy may be given a null pointer with 0 bytes. Under the rules up to C23/C++23 it may not: there absorb(nullptr, 0) is undefined on every type, and so are set_salt and set_personalization of BLAKE2 and BLAKE2p (refuted, exactly these calls); all other setters are proved for both rules."
  },
  {
   "property": "C71",
   "status": "proved",
   "theorems": [
    "C71_serial",
    "C71_safe",
    "C71_distinct_objects",
    "C71_const_methods",
    "C71_conflict_races",
    "C71_no_other",
    "C71_const_calls"
   ],
   "note": "A call is two or three steps (begin, copy of the provider for const calls, end), threads interleave in any way, a data race is an overlap of conflicting calls. Safe exactly under the condition of README.md:301-303; without data races the results are those of a serial order. Sequentially consistent interleaving; copying and destruction of shared objects not modelled."
  },
  {
   "property": "C72",
   "status": "partial",
   "theorems": [
    "C72_types",
    "C72_same_partial",
    "C72_defined_partial",
    "C72_first",
    "C72_strict_refuted",
    "C72_strict_or"
   ],
   "note": "Proved if memcpy may be given a null pointer with 0 bytes: the same as with an empty array, on any memory. Under the rules up to C23/C++23 it may not: there the call is proved for the first squeeze after construction or reset, and undefined on every type when that squeeze ended inside a block of output (refuted); no other outcome is possible."
  },
  {
   "property": "C73",
   "status": "proved",
   "theorems": [
    "C73_hash",
    "C73_xof",
    "C73_digest_const",
    "C73_hexdigest",
    "C73_hexsqueeze",
    "C73_size_needed"
   ],
   "note": "For every provider that meets a written contract on direct calls of init, update, final/squeeze, clear and the setters; nothing is asked of the object after final. The contract is shown for MD5, BLAKE and SHAKE128 of the library, a keyed check sum and an extendable output written for the purpose, and its parts on pieces and on the size of the digest are shown to be needed. Setters must leave the object alone when they throw; histories of XOFs are those of the documentation."
  },
  {
   "property": "C74",
   "status": "proved",
   "theorems": [
    "C74_blocks",
    "C74_calls",
    "C74_cut",
    "C74_chain"
   ],
   "note": "absorb_bytes with an arbitrary transform as a parameter; the calls are recorded. Lengths are natural numbers (C63 has the arithmetic of size_t). The transform of ECHO, which changes the buffer, is outside C74_calls; C33 covers it."
  },
  {
   "property": "C75",
   "status": "proved",
   "theorems": [
    "C75_stream",
    "C75_count",
    "C75_shake",
    "C75_ascon",
    "C75_esch",
    "C75_kmac",
    "C75_k12"
   ],
   "note": "The loop of shake_provider.hpp:137-155 and ascon_provider.hpp:104-123 with the permutation as a parameter, and esch_squeeze (esch_provider.hpp:124-160) as it is; KMAC-XOF and K12 through their inner SHAKE object; calls are counted by a permutation that counts. Empty squeezes are excluded: after a whole block they call the permutation (C12)."
  }
 ]
}