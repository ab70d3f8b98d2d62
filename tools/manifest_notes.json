{
 "C01": [
  "proved",
  "Every public type (LibraryTypes.v lists them all, run-time and static sizes, blake2bp/sp also with OpenMP). Fixed-output types: every history of calls (the _any_history theorems include reset(true) on blake2bp/sp). XOF histories: squeezes are non-empty (see C12), absorb does not follow squeeze before the next reset or set_*. After a squeeze an empty absorb can change the output (C02_squeezed_empty_refuted)."
 ],
 "C02": [
  "partial",
  "Every public type (LibraryTypes.v lists them all, run-time and static sizes, blake2bp/sp also with OpenMP). Fixed-output types: every history of calls (the _any_history theorems include reset(true) on blake2bp/sp). XOF histories: squeezes are non-empty (see C12), absorb does not follow squeeze before the next reset or set_*. In states after a squeeze the claim is false: the iterator form absorbs byte by byte and gives other output than the pointer form (C02_squeezed_refuted, C02_squeezed_empty_refuted)."
 ],
 "C03": [
  "proved",
  "Every public type (LibraryTypes.v lists them all, run-time and static sizes, blake2bp/sp also with OpenMP). The C03_any_history theorems cover every history of calls, also absorb() after squeeze(), empty squeezes and reset(true) on blake2bp/sp; only squeeze(0, iterator) and hexsqueeze(0), which are undefined behaviour (C08_empty_squeeze_refuted), are left out."
 ],
 "C04": [
  "partial",
  "Every public type (LibraryTypes.v lists them all, run-time and static sizes, blake2bp/sp also with OpenMP). The C04_any_history theorems cover every history of calls, also absorb() after squeeze(), empty squeezes and reset(true) on blake2bp/sp; only squeeze(0, iterator) and hexsqueeze(0), which are undefined behaviour (C08_empty_squeeze_refuted), are left out. blake2bp/sp: the full statement is false when the history contains reset(true) (C04_blake2bp_refuted, C04_blake2sp_refuted), there the object behaves as a new one that received reset(true) once and the set_* calls after the last reset(true) (C04_any_history)."
 ],
 "C05": [
  "partial",
  "Proved for every history except for ascon_cxof, blake2bp and blake2sp, where it is refuted (customization survives; the tree parameters are lost). C05_blake2p_lost says exactly what blake2bp/sp compute after reset(true), in every history."
 ],
 "C06": [
  "proved",
  "Every public type (LibraryTypes.v lists them all, run-time and static sizes, blake2bp/sp also with OpenMP). Every history of calls."
 ],
 "C07": [
  "proved",
  "Every public type (LibraryTypes.v lists them all, run-time and static sizes, blake2bp/sp also with OpenMP). Fixed-output types: every history of calls (the _any_history theorems include reset(true) on blake2bp/sp). C07_any_history_xof: every history of calls, also absorbs after squeezes and empty squeezes in between; only the pieces themselves are non-empty."
 ],
 "C08": [
  "partial",
  "Every public type (LibraryTypes.v lists them all, run-time and static sizes, blake2bp/sp also with OpenMP). The C08_any_history theorems cover every history of calls, also absorb() after squeeze(), empty squeezes and reset(true) on blake2bp/sp; only squeeze(0, iterator) and hexsqueeze(0), which are undefined behaviour (C08_empty_squeeze_refuted), are left out. Table lookups and word-array indices inside the compression functions: see the checked versions of C45."
 ],
 "C09": [
  "proved",
  "Every public type (LibraryTypes.v lists them all, run-time and static sizes, blake2bp/sp also with OpenMP). The C09_any_history theorems cover every history of calls, also absorb() after squeeze(), empty squeezes and reset(true) on blake2bp/sp; only squeeze(0, iterator) and hexsqueeze(0), which are undefined behaviour (C08_empty_squeeze_refuted), are left out."
 ],
 "C10": [
  "partial",
  "Exact set of accepted sizes proved for sha512/t, kmac, groestl, jh, echo, lsh, skein, blake2b/s, blake2bp/sp (all size_t values, any memory). Refuted for blake, sha3, kupyna, streebog, esch: the overload of validate_hash_size taking a list rejects only 0, and some of the sizes accepted by mistake lead to undefined behaviour (C10_accepted_undefined). Refuted for blake2xb/blake2xs, documented as arbitrary but limited to 16368 / 4080 bits."
 ],
 "C11": [
  "proved",
  "Every public type (LibraryTypes.v lists them all, run-time and static sizes, blake2bp/sp also with OpenMP). Histories: squeezes are non-empty (see C12), absorb does not follow squeeze before the next reset or set_*, no reset(true) on blake2bp/blake2sp (see C05). C11_any_history: every history of calls, also absorbs after squeezes and empty squeezes in between; only the pieces themselves are non-empty."
 ],
 "C12": [
  "partial",
  "False of the code, refuted for every XOF type. Exact for every type, history and position: harmless once output has been squeezed (sponges: away from block boundaries); at a boundary it loses a block; as the first squeeze it loses up to a block, or discloses the chaining value (Skein) or the root hash (BLAKE2X)."
 ],
 "C13": [
  "proved",
  "Every public type (LibraryTypes.v lists them all, run-time and static sizes, blake2bp/sp also with OpenMP). Every history of calls."
 ],
 "C14": [
  "proved",
  "All histories; RFC 1321 with the length taken modulo 2^64."
 ],
 "C15": [
  "proved",
  ""
 ],
 "C16": [
  "proved",
  ""
 ],
 "C17": [
  "proved",
  "IVs derived from the SHA-512/t generation function."
 ],
 "C18": [
  "proved",
  ""
 ],
 "C19": [
  "proved",
  "Non-empty squeezes; for empty ones see C12."
 ],
 "C20": [
  "partial",
  "Proved when the unpadded header is not a multiple of the rate; refuted otherwise. The _exact theorems say what the code computes for all parameters, messages and histories: 1 to w instead of 0 to w - 1 zero bytes of padding, so that a header filling its block is followed by a block of zeros (C20_spills)."
 ],
 "C21": [
  "partial",
  "Proved when the unpadded header is not a multiple of the rate; refuted otherwise. The _exact theorems say what the code computes for all parameters, messages and histories: 1 to w instead of 0 to w - 1 zero bytes of padding, so that a header filling its block is followed by a block of zeros (C20_spills)."
 ],
 "C22": [
  "proved",
  ""
 ],
 "C23": [
  "proved",
  "All histories; messages shorter than 2^61 bytes (the byte counter of the specification is taken modulo 2^61)."
 ],
 "C24": [
  "proved",
  "All histories, all output lengths; non-empty squeezes, see C12."
 ],
 "C25": [
  "proved",
  "All histories without reset(true) (which is broken, see C05; C25_reset_true_lost says what is computed instead), every schedule of the OpenMP loop that keeps the blocks of one leaf in order; messages shorter than 2^61 bytes per leaf (byte counters of the specification are taken modulo 2^61)."
 ],
 "C26": [
  "proved",
  "All histories; the bit counter of the specification is taken modulo 2^64."
 ],
 "C27": [
  "partial",
  "Conformance on machines with masked shift counts; definedness refuted (shift by 32)."
 ],
 "C28": [
  "partial",
  "Refuted in full: addm (streebog_provider.hpp:87-98) loses a carry when a 64-bit word sums to 2^64-1 and receives a carry. Proved for every message below 2^61 bytes in whose checksum no carry is lost; the exact condition is C28_streebog_checksum. C28_streebog_exact says what is computed for all messages and histories, with the lossy addition and the 64-bit counter spelled out."
 ],
 "C29": [
  "proved",
  ""
 ],
 "C30": [
  "proved",
  "All sizes and histories; the number of blocks is taken modulo 2^61/bs (exact below 2^61 - 256 bytes, C30_groestl_padding)."
 ],
 "C31": [
  "proved",
  "All histories; the length is taken modulo 2^64. S-boxes transcribed from the standard."
 ],
 "C32": [
  "proved",
  "All sizes 8..512 that are multiples of 8 and all histories; the length field is the bit count modulo 2^64 (exact below 2^61 bytes)."
 ],
 "C33": [
  "proved",
  "All sizes, salts and histories; the length field is the bit count modulo 2^64, exact below 2^61 bytes (C33_echo_length). An absent salt is sixteen zero bytes."
 ],
 "C34": [
  "partial",
  "Proved for all sizes and histories when out-of-range shift counts are masked; as C++ the rotation by gamma = 0 shifts by the width, so construction itself is undefined (refuted)."
 ],
 "C35": [
  "proved",
  "All state sizes, digest sizes, parameter sets and histories; tweak position taken modulo 2^64; non-empty squeezes, see C12."
 ],
 "C36": [
  "proved",
  "reset(true) on ascon_cxof is treated in C05."
 ],
 "C37": [
  "proved",
  ""
 ],
 "C38": [
  "proved",
  "Every public type (LibraryTypes.v lists them all, run-time and static sizes, blake2bp/sp also with OpenMP). The C38_any_history theorems cover every history of calls, also absorb() after squeeze(), empty squeezes and reset(true) on blake2bp/sp; only squeeze(0, iterator) and hexsqueeze(0), which are undefined behaviour (C08_empty_squeeze_refuted), are left out."
 ],
 "C39": [
  "partial",
  "Every public type (LibraryTypes.v lists them all, run-time and static sizes, blake2bp/sp also with OpenMP). The C39_any_history theorems cover every history of calls, also absorb() after squeeze(), empty squeezes and reset(true) on blake2bp/sp; only squeeze(0, iterator) and hexsqueeze(0), which are undefined behaviour (C08_empty_squeeze_refuted), are left out. For blake2bp/sp the claim is false after reset(true) (C39_blake2bp_refuted, C39_blake2sp_refuted); there the new object has to receive reset(true) too (C39_any_history)."
 ],
 "C40": [
  "proved",
  "Objects as per-object state, calls as the unit of interleaving."
 ],
 "C41": [
  "proved",
  "Copies are member-wise."
 ],
 "C42": [
  "proved",
  "cSHAKE/KMAC as the code builds the header (always at least one zero byte, see C20), K12/M14/KT256 including the tree, ascon_cxof; C42_*_inputs and C44_kmac*_inputs tie the inputs to the types for all call histories."
 ],
 "C43": [
  "proved",
  "C43_*: the sequences of compression/permutation inputs (blocks with counters, tweaks or domain constants) of different messages differ; without length bound except BLAKE and Skein (2^61 bytes). C47_* and C43_*_inputs tie these sequences to what every type computes after any calls."
 ],
 "C44": [
  "proved",
  "KMAC: C44_kmac_inputs/C44_kmac_length. XOF: C44_xof_prefix for every type in xlibrary, non-empty squeezes (see C12). C44_any_history: every history of calls, also absorbs after squeezes and empty squeezes in between; only the pieces themselves are non-empty."
 ],
 "C45": [
  "partial",
  "Refuted for SM3 (C45_sm3_refuted: every digest; sm3_provider.hpp:137, 153) and LSH (C45_lsh_refuted: every constructor; lsh_provider.hpp:176), whose other shifts are in range (C45_sm3_partial, C45_lsh_partial). For every other shift of the library: the checked computation (Checked.v, undefined behaviour as an outcome) yields exactly the words of the model, for all states of the type's length and all inputs. The checked versions also check table and state array indices."
 ],
 "C46": [
  "proved",
  "functions.hpp: byteswap for 16, 32 and 64 bits, rotate_left and rotate_right for every width and every count strictly between 0 and the width."
 ],
 "C47": [
  "proved",
  "For every type with a length or counter, after any calls (hence any chunking). Groestl encodes the number of blocks, exact while the padded message is shorter than 2^61 bytes. BLAKE2 counters are kept modulo 2^61 bytes, Skein positions modulo 2^64 bytes."
 ],
 "C48": [
  "partial",
  "Refuted for BLAKE2, BLAKE2X and BLAKE2bp/sp salt and personalization; proved for the parameters of cSHAKE, KMAC, K12, Ascon-CXOF, Skein, BLAKE2 keys and the BLAKE and ECHO salts."
 ],
 "C49": [
  "proved",
  "Every entry of every table, against the S-box and the GF(2^8) matrix of each specification."
 ],
 "C50": [
  "proved",
  "Every table entry and initial value with a published rule: MD5 (sine), SHA-1/SHA-2 (square and cube roots of primes, stated over the reals), SHA-512/t IV generation, BLAKE (pi), BLAKE2 (square roots), SPARKLE (e), Threefish C240 (AES-256), Keccak (LFSR), Ascon (constants and permuted initial states), Whirlpool (S-box), JH (sqrt 2 and R6), LSH (recurrence). Round constants that the code computes by formula (Groestl, Kupyna, ECHO) are covered by the conformance theorems. The Streebog constants have no rule in the standard."
 ],
 "C51": [
  "partial",
  "Every clear(), hence every destructor, overwrites chaining state, buffer, salt and key strings with zeros, in every state; reset(true) leaves a state independent of the history. Literally 'only zeros after reset(true)' is refuted: it re-initialises, so the chaining state holds the IV (and KMAC's K the encoding of the empty key). Bytes of a std::string beyond size() are not modelled."
 ],
 "C52": [
  "proved",
  "Every public type (LibraryTypes.v lists them all, run-time and static sizes, blake2bp/sp also with OpenMP). Every history of calls."
 ],
 "C53": [
  "proved",
  "All digest sizes of blake2b/s, blake2xb/xs and their XOF forms, blake2bp/sp (also OpenMP), skein, blake, echo, and all parameters any history of calls can put in force. BLAKE below 2^61 bytes and Skein below 2^64 bytes of message (and of each parameter), because the code's counters wrap there; BLAKE2X output nodes below index 2^32 for the same reason."
 ],
 "C54": [
  "proved",
  "Keccak, Ascon, Sparkle, BLAKE, BLAKE2 as permutations of the model's state arrays; where a compression function feeds its input forward, the theorem removes that input again from the result of the model's compression function. One to one by inverting every layer (linear layers by inverse matrices or bit relations checked on a basis), onto by counting."
 ],
 "C55": [
  "proved",
  "Sizes: SHA-512/t for every t, SHA-224/256, JH, LSH, Groestl, Kupyna, Streebog, BLAKE, ECHO start from different values (BLAKE2 and Skein: C53). SHA-3, SHAKE, cSHAKE, KMAC, KMACXOF: equal blocks, compared as additions to the whole state, mean the same function, parameters and message; C55_*_inputs link these blocks to the code for every call history. KangarooTwelve and KT256, the three Ascon functions, Esch and XOEsch likewise. C55_keccak_exceptions: cSHAKE without parameters is SHAKE and the name KMAC is KMAC's, as in SP 800-185."
 ],
 "C56": [
  "proved",
  "The conclusion names the colliding calls: both occur in the run that C42, C43, C44 and C47 prove to be the one the code makes. Bounds: 2^61 bytes (length fields of 64 bits), 2^61-256 for Groestl, 2^61-128 for BLAKE2, 2^64 for Skein, none for LSH and the sponges; C56_long_* have no bound and allow that the chain returns to the initial value. The example for MD5 runs the collision of Wang et al. through the model."
 ],
 "C57": [
  "proved",
  "C57_direct and C57_direct_xof give the direct form, C57_last_values and C57_last_values_xof drop the order and the overwritten values. The exception for empty values is the defect refuted in C48. reset(true) of BLAKE2bp and BLAKE2sp (see C04), squeezing 0 bytes and absorbing after squeezing are not calls of these histories (see C02 and C12)."
 ],
 "C58": [
  "proved",
  "C58_calls(_xof): exact state and results for every provider, state and history. C58_direct(_xof): for the types of the library such histories reduce to settings, bytes and squeezed length as in C57 (same exceptions). C58_stream_tail shows the consequence that a stream with exceptions enabled loses its last incomplete buffer. Exceptions of memory allocation are not modelled."
 ],
 "C59": [
  "proved",
  "the loops as written (Exact.v) give the results of Blake.v, Blake2.v, Blake2p.v and K12.v, over which the other properties are proved; C59_blake2_long_refuted shows on one object with the counter of 2^61 - 128 bytes that the bound of BLAKE2 is real"
 ],
 "C60": [
  "proved",
  "the program of each function is the function itself on symbolic words (Oblivious.v), equal to the model at machine words; C60_*_indices: two inputs with different table indices. Source level only: what the compiler makes of it is not modelled."
 ],
 "C61": [
  "partial",
  "false of the code: after a number of bytes that is no multiple of the word size, whole blocks of the next call are read at an unaligned address (C61_refuted, every provider that casts the pointer; LSH, ECHO and the leaves of blake2bp/sp copy first). Proved instead: exactly which calls do so (C61_aligned_iff_partial, C61_any_size_partial, C61_k12_partial) and that aligned data in multiples of words is safe (C61_multiples_partial). The addresses of the buffers inside the object are a hypothesis; reading bytes through word pointers at all (strict aliasing) is not modelled."
 ],
 "C62": [
  "proved",
  "for every history with byte arguments (also absorb after squeeze and reset(true) on blake2bp/sp); squeeze(0, iterator) and hexsqueeze(0) are excluded, they are undefined (C12)."
 ],
 "C63": [
  "proved",
  "the calls of transform and the new position; C61_model ties the version without overflow to the model used everywhere else. In the other functions all subtractions of sizes are guarded by a comparison, they are not restated."
 ],
 "C64": [
  "proved",
  "SHA-512 at its full size, run-time and static; the other types do not show the whole chaining value in the digest (C56 covers them). From C47 and the decoding of the digest."
 ],
 "C65": [
  "partial",
  "false for locales whose grouping starts with 1, which separate single digits (C65_hexdigest_refuted); proved for all other locales, with the exact output and condition for the rest (C65_hexdigest_grouped, C65_exact). The formatting of the standard library is modelled from the C++ standard."
 ],
 "C66": [
  "partial",
  "false for digest(buffer, length): copy.final(buf) has no reinterpret_cast, so it compiles for unsigned char only (C66_digest_buffer_refuted, C66_digest_buffer_partial); proved for all other calls. Well-formedness is modelled as the template condition and the conversions in the body of each function."
 ],
 "C67": [
  "partial",
  "false for single arguments of 2^(W-3) bytes or more (C67_refuted, 512 MB at 32 bits: C67_md5_512MB; keys of KMAC: C67_kmac_refuted, C67_kmac_512MB); proved for all sequences of calls with shorter arguments, for the counting types (C67_calls_partial) and for cSHAKE, KMAC and Ascon-CXOF, which encode the lengths of strings (C67_cshake_partial etc.), and the exact counter in general (C67_counter). SHA-3, SHAKE, Esch and Skein output neither; K12's counter of chunks, also a size_t, is not modelled at other widths."
 ],
 "C68": [
  "partial",
  "false for reset(true) of KMAC (C68_kmac_refuted), set_key of blake2bp/sp after its first allocation (C68_blake2p_refuted), hexsqueeze and squeeze to an iterator after the squeeze (C68_hexsqueeze_refuted), and the string stream of hexdigest and hexsqueeze (C68_hexdigest_refuted); proved for all other failures in every history, with the lost or truncated outputs described exactly, and the two broken states are repaired by the next reset(true) or set_key (C68_kmac_repair, C68_blake2p_repair). Which calls allocate, and in which order, is part of the model."
 ],
 "C69": [
  "partial",
  "False as stated for jh (default size although none is documented), static_size types with size 0 (the run-time types), the limit of blake2xb/blake2xs and Skein with a second size (ignored), each refuted; for everything else exactly the documented declarations compile and construct the types of the other theorems."
 ],
 "C70": [
  "partial",
  "Proved if memcpy may be given a null pointer with 0 bytes. Under the rules up to C23/C++23 it may not: there absorb(nullptr, 0) is undefined on every type, and so are set_salt and set_personalization of BLAKE2 and BLAKE2p (refuted, exactly these calls); all other setters are proved for both rules."
 ],
 "C71": [
  "proved",
  "A call is two or three steps (begin, copy of the provider for const calls, end), threads interleave in any way, a data race is an overlap of conflicting calls. Safe exactly under the condition of README.md:301-303; without data races the results are those of a serial order. Sequentially consistent interleaving; copying and destruction of shared objects not modelled."
 ],
 "C72": [
  "partial",
  "Proved if memcpy may be given a null pointer with 0 bytes: the same as with an empty array, on any memory. Under the rules up to C23/C++23 it may not: there the call is proved for the first squeeze after construction or reset, and undefined on every type when that squeeze ended inside a block of output (refuted); no other outcome is possible."
 ],
 "C73": [
  "proved",
  "For every provider that meets a written contract on direct calls of init, update, final/squeeze, clear and the setters; nothing is asked of the object after final. The contract is shown for MD5, BLAKE and SHAKE128 of the library, a keyed check sum and an extendable output written for the purpose, and its parts on pieces and on the size of the digest are shown to be needed. Setters must leave the object alone when they throw; histories of XOFs are those of the documentation."
 ],
 "C74": [
  "proved",
  "absorb_bytes with an arbitrary transform as a parameter; the calls are recorded. Lengths are natural numbers (C63 has the arithmetic of size_t). The transform of ECHO, which changes the buffer, is outside C74_calls; C33 covers it."
 ],
 "C75": [
  "proved",
  "The loop of shake_provider.hpp:137-155 and ascon_provider.hpp:104-123 with the permutation as a parameter, and esch_squeeze (esch_provider.hpp:124-160) as it is; KMAC-XOF and K12 through their inner SHAKE object; calls are counted by a permutation that counts. Empty squeezes are excluded: after a whole block they call the permutation (C12)."
 ]
}