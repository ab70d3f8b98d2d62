{"id": "C01", "title": "Chunking does not matter", "statement": "For every hash type, hashing a message through any sequence of absorb() calls gives the same digest()/squeeze() output as hashing the concatenation with a single absorb() call; an empty absorb() call has no effect.", "quantifier": "every message, every way to split it into any number of chunks of any size (including empty chunks), every hash type and parameter setting", "why_tests_cant": "update_test only splits one fixed 256-byte pattern into two pieces; the buffering code has a different path for each relation between buffer fill level, chunk length and block size, and the number of splits is unbounded", "anchors": ["hasher.hpp:absorb", "detail/absorb_data.hpp:absorb_bytes", "algorithm/detail/*_provider.hpp:update"]}
{"id": "C02", "title": "All absorb forms agree", "statement": "absorb(pointer,len), absorb(array), absorb(std::string / std::basic_string), absorb(istream) and absorb(iterator pair) over the same bytes leave the hasher in states that give identical digests for every continuation.", "quantifier": "every byte sequence, every hasher state reached by earlier calls, every later continuation; for streams every way the stream splits its reads into 64 KiB blocks plus a short tail", "why_tests_cant": "tests use a handful of fixed inputs; stream absorption loops over full 64 KiB blocks and a remainder, iterator absorption makes one call per byte", "anchors": ["hasher.hpp:absorb (pointer, array, basic_string, string, istream, iterator overloads)"]}
{"id": "C03", "title": "digest() and hexdigest() are observers", "statement": "digest() (all overloads) and hexdigest() do not change the hasher: calling them any number of times, anywhere in a sequence of calls, changes neither later digests nor the effect of later absorb() calls, and repeated calls return the same bytes.", "quantifier": "every history of absorb / digest / hexdigest / reset calls, every hash type", "why_tests_cant": "the set of interleavings is unbounded; a test can only try a few positions", "anchors": ["hasher.hpp:digest", "hasher.hpp:hexdigest", "README.md (digest()/hexdigest() do not change the state)"]}
{"id": "C04", "title": "reset() equals a fresh hasher with the same parameters", "statement": "After any history, reset() makes the hasher behave exactly like a newly constructed hasher on which the same customization parameters (key, salt, personalization, customization, nonce, ...) were set.", "quantifier": "every history before the reset, every continuation after it, every type", "why_tests_cant": "left-over state (buffer position, length counter, checksum, squeezing flag, tree state) may only show up for particular histories", "anchors": ["hasher.hpp:reset", "algorithm/detail/*_provider.hpp:init"]}
{"id": "C05", "title": "reset(true) equals a fresh hasher without parameters", "statement": "After any history, reset(true) makes the hasher behave exactly like a newly constructed hasher with no customization parameters set.", "quantifier": "every history before the reset, every continuation after it, every type", "why_tests_cant": "requires comparing all histories; the suite never calls reset(true) with parameters set on most types", "anchors": ["hasher.hpp:reset", "algorithm/detail/*_provider.hpp:clear", "README.md (reset)"]}
{"id": "C06", "title": "digest(buffer,len) respects the buffer", "statement": "digest(buf,len) throws if and only if len is smaller than the digest size in bytes, in which case nothing is written; otherwise exactly the first hash_size/8 bytes of buf are overwritten with the digest and all other bytes keep their value.", "quantifier": "every hash size the type supports, every buffer length and content, every absorbed message", "why_tests_cant": "tests call digest with exactly sized buffers only", "anchors": ["hasher.hpp:digest(T*,size_t)"]}
{"id": "C07", "title": "hexdigest / hexsqueeze are the lowercase hex encoding", "statement": "hexdigest() (hexsqueeze(n)) returns a string of exactly two characters per byte, all in [0-9a-f], most significant nibble first, equal to the encoding of digest() (squeeze(n)); it can be decoded back, so two hex strings are equal iff the byte strings are.", "quantifier": "every digest value and every length", "why_tests_cant": "the per-byte formatting goes through a locale-aware stream, tests only see hash values that happen to occur", "anchors": ["hasher.hpp:hexdigest", "hasher.hpp:hexsqueeze", "detail/stream_width_fixer.hpp"]}
{"id": "C08", "title": "No out-of-bounds access", "statement": "For every supported hash size, no sequence of API calls reads or writes outside the internal message buffer, the chaining state, the constant tables, the caller's input range or the caller's output range.", "quantifier": "every history of calls with arbitrary message and chunk lengths", "why_tests_cant": "an overflow may need a particular combination of buffer fill and chunk length, and may not be visible in outputs", "anchors": ["detail/absorb_data.hpp:absorb_bytes", "algorithm/detail/*_provider.hpp:update,final,squeeze"]}
{"id": "C09", "title": "Results do not depend on uninitialised memory", "statement": "The digest of a newly constructed hasher after any sequence of calls does not depend on the contents of the memory the hasher object was constructed in.", "quantifier": "every initial memory contents, every history, every supported size", "why_tests_cant": "tests run with whatever memory they get", "anchors": ["algorithm/detail/*_provider.hpp: constructors, init, final"]}
{"id": "C10", "title": "Unsupported sizes are rejected", "statement": "Constructing a hasher with a run-time digest size throws exactly for the sizes outside the documented set (size not positive, not a multiple of 8, larger than the maximum, or not in the documented list).", "quantifier": "every size_t value", "why_tests_cant": "the suite never constructs with a bad size; the domain is 2^64 values", "anchors": ["detail/validate_hash_size.hpp:validate_hash_size", "algorithm/detail/{blake,blake2,echo,esch,groestl,jh,kupyna,lsh,sha2,sha3,skein,streebog}_provider.hpp constructors"]}
{"id": "C11", "title": "Squeezing in pieces (non-empty)", "statement": "For every extendable-output type, squeezing a stream in any sequence of non-empty pieces and concatenating them gives the same bytes as one squeeze() of the total length.", "quantifier": "every message, every list of positive piece lengths, every XOF type and parameter set", "why_tests_cant": "xof_test compares only byte-by-byte vs 1000-byte batch on a few inputs", "anchors": ["hasher.hpp:squeeze", "algorithm/detail/{shake,kmac,k12m14,blake2,skein,esch,ascon}_provider.hpp:squeeze"]}
{"id": "C12", "title": "Empty squeeze is harmless", "statement": "squeeze() with length 0 returns nothing and does not change the bytes produced by any later squeeze().", "quantifier": "every message and every position in the output stream, every XOF type", "why_tests_cant": "never tested; depends on internal position at the time of the call", "anchors": ["hasher.hpp:squeeze", "algorithm/detail/{shake,kmac,k12m14,blake2,skein,esch,ascon}_provider.hpp:squeeze"]}
{"id": "C13", "title": "Run-time size and static size variants agree", "statement": "For every algorithm with both variants, the hasher with the size given at construction and the static_size variant compute the same function.", "quantifier": "every supported size, every message and every history", "why_tests_cant": "tests compare a few sizes on one message", "anchors": ["algorithm/*.hpp (static_size)", "algorithm/detail/*_provider.hpp: hash_size()"]}
{"id": "C14", "title": "MD5 conforms to RFC 1321", "statement": "md5 returns the RFC 1321 digest of the absorbed bytes.", "quantifier": "every message shorter than 2^61 bytes", "why_tests_cant": "known-answer tests cover finitely many messages", "anchors": ["algorithm/md5.hpp", "algorithm/detail/md5_provider.hpp", "algorithm/detail/constants/md5_constants.hpp"]}
{"id": "C15", "title": "SHA-1 conforms to FIPS 180-4", "statement": "sha1 returns the FIPS 180-4 SHA-1 digest of the absorbed bytes.", "quantifier": "every message shorter than 2^61 bytes", "why_tests_cant": "known-answer tests cover finitely many messages", "anchors": ["algorithm/sha1.hpp", "algorithm/detail/sha1_provider.hpp"]}
{"id": "C16", "title": "SHA-224/SHA-256 conform to FIPS 180-4", "statement": "sha224 and sha256 return the FIPS 180-4 digests of the absorbed bytes.", "quantifier": "every message shorter than 2^61 bytes", "why_tests_cant": "known-answer tests cover finitely many messages", "anchors": ["algorithm/sha2.hpp", "algorithm/detail/sha2_provider.hpp", "algorithm/detail/constants/sha2_constants.hpp"]}
{"id": "C17", "title": "SHA-384/SHA-512/SHA-512/t conform to FIPS 180-4", "statement": "sha384, sha512 and sha512(t) return the FIPS 180-4 digests, where the initial value for sha512(t) is the one generated by the SHA-512/t IV generation function for every t (including the precomputed values for 224 and 256).", "quantifier": "every message shorter than 2^61 bytes and every t that is a positive multiple of 8 below 512 except 384", "why_tests_cant": "known-answer tests cover finitely many messages and only t=224,256", "anchors": ["algorithm/sha2.hpp", "algorithm/detail/sha2_provider.hpp", "algorithm/detail/constants/sha2_constants.hpp"]}
{"id": "C18", "title": "SHA-3 conforms to FIPS 202", "statement": "sha3(224|256|384|512) returns the FIPS 202 digest of the absorbed bytes.", "quantifier": "every message, each of the four sizes", "why_tests_cant": "known-answer tests cover finitely many messages", "anchors": ["algorithm/sha3.hpp", "algorithm/detail/sha3_provider.hpp"]}
{"id": "C19", "title": "SHAKE conforms to FIPS 202", "statement": "shake128/shake256 produce the FIPS 202 output stream of the absorbed bytes.", "quantifier": "every message, every output length, every split of the output into non-empty pieces", "why_tests_cant": "known-answer tests cover finitely many messages and lengths", "anchors": ["algorithm/shake.hpp", "algorithm/detail/shake_provider.hpp"]}
{"id": "C20", "title": "cSHAKE conforms to SP 800-185", "statement": "cshake128/cshake256 with function name N and customization S produce the SP 800-185 cSHAKE output; with N=S='' they equal SHAKE.", "quantifier": "every N, S, message and output length", "why_tests_cant": "the header padding depends on |N|+|S| modulo the rate; the suite has two vectors", "anchors": ["algorithm/shake.hpp", "algorithm/detail/shake_provider.hpp:init"]}
{"id": "C21", "title": "KMAC conforms to SP 800-185", "statement": "kmac128/kmac256 (and their _xof forms) return SP 800-185 KMAC / KMACXOF of key, message, customization and output length.", "quantifier": "every key, customization, message, output length", "why_tests_cant": "suite has a handful of vectors", "anchors": ["algorithm/kmac.hpp", "algorithm/detail/kmac_provider.hpp"]}
{"id": "C22", "title": "KangarooTwelve / MarsupilamiFourteen / KT256 tree hashing", "statement": "k12 (kt128), m14 and kt256 produce the output of the specified Sakura tree hash over the 8192-byte chunks of message||customization||length_encode(|customization|).", "quantifier": "every message, customization, output length and split into absorb calls", "why_tests_cant": "chunk boundary behaviour at multiples of 8192 with arbitrary split points is not covered", "anchors": ["algorithm/k12m14.hpp", "algorithm/detail/k12m14_provider.hpp"]}
{"id": "C23", "title": "BLAKE2b/BLAKE2s conform to RFC 7693", "statement": "blake2b/blake2s with any supported size, key, salt and personalization return the BLAKE2 digest of the absorbed bytes.", "quantifier": "every message shorter than 2^61 bytes, every key, salt, personalization and size", "why_tests_cant": "finite vectors only", "anchors": ["algorithm/blake2.hpp", "algorithm/detail/blake2_provider.hpp"]}
{"id": "C24", "title": "BLAKE2X", "statement": "blake2xb/blake2xs and their _xof forms return the BLAKE2X output: concatenated output nodes B2(i, min(outlen, rest), H0) of the root hash H0.", "quantifier": "every message, key, salt, personalization and output length", "why_tests_cant": "finite vectors only", "anchors": ["algorithm/blake2.hpp", "algorithm/detail/blake2_provider.hpp"]}
{"id": "C25", "title": "BLAKE2bp/BLAKE2sp tree and schedule independence", "statement": "blake2bp/blake2sp return the tree hash of 4 (8) leaves over the round-robin split of the message, and the result does not depend on the order or interleaving in which the leaves are processed when built with OpenMP.", "quantifier": "every message, every split into absorb calls, every schedule of the parallel loop", "why_tests_cant": "schedules and message splits are unbounded", "anchors": ["algorithm/blake2p.hpp", "algorithm/detail/blake2p_provider.hpp"]}
{"id": "C26", "title": "BLAKE conforms to its specification", "statement": "blake(224|256|384|512) with any salt returns the BLAKE digest of the absorbed bytes.", "quantifier": "every message shorter than 2^61 bytes, every salt", "why_tests_cant": "finite vectors only; counter handling depends on the length modulo the block size", "anchors": ["algorithm/blake.hpp", "algorithm/detail/blake_provider.hpp"]}
{"id": "C27", "title": "SM3 conforms to GB/T 32905 and has defined behaviour", "statement": "sm3 returns the SM3 digest of the absorbed bytes without undefined behaviour.", "quantifier": "every message shorter than 2^61 bytes", "why_tests_cant": "finite vectors; undefined shifts are invisible in outputs", "anchors": ["algorithm/sm3.hpp", "algorithm/detail/sm3_provider.hpp", "detail/functions.hpp:rotate_left"]}
{"id": "C28", "title": "Streebog conforms to GOST R 34.11-2012", "statement": "streebog(256|512) returns the GOST R 34.11-2012 digest of the absorbed bytes.", "quantifier": "every message shorter than 2^61 bytes", "why_tests_cant": "the checksum carry chain has rare cases which no vector hits", "anchors": ["algorithm/streebog.hpp", "algorithm/detail/streebog_provider.hpp"]}
{"id": "C29", "title": "Whirlpool conforms to ISO/IEC 10118-3", "statement": "whirlpool returns the Whirlpool digest of the absorbed bytes.", "quantifier": "every message shorter than 2^61 bytes", "why_tests_cant": "finite vectors only", "anchors": ["algorithm/whirlpool.hpp", "algorithm/detail/whirlpool_provider.hpp"]}
{"id": "C30", "title": "Groestl conforms to its specification", "statement": "groestl(n) returns the Groestl-n digest of the absorbed bytes.", "quantifier": "every message shorter than 2^61 bytes, every supported n", "why_tests_cant": "finite vectors only", "anchors": ["algorithm/groestl.hpp", "algorithm/detail/groestl_provider.hpp"]}
{"id": "C31", "title": "Kupyna conforms to DSTU 7564", "statement": "kupyna(256|512) returns the DSTU 7564 digest of the absorbed bytes.", "quantifier": "every message shorter than 2^61 bytes", "why_tests_cant": "finite vectors only", "anchors": ["algorithm/kupyna.hpp", "algorithm/detail/kupyna_provider.hpp"]}
{"id": "C32", "title": "JH conforms to its specification", "statement": "jh(n) returns the JH-n digest of the absorbed bytes.", "quantifier": "every message shorter than 2^61 bytes, every supported n", "why_tests_cant": "finite vectors only", "anchors": ["algorithm/jh.hpp", "algorithm/detail/jh_provider.hpp"]}
{"id": "C33", "title": "ECHO conforms to its specification", "statement": "echo(n) with any salt returns the ECHO-n digest of the absorbed bytes.", "quantifier": "every message shorter than 2^61 bytes, every salt and supported n", "why_tests_cant": "finite vectors only", "anchors": ["algorithm/echo.hpp", "algorithm/detail/echo_provider.hpp"]}
{"id": "C34", "title": "LSH conforms to KS X 3262 and has defined behaviour", "statement": "lsh256(n)/lsh512(n) return the LSH digest of the absorbed bytes without undefined behaviour.", "quantifier": "every message, every supported n", "why_tests_cant": "finite vectors; undefined shifts are invisible", "anchors": ["algorithm/lsh.hpp", "algorithm/detail/lsh_provider.hpp"]}
{"id": "C35", "title": "Skein conforms to its specification", "statement": "skein256/512/1024(n) with any key, nonce and personalization return the Skein digest (and skein_xof the Skein output stream) of the absorbed bytes.", "quantifier": "every message, parameter set, output size", "why_tests_cant": "finite vectors only", "anchors": ["algorithm/skein.hpp", "algorithm/detail/skein_provider.hpp"]}
{"id": "C36", "title": "ASCON hash functions conform to SP 800-232", "statement": "ascon_hash, ascon_xof and ascon_cxof return the Ascon-Hash256 / Ascon-XOF128 / Ascon-CXOF128 output of the absorbed bytes (and customization string).", "quantifier": "every message, customization and output length", "why_tests_cant": "finite vectors only", "anchors": ["algorithm/ascon.hpp", "algorithm/detail/ascon_provider.hpp"]}
{"id": "C37", "title": "ESCH conforms to the SPARKLE submission", "statement": "esch(256|384), esch256_xof and esch384_xof return the Esch digests / XOEsch output of the absorbed bytes.", "quantifier": "every message and output length", "why_tests_cant": "finite vectors only", "anchors": ["algorithm/esch.hpp", "algorithm/detail/esch_provider.hpp"]}
{"id": "C38", "title": "Rejected parameters leave the hasher unchanged", "statement": "If set_salt / set_key / set_personalization / set_nonce / set_customization throws, the hasher behaves afterwards exactly as if the call had not been made; it throws exactly for the documented bad lengths.", "quantifier": "every state, every parameter value of any length", "why_tests_cant": "needs all lengths and histories", "anchors": ["algorithm/mixin/*.hpp set_*", "algorithm/detail/*_provider.hpp set_*"]}
{"id": "C39", "title": "Setting a parameter restarts the hasher", "statement": "A successful set_* call discards all absorbed data: afterwards the hasher behaves as a fresh one with the current parameters; the final parameters alone (not the order of set_* calls on different parameters) determine the output.", "quantifier": "every history before the call, every order of setters, every continuation", "why_tests_cant": "unbounded histories", "anchors": ["algorithm/mixin/*.hpp set_*", "algorithm/detail/*_provider.hpp init"]}
{"id": "C40", "title": "Independent objects do not interfere", "statement": "Calls on different hasher objects, interleaved in any order, give each object the results it would give alone; const calls (digest/hexdigest) on one shared object may be interleaved in any order with the same results.", "quantifier": "every interleaving of every set of call sequences on any number of objects", "why_tests_cant": "schedules are unbounded", "anchors": ["hasher.hpp", "README.md (thread safety)"]}
{"id": "C41", "title": "Copies are independent", "statement": "A copy of a hasher made at any point behaves like the original would, and later calls on one do not affect the other (common-prefix hashing).", "quantifier": "every history before and after the copy", "why_tests_cant": "unbounded histories", "anchors": ["hasher.hpp: copy of provider in digest"]}
{"id": "C42", "title": "Encodings are unambiguous", "statement": "The length-prefixed encodings used for cSHAKE / KMAC (function name, customization, key) and K12 parameters are injective: different parameter tuples give different sponge inputs.", "quantifier": "every pair of parameter tuples with lengths below 2^61 bytes", "why_tests_cant": "quantifies over pairs of arbitrary strings", "anchors": ["algorithm/detail/shake_provider.hpp:left_encode", "algorithm/detail/kmac_provider.hpp:right_encode,bytepad", "algorithm/detail/k12m14_provider.hpp:right_encode"]}
{"id": "C43", "title": "Padding is injective", "statement": "Two different messages are never presented to the compression function / permutation as the same sequence of final blocks.", "quantifier": "every pair of messages shorter than 2^61 bytes, every Merkle-Damgard and sponge type", "why_tests_cant": "quantifies over pairs of messages", "anchors": ["algorithm/detail/*_provider.hpp:final"]}
{"id": "C44", "title": "Output length separation", "statement": "kmac(n) binds the output length into the MAC input (different n give different sponge inputs), while for the XOF types a shorter output is always a prefix of a longer one.", "quantifier": "every key, message, pair of lengths", "why_tests_cant": "pairs of lengths unbounded", "anchors": ["algorithm/kmac.hpp", "algorithm/detail/kmac_provider.hpp", "README.md (XOF)"]}
{"id": "C45", "title": "Shift amounts are in range", "statement": "No hash computation shifts a word by a negative amount or by at least its width.", "quantifier": "every algorithm, every round, every input", "why_tests_cant": "undefined shifts are invisible in outputs on common hardware", "anchors": ["detail/functions.hpp:rotate_left,rotate_right", "algorithm/detail/*_provider.hpp:transform"]}
{"id": "C46", "title": "Byte-order and rotation helpers", "statement": "byteswap reverses the bytes of a word (so it converts between big-endian bytes and words and is an involution), rotate_left/rotate_right by n are inverse bit rotations.", "quantifier": "every 32/64-bit word, every rotation count strictly between 0 and the width", "why_tests_cant": "2^64 inputs", "anchors": ["detail/functions.hpp"]}
{"id": "C47", "title": "Message length counters", "statement": "The length encoded into the final block is the exact bit length of the absorbed message for all messages shorter than 2^61 bytes, whatever the chunking; beyond that it wraps modulo 2^64.", "quantifier": "every message length, every chunking", "why_tests_cant": "messages near 2^61 bytes cannot be executed", "anchors": ["detail/absorb_data.hpp:absorb_bytes", "algorithm/detail/*_provider.hpp:final"]}
{"id": "C48", "title": "Empty salt/personalization means none", "statement": "Setting an empty salt (personalization) has the same effect as never having set one.", "quantifier": "every earlier value, every message, every type with salt/personalization", "why_tests_cant": "depends on the previously set value", "anchors": ["algorithm/mixin/{blake,blake2,echo}_mixin.hpp", "algorithm/detail/{blake,blake2,echo}_provider.hpp:set_salt,set_personalization"]}
{"id": "C49", "title": "T-table rounds implement S-box and MDS", "statement": "The lookup tables used by whirlpool, groestl, kupyna, echo and streebog equal the composition of the specified S-box and linear map, for every byte in every position.", "quantifier": "every table entry, hence every state", "why_tests_cant": "tables are only exercised by hash vectors", "anchors": ["algorithm/detail/constants/{whirlpool,groestl,kupyna,echo,streebog}_constants.hpp"]}
{"id": "C50", "title": "Constants are the specified ones", "statement": "Round constants and initial values that have a generating rule (square/cube roots of primes, pi, LFSR, all-zero encryption, IV generation) equal the value produced by that rule.", "quantifier": "every table entry", "why_tests_cant": "tests would need the rule implemented independently", "anchors": ["algorithm/detail/constants/*.hpp", "algorithm/detail/*_provider.hpp:init"]}
{"id": "C51", "title": "Wiping", "statement": "After reset(true) or destruction the provider's chaining state, message buffer and key material fields contain only zeros.", "quantifier": "every history", "why_tests_cant": "memory contents are not observable through the API", "anchors": ["algorithm/detail/*_provider.hpp:clear", "detail/functions.hpp:zero_memory"]}
{"id": "C52", "title": "Prefix-continuation", "statement": "absorb after digest continues the message: a digest taken after absorbing a, then b equals the digest of a||b, whatever digests were taken in between.", "quantifier": "every list of pieces and every placement of digest calls", "why_tests_cant": "unbounded histories", "anchors": ["hasher.hpp:absorb,digest"]}
{"id": "C53", "title": "Parameter binding", "statement": "For blake2b/s, blake2xb/xs (and their _xof forms), blake2bp/sp, skein, blake and echo the digest size, key, salt, personalization, nonce and message are all bound: two different tuples (an unset salt or personalization being the all-zero one) never give the same initial chaining value together with the same sequence of blocks, counters, flags and tweaks; neither do two nodes of one hash tree.", "quantifier": "every pair of digest sizes, parameter tuples and messages", "why_tests_cant": "a statement about all pairs of inputs", "anchors": ["algorithm/detail/blake2_provider.hpp:init", "algorithm/detail/blake2p_provider.hpp", "algorithm/detail/skein_provider.hpp:init"]}
{"id": "C54", "title": "Permutations lose nothing", "statement": "The permutations and block ciphers inside the compression functions (Keccak-p, Ascon-p, Sparkle, P and Q of Groestl and Kupyna, Threefish, the Whirlpool and Streebog ciphers, the ECHO rounds, the rounds of BLAKE and BLAKE2, the ciphers of MD5, SHA-1, SHA-2 and SM3) and the whole compression functions of JH and LSH for a fixed block, as implemented, map the set of states onto itself one to one, for every key, message block, tweak and counter.", "quantifier": "every pair of states and every block", "why_tests_cant": "state spaces of 128 to 2048 bits", "anchors": ["algorithm/detail/*_provider.hpp:transform"]}
{"id": "C55", "title": "Domain separation between functions", "statement": "Two different functions of one family that share a compression function or permutation (digest sizes of SHA-2, SHA-512/t, Groestl, Kupyna, JH, LSH, ECHO, BLAKE, Streebog; SHA-3, SHAKE, cSHAKE with a name other than \"KMAC\" or a customization, KMAC and KMACXOF; KangarooTwelve and KT256; Ascon-Hash256, -XOF128, -CXOF128; Esch and XOEsch) never start from the same initial value and process the same inputs.", "quantifier": "every pair of supported sizes or variants and every pair of messages", "why_tests_cant": "all pairs of messages", "anchors": ["algorithm/detail/*_provider.hpp:init,final"]}
{"id": "C56", "title": "Collisions come from the compression function", "statement": "If two objects of one hash type with the same parameters have absorbed different messages (shorter than the limit of the function, 2^61 bytes or more depending on the type) and give the same digest, or the same first n bytes of extendable output, then two different calls of the compression function made by these two computations have the same result, or two different final values have the same output (only where the digest is shorter than the chaining value); for sponges the inner parts of two states collide, for BLAKE2bp/sp a leaf or the root collides, for LSH, whose padding has no length, the chain may also return to its initial value. Buffering, padding, counters and call order add no collisions of their own.", "quantifier": "every pair of call histories, messages and parameters of every type of the library", "why_tests_cant": "all pairs of messages; collisions of most of the functions are not known", "anchors": ["algorithm/detail/*_provider.hpp:update,final,transform"]}
{"id": "C57", "title": "Normal form of call histories", "statement": "Every history of calls of a hash object, with any digest calls, resets, rejected set_* calls, and absorb calls of any form, is equivalent for all later calls to its direct form on another object with other garbage in its memory: the successful set_* calls since construction or the last reset(true) in their order, then one absorb(ptr, n) with all the bytes absorbed since the last restart and, for extendable output, one squeeze with the number of bytes squeezed since. If no value is empty, only the last value of each parameter matters, and not the order of the calls: two histories with the same last values, the same bytes and the same number of squeezed bytes are followed by the same results. Histories with calls known to break this are excepted: reset(true) of BLAKE2bp and BLAKE2sp (C04), squeeze of 0 bytes (C12) and absorb after squeeze (C02).", "quantifier": "every call history, every continuation, every garbage, every type of the library", "why_tests_cant": "all histories and continuations of any length; a state left behind by one order of calls shows only in rare later calls", "anchors": ["hasher.hpp:absorb,reset,digest,squeeze", "algorithm/detail/*_provider.hpp:init,set_*"]}
{"id": "C58", "title": "Exceptions of the caller's iterators and streams", "statement": "If an input iterator, an input stream with exceptions enabled or an output iterator of the caller throws during absorb, digest or squeeze, the object is left in a valid state, the one of the same call without exception on the data read so far: the elements before the exception for iterators, the whole buffers of 64 KiB for streams; digest leaves the object unchanged and squeeze advances by the full requested length. All bytes written to an output iterator before it throws are the first bytes of the output. Elements of iterators that are not bytes are taken modulo 256.", "quantifier": "every provider, state and history with any number of exceptions at any element, every continuation", "why_tests_cant": "every position of an exception in every history; the state after an exception shows only in later calls", "anchors": ["hasher.hpp:151-166", "hasher.hpp:181-190", "hasher.hpp:270-275", "hasher.hpp:348-355"]}
{"id": "C59", "title": "64-bit counters of BLAKE, BLAKE2 and KangarooTwelve", "statement": "transform computes the counter of a block from the member total at the start of the call and the number of the block in the call, in 64 bits, and K12 numbers its chunks in a size_t. For every call history with fewer than 2^61 - 128 bytes between two restarts (BLAKE2, BLAKE2X), 2^76 bytes (K12, M14, KT256), without any limit for BLAKE and, as each leaf gets one block per call, BLAKE2bp and BLAKE2sp with and without OpenMP, the results are those of a counter that advances block by block, so they do not depend on how the data is cut into calls. Above 2^61 bytes the result of BLAKE2 does depend on it: one call counts on, two calls start again from zero.", "quantifier": "every call history within the bound, every garbage, every size", "why_tests_cant": "messages of 2^61 bytes cannot be hashed in a test", "anchors": ["algorithm/detail/blake_provider.hpp:79-134", "algorithm/detail/blake2_provider.hpp:317-372", "algorithm/detail/blake2p_provider.hpp:163-175", "algorithm/detail/k12m14_provider.hpp:101-117"]}
{"id": "C60", "title": "Which branches and addresses depend on the data", "statement": "The block functions of MD5, SHA-1, SHA-2, SHA-3 and its relatives, Ascon, Esch, BLAKE, BLAKE2, JH, Skein, SM3 and LSH have no branch, array index, table index or shift count that depends on the chaining value or the message: each is one straight-line program in the input words, fixed by the sizes and the public parameters. In Whirlpool, Groestl, Kupyna, Streebog and ECHO the only exceptions are lookups in constant tables, whose indices are bytes of the data, and in Streebog the comparisons in the addition addm.", "quantifier": "every chaining value, message block, size and public parameter", "why_tests_cant": "a test runs single executions; that no execution takes another path is a statement about pairs of executions", "anchors": ["algorithm/detail/*_provider.hpp:transform", "detail/functions.hpp:rotate_left,rotate_right,byteswap"]}
{"id": "C61", "title": "Word reads are aligned", "statement": "If the data of every absorb call and the provider object are aligned for words, the block functions read 32- and 64-bit words of the message only from addresses that are multiples of the word size.", "quantifier": "every sequence of absorb calls, with any addresses and lengths of the data", "why_tests_cant": "x86 executes unaligned reads, and whether one occurs depends on addresses and on all lengths before", "anchors": ["detail/absorb_data.hpp:absorb_bytes", "algorithm/detail/*_provider.hpp:transform"]}
{"id": "C62", "title": "Exceptions and output lengths depend on lengths only", "statement": "Whether a call of the API throws, and how many bytes it returns, is determined by the type and by the lengths of the arguments of this call; it does not depend on the contents of messages, keys, salts and other parameters, on earlier calls or on uninitialised memory.", "quantifier": "every type, every sequence of calls, every pair of runs with the same lengths", "why_tests_cant": "a statement about all pairs of inputs", "anchors": ["hasher.hpp", "algorithm/mixin/*.hpp", "algorithm/detail/*_provider.hpp:set_*"]}
{"id": "C63", "title": "size_t does not overflow in absorb_bytes", "statement": "The 64-bit arithmetic of absorb_bytes on positions and lengths gives the same blocks, the same copies and the same position as arithmetic without overflow, for all data with pos + len < 2^64, so for every object that can exist in C++; this bound is exact.", "quantifier": "every block size, position and length", "why_tests_cant": "needs inputs of 2^64 bytes", "anchors": ["detail/absorb_data.hpp:absorb_bytes"]}
{"id": "C64", "title": "Length extension", "statement": "For MD5, SHA-1, SHA-256, SHA-512, SM3 and Whirlpool, if digest() returns d after n bytes were absorbed, then after absorbing the padding of these n bytes and any x, digest() returns a function of d, n and x alone; so two objects with the same digest after equally many bytes have the same digest after both absorb this padding and the same x.", "quantifier": "every history of calls, every x, every initial memory", "why_tests_cant": "a statement about all messages; a wrong padding or length field that breaks compatibility only for certain lengths goes unnoticed by fixed vectors", "anchors": ["algorithm/detail/md5_provider.hpp:final", "algorithm/detail/sha1_provider.hpp:final", "algorithm/detail/sha2_provider.hpp:final", "algorithm/detail/sm3_provider.hpp:final", "algorithm/detail/whirlpool_provider.hpp:final"]}
{"id": "C65", "title": "Hex output does not depend on the locale", "statement": "hexdigest() and hexsqueeze() return the two lowercase hex digits of every byte whatever the global C++ locale of the program is.", "quantifier": "every locale (grouping and separator), every type, every history", "why_tests_cant": "the self test runs in the C locale", "anchors": ["hasher.hpp:hexdigest", "hasher.hpp:hexsqueeze", "detail/stream_width_fixer.hpp"]}
{"id": "C66", "title": "Element types", "statement": "The buffers, strings, streams and iterators passed to absorb(), the setters, squeeze() and digest() may have any of the documented element types char, signed char and unsigned char: the call compiles, only values modulo 256 matter, and data written by an output form and absorbed again is the same bytes.", "quantifier": "every element type, every value, both kinds of char", "why_tests_cant": "the tests use few of the template instances; values above 127 in signed char", "anchors": ["hasher.hpp:absorb", "hasher.hpp:digest", "hasher.hpp:squeeze", "detail/traits.hpp:is_byte"]}
{"id": "C67", "title": "Counters do not depend on the width of size_t", "statement": "With a size_t narrower than 64 bits (32-bit platforms, which the documentation does not exclude) every sequence of calls of the types that count the absorbed bits or encode the lengths of strings gives the same results as with a 64-bit size_t.", "quantifier": "every width of at least 16 bits, every type whose counter or string lengths reach the output, every history", "why_tests_cant": "needs a 32-bit build and single arguments of 512 MB", "anchors": ["detail/absorb_data.hpp", "blake_provider.hpp:transform", "blake2_provider.hpp:transform", "hasher.hpp:absorb"]}
{"id": "C68", "title": "Failed memory allocation", "statement": "If a memory allocation fails during a call, the call throws and the hasher afterwards behaves as if the call had not been made.", "quantifier": "every type, every call, every allocation in it, every history before and after", "why_tests_cant": "needs injected failures of operator new at every allocation of every call", "anchors": ["hasher.hpp:squeeze", "hasher.hpp:hexsqueeze", "hasher.hpp:hexdigest", "hasher.hpp:reset", "kmac_provider.hpp:clear", "blake2p_provider.hpp:set_key"]}
{"id": "C69", "title": "Declaring hash objects", "statement": "A hash object can be declared without a size exactly if its documentation names one size, a default size or extendable output, and with a size exactly if it names several; the types in static_size exist exactly for the documented sizes and take no other size. The object then has the documented digest size, and the ways to give the same size are equivalent.", "quantifier": "every public name, every template argument and constructor argument of type size_t, every history of the object", "why_tests_cant": "tests contain only declarations that compile; sizes as template arguments are 2^64 different types", "anchors": ["hasher.hpp:hasher", "algorithm/*.hpp:typedefs", "algorithm/detail/*_provider.hpp:constructors"]}
{"id": "C70", "title": "Empty data behind a null pointer", "statement": "absorb(pointer, 0) and the setters with (pointer, 0) also accept a null pointer, as data() of an empty container may return: absorb has no effect and a setter behaves as with the empty string.", "quantifier": "every hash type, every object memory, every history with such calls at any number of places", "why_tests_cant": "memcpy with a null pointer and no bytes does nothing in the C libraries the tests run with, but compilers may derive from the call that the pointer is not null; no test passes a null pointer", "anchors": ["detail/absorb_data.hpp:absorb_bytes", "hasher.hpp:absorb", "algorithm/mixin/*.hpp:set_*", "algorithm/detail/blake2_provider.hpp:set_salt, set_personalization"]}
{"id": "C71", "title": "Threads", "statement": "Distinct hasher objects may be used by different threads at the same time, and const member functions (digest, hexdigest) may be called on one object by several threads as long as no thread modifies it: there is no data race and every thread gets the results it would get alone. A modifying call at the same time as another call on the same object is a data race.", "quantifier": "every hash type, any number of objects, threads and calls with any arguments, objects with any history, every schedule", "why_tests_cant": "tests run a few schedules, and data races rarely show in the results", "anchors": ["README.md:297-303", "hasher.hpp:digest, hexdigest", "hasher.hpp:absorb, squeeze, reset", "algorithm/mixin/*.hpp:set_*"]}
{"id": "C72", "title": "Empty output behind a null pointer", "statement": "squeeze(pointer, 0) also accepts a null pointer, as data() of an empty container may return: it behaves as a squeeze of 0 bytes into an array.", "quantifier": "every extendable output function, every object memory, every history with such calls at any number of places", "why_tests_cant": "memcpy with a null pointer and no bytes does nothing in the C libraries the tests run with, but compilers may derive from the call that the pointer is not null; no test passes a null pointer", "anchors": ["hasher.hpp:squeeze", "algorithm/detail/*_provider.hpp:squeeze"]}
{"id": "C73", "title": "Providers of others", "statement": "A hasher over any provider with the init/update/final (or squeeze) interface gives, in every history of calls, the provider's function of the absorbed bytes, provided that init, update and final called one after the other compute that function. digest and hexdigest never change the object, and hexdigest and hexsqueeze encode what digest and squeeze return, whatever the provider does.", "quantifier": "every provider, every object state, every history of calls", "why_tests_cant": "the tests use the providers of the library; providers written by users do not exist yet", "anchors": ["hasher.hpp:hasher", "README.md:Hasher"]}
{"id": "C74", "title": "Calls of transform", "statement": "absorb_bytes hands every full block of the message to the transform exactly once and in order, with the number of bits before the block (modulo 2^64) as the counter, and keeps the rest in the buffer, however the message is cut. It never calls the transform with zero blocks, and at most twice per piece. This holds for any transform that leaves the buffer alone. For the providers with a chaining value it follows that, after any updates, it is the compression function applied to the full blocks one after the other.", "quantifier": "every block size and buffer size, both ways of treating a last full block, every sequence of pieces, every transform", "why_tests_cant": "tests see digests for some cuts of some messages; which blocks the transform gets, and with which counter, is internal", "anchors": ["detail/absorb_data.hpp:absorb_bytes"]}
{"id": "C75", "title": "Calls of the permutation while squeezing", "statement": "The squeezing code of SHAKE, Ascon and Esch calls the permutation exactly once for each block of output after the first that is begun, however the output is cut into squeezes that are not empty; byte i of the output is byte i mod r of the state after i / r calls, and the object is left as by one squeeze of the sum. This holds for any permutation and any state.", "quantifier": "every state type, permutation, block size and sequence of lengths; every object of SHAKE, cSHAKE, Ascon-XOF, Esch-XOF, KMAC-XOF and K12", "why_tests_cant": "tests see some bytes of output for some lengths, not how often the permutation is called and what is left in the object", "anchors": ["algorithm/detail/shake_provider.hpp:squeeze", "algorithm/detail/ascon_provider.hpp:squeeze", "algorithm/detail/esch_provider.hpp:squeeze"]}
