# Verification design for digestpp

## Method

`rocq/theories` contains a functional model of digestpp written function by
function from the C++ text (every definition cites file and lines), small
independent specifications (the published standards and abstract machines), and
theorems relating the two.

Central argument: each provider is shown to simulate an abstract hasher whose whole
state is (parameters, list of absorbed bytes, number of squeezed bytes).  One
generic theorem (`HasherProof.v`) then gives, for every history of API calls, that
the outputs are the ones of the abstract hasher and that no undefined behaviour
occurs (`implements` / `ximplements`).  Everything about the API (chunking, observers,
reset, buffers, hex, parameters, copies) follows from that relation alone, once for
all types (`Library*.v`), and everything about the standards is a statement about the
digest function of the abstract hasher.

### Files

* `Base.v` – outcomes (`Ok` / `Throw` / `UB reason`), machine words as `N` with explicit
  truncation, rotations and byte swaps exactly as in `detail/functions.hpp`,
  bounds-checked memory operations (`memcpy`, `memset`, array store). An access of the
  message buffer, caller buffer or key/salt/parameter arrays outside its bounds is the
  outcome `UB OutOfBounds`, never a default value.
* `Absorb.v` – `detail/absorb_data.hpp`, generic in the transform callback;
  `AbsorbProof.v`, `AbsorbRel.v`, `BufProof.v` – its invariants.
* `Hasher.v` – `hasher.hpp`: all absorb overloads, the stream loop, digest
  overloads, hex output, squeeze, reset, setters; one `step` function per API call
  and `run` for histories.  Generic in a record of provider functions.
* `HasherSpec.v` – the abstract hasher; `HasherProof.v`, `HasherWhen.v` – simulation
  implies `implements` (`HasherWhen`: under a condition on the data).
* `Validate.v`, `Sizes.v` – `detail/validate_hash_size.hpp` and the constructors.
* `MdState.v`, `MdProof.v` – the state record and the pattern shared by the block
  based providers; `Squeeze.v`, `SqueezeProof.v`, `SpongeProof.v` – the squeezing ones.
* `<Alg>.v` – one model per provider (`algorithm/detail/*_provider.hpp`):
  `Md5 Sha1 Sha2 Sha3 Shake Kmac K12 Sm3 Whirlpool Ascon Esch Blake Blake2 Blake2p
  Groestl Kupyna Streebog Jh Lsh Skein Echo` (Keccak permutation in `Keccak.v`).
  `Const<Alg>.v` – the tables, converted mechanically by `tools/gen_constants.py`.
* `<Alg>Spec.v` – the standard, written from the standard and not from the code.
  `SpecCommon.v`, `GfSpec.v`, `ColumnSpec.v`, `AesSpec.v` – shared parts.
* `<Alg>Proof.v`, `<Alg>Sim.v` – the provider meets its specification: for all
  parameters, all messages, all initial memory contents. `TTable.v`, `TableLemmas.v`,
  `ColumnProof.v` – lookup tables.  `<…>Refuted.v` – witnesses for false claims.
* `Library.v`, `LibraryTypes.v` – the list of all public types (`library`, `xlibrary`,
  `static_pair`); `LibraryProof.v`, `XLibraryProof.v`, `LibraryMore.v`,
  `LibraryTypesProof.v` – the API theorems for all of them.
* `AnyCalls.v`, `AnyProof.v`, `Any<…>.v`, `LibraryAny.v` – arbitrary histories: absorb after
  squeeze, empty squeezes, `reset(true)` on blake2bp/sp. No standard says what such objects
  compute, so the relation is between two runs: equal parameters and equal live state give
  equal results, whatever the stale memory (`xrob`, `hrob`). `AnyRefuted.v` – C02 there.
* `SplitSqueeze.v`, `SplitTypes.v`, `SplitAny.v` – squeezing in pieces and its forms from every
  state: each provider's squeeze is a stream of blocks whose start does not depend on the
  number of bytes (C07, C11, C44 in arbitrary histories).
* `Blake2pLostSpec.v`, `Blake2pLost.v`, `TwoPhase.v` – blake2bp/sp after `reset(true)`: the
  function they compute then, proved by a second simulation, and an abstract hasher with
  two phases that covers every history of every fixed-output type.
* `CodedSpec.v`, `CodedProof.v` – the functions which cSHAKE, KMAC and Streebog compute for all
  inputs, as variations of the standards (C20, C21, C28).
* `Bind.v`, `BindTypes.v` – initial values, node parameters and inputs determine all arguments
  (C53).
* `PermSpec.v`, `Inj.v`, `InjKeccak.v`, `InjAscon.v`, `InjArx.v`, `InjArx2.v`, `InjGf.v`, `InjCols.v`,
  `InjEchoJh.v`, `InjCode.v` – the permutations and ciphers are one to one and onto (C54).
* `DomainSpec.v`, `Domain.v` – the functions that share a permutation or compression function (C55).
* `CollideSpec.v`, `Collide.v`, `CollideSponge.v`, `CollideSponge2.v`, `CollideWords.v`, `CollideTypes.v`, `CollideTypes2.v` – where equal digests come from (C56).
* `HistorySpec.v`, `HistoryProof.v` – normal forms of call histories (C57).
* `Throws.v`, `ThrowsProof.v` – iterators and streams of the caller that throw (C58).
* `Exact.v`, `ExactSpec.v`, `ExactProof.v` – counters of BLAKE, BLAKE2 and K12 exactly as in
  the code (C59).
* `Oblivious.v`, `ObliviousProof.v`, `ObliviousRel.v`, `ObliviousSpec.v`, `ObliviousThm.v` – the block
  functions over words of any kind, straight-line programs (C60).
* `Align.v`, `AlignSpec.v`, `AlignProof.v` – the addresses from which transforms read words (C61).
* `ShapeSpec.v`, `ShapeProof.v` – outcomes of calls without the contents of bytes (C62).
* `Wrap.v`, `WrapProof.v` – absorb_bytes with wrapping size_t (C63).
* `ExtendSpec.v`, `ExtendProof.v` – length extension (C64).
* `Stream.v`, `StreamProof.v` – the string stream of hexdigest() with a locale (C65).
* `Elements.v`, `ElementsProof.v` – element types of the caller's data, which calls compile (C66).
* `Size32.v`, `Size32Proof.v` – absorb_bytes and the counters with a size_t of W bits (C67).
* `Size32Str.v`, `Size32StrProof.v` – lengths of strings in cSHAKE, KMAC and Ascon-CXOF with a size_t of W bits (C67).
* `Alloc.v`, `AllocProof.v` – calls in which an allocation fails (C68).
* `Construct.v`, `ConstructProof.v` – declarations of hash objects, constructors found by the compiler (C69).
* `Null.v`, `NullProof.v`, `NullLib.v` – absorb and setters with a null pointer and length 0 (C70).
* `NullOut.v`, `NullOutProof.v`, `NullOutLib.v` – squeeze of 0 bytes to a null pointer (C72).
* `Custom.v`, `CustomProof.v`, `CustomLib.v` – providers of others (C73).
* `Blocks.v`, `BlocksProof.v` – the calls of transform made by absorb_bytes (C74).
* `OutCalls.v`, `OutCallsProof.v` – the calls of the permutation while squeezing (C75).
* `Threads.v`, `ThreadsProof.v`, `ThreadsLib.v` – several threads, calls that overlap (C71).
* `Objects.v`, `ObjectsProof.v` – several objects, copies, interleavings.
* `EmptyParam*.v`, `Helpers.v`, `Wipe.v`, `EncodeProof.v`, `PadInj.v`,
  `PadInjSponge.v`, `Process*.v`, `Inputs.v` – C48, C46, C51, C42, C43, C47.
* `RealConst.v`, `ConstReal.v`, `ConstRoots.v`, `ConstRules.v` – C50.
* `Checked.v`, `Ck*.v` – C45: words that carry undefined behaviour, the block functions
  of all algorithms computed with them (also checks the array indices, C08).
* `Properties*.v` – only `Theorem … exact … Qed.`, `Example`s showing that the
  hypotheses are met, and `Print Assumptions`.
* `Vectors*.v` – sanity tests (not proofs): the model evaluated by `vm_compute` on
  published vectors that the repository's own test-suite lists.
* `VecReplay.v`, `VectorsRepo*.v` – 1191 vectors chosen from all 95 files of test/testvectors
  (`tools/vectors.py`), replayed on one hasher of the type that test/test_vectors.cc uses, with the
  same calls as the loop of test/test_vectors.hpp. `VectorsSelf.v` – the 83 comparisons of
  basic_self_test in test/test.cc. Tests, run by `Eval` when the files are built.

## Trusted base

* The Coq 8.16.1 kernel, including `vm_compute`.
* `Print Assumptions` runs during the build on a tuple of all theorems of each
  `Properties*.v`.  All are "Closed under the global context", except
  `PropertiesConst.v` (the real-number statements of C50), which uses the axioms of the
  standard library's real numbers: `ClassicalDedekindReals.sig_forall_dec`,
  `ClassicalDedekindReals.sig_not_dec`,
  `FunctionalExtensionality.functional_extensionality_dep` and `Classical_Prop.classic`.
  `coqchk -o` additionally lists the seven `Coq.ssr.ssrunder.Under_rel.*` declarations of
  the standard library (a sealed module loaded with `ssreflect` support, used by no
  theorem here) and the members of the sealed modules `Coq.Reals.Rdefinitions.RbaseSymbolsImpl`
  and `RinvImpl` (definitions of the real numbers behind a signature, not axioms).
* The hand translation from C++ to Gallina, supported by the vectors.
* Platform assumptions, not modelled: little-endian machine (documented limitation of
  the library), 64-bit `size_t` (narrower: C67), unaligned and type-punned word access through
  `reinterpret_cast` behaves as byte access (see C61 for where it is unaligned), `std::string`/`std::vector` allocation
  succeeds (failures: C68), chunk lengths below 2^63 (so `pos + len` does not wrap, C63), iostream `hex`
  formatting of small integers as in the C locale (other locales: C65).
* Not modelled: compile-time overload resolution/SFINAE (except element types, C66, and constructors, C69), destructors other than
  `clear()`, timing side channels (but see C60), bytes of a
  `std::string` beyond `size()`.

## Per property

Status is kept in MANIFEST.json; this table says what is modelled and how it is proved.

| id | model | proof |
|----|-------|-------|
| C01 | absorb_bytes + every provider update | invariant "state = canonical state of the concatenation"; one theorem over all types |
| C02 | all overloads in Hasher.v, istream as (content, failbit) | reduces to C01; refuted in states after a squeeze |
| C03, C52 | `run` of histories | simulation: digests leave the abstract state alone; C03 for every history by the two-run relation |
| C04, C05 | init/clear per provider | simulation relation re-established by init from any reachable state, and two-run relation for every history; refuted where the code forgets or keeps too much (ascon_cxof, blake2bp/sp); for blake2bp/sp the exact function computed afterwards (`TwoPhase.v`) |
| C06 | digest(buf,len) with caller buffer as list | generic |
| C07 | stream formatting model | finite sweep over bytes lifted to lists |
| C08, C09 | bounds-checked memory, arbitrary initial object contents | part of the simulation: result is `Ok`; the relation ignores stale bytes; every history by the two-run relation |
| C10 | validate_hash_size both overloads, constructors | direct; list overload refuted |
| C11, C12, C44 | squeeze per XOF provider | simulation against an infinite stream; empty squeeze refuted, and its exact effect at every position from the invariants (`EmptySqueeze*.v`); KMAC length by injectivity of the encoding |
| C13 | static_size providers | both variants implement the same specification |
| C14–C37 | provider models | equality with an independent specification of the standard |
| C38, C39, C48 | setters | simulation and two-run relation; C48 refuted for BLAKE2 |
| C40, C41 | store of hashers | interleaving lemma |
| C42, C43 | encodings, padding | injectivity of the specified block sequences, tied to the types by `Process*.v` / `Inputs.v` |
| C45 | every shift and rotation, block functions repeated with checked words (`Checked.v`, `Ck*.v`) | checked computation = model, all words defined; refuted for SM3/LSH |
| C46 | functions.hpp | bitwise reasoning |
| C47 | total counter | part of the simulation, stated on the final block |
| C49 | tables | finite sweeps over all bytes and positions |
| C50 | constants headers converted mechanically | interval arithmetic with alternating series (pi, e, sine) in the standard library's reals, integer inequalities for roots, finite sweeps for the others |
| C51 | clear | direct, for every state |
| C53 | initial values, blocks, counters, tweaks of `Inputs.v` | injectivity of the parameter block and of the tagged inputs, for the parameters any history can reach |
| C54 | the round and compression functions of the model (`kc_perm`, `ascon_perm`, `sparkle`, `*_block`, `*_step`, `sb_e`, `ec_round`, …) | every layer is inverted: GF(2^8) matrices by inverse matrices checked on powers of two, bit layers by linearity or finite checks, ARX steps by cancellation; onto by counting states |
| C55 | the initial values and inputs that C43, C47 and C53 link to the code, for all sizes and variants | SHA-512/t initial values by evaluating the model once for all 64 sizes; JH, LSH, Ascon through the injectivity of their permutations (C54); Keccak blocks extended to the whole state so that different rates can be compared |
| C56 | the chains of calls that C42, C43, C44 and C47 link to the code, for every pair of call histories | walk back from the equal digests to the first pair of different calls; padded inputs are never suffixes of each other because the last block has the length or counter; full-size digests show the whole chaining value because all values stay in the range of their words |
| C57 | every API call of every type, in any order | the abstract state after a history depends on parameters, bytes and position only; the accepted settings are replayed; setters of different parameters commute and a second non-empty value replaces the first |
| C58 | the loops of absorb over iterators and streams and std::copy of the outputs with an exception at any element | each such call is a call without exception on a prefix, with the same state; then C57 |
| C59 | the loops of transform with counters computed in 64 bits from the start of the call | same runs as the models of the other properties, by induction over calls with the number of bytes as invariant; single-block calls of leaves need no bound; witness above the bound |
| C60 | the block functions once more over an abstract type of words with only ^, &, \|, ~, +, <<, >>, * and constants; tables with an extra lookup operation | at machine words they are the models (conversion, definition by definition); parametric in every relation that the operations preserve, so at symbolic words they give the straight-line program; indices by evaluation |
| C61 | the pointers that absorb_bytes passes to transform, from the addresses and lengths of the data; the word reads of the transforms | refuted; the calls that read unaligned words characterised by induction over the calls; the pointers tied to the model of absorb_bytes by a transform that logs its arguments |
| C62 | the API model of all types; outcome of a call without the contents of its bytes | induction over the calls from C06, C07, C08, C38 in arbitrary histories; `accepts` by cases over the types |
| C63 | absorb_bytes on 64-bit numbers that wrap | equal to the version on natural numbers of C61 if `pos + len` does not wrap, different otherwise |
| C64 | digests of the types that show the whole chaining value | `processes` (C47), decoding of the digest, blocks of a message whose prefix is a padded message |
| C65 | ostringstream, setfill, hex, setw, number formatting with grouping, ostream_iterator | one byte has at most two digits; induction over the bytes; refuted for grouping by one digit |
| C66 | element types with integer values, conversions, the template conditions of hasher.hpp | residues modulo 256 and two's complement; C02 for the hashers; refuted for digest(char*, n) |
| C67 | absorb_bytes, update() of the counting types and the loops of BLAKE/BLAKE2 with products of W bits; init(), set_key() and squeeze() of cSHAKE, KMAC and Ascon-CXOF with string lengths of W bits; not: K12's counter of chunks, also a size_t | products do not wrap below 2^(W-3) bytes per call, lifted to histories; refuted by MD5 of 8192 bytes at 16 bits, and 512 MB at 32 bits leave the counter unchanged |
| C68 | the object after a failure of each allocation of each call, the string stream that stops growing; not: failures in constructors and destructors, strings of at most 11 characters (taken to be stored in place) | induction over the calls, comparing with the history of the calls that take effect; refuted for KMAC, BLAKE2bp and the hex outputs |
| C69 | the constructors of hasher and of every provider with their enable_if conditions, default arguments and static_asserts, overload resolution between them, the sizes in the documentation; not: copy and move constructors, conversions of the argument to size_t | case analysis over the public names; sizes by the lemmas of C10; refuted for jh (has a default size), static_size types with size 0, Skein with two sizes |
| C70 | absorb_bytes, update of every provider and the setters with pointer and length for `(nullptr, 0)`, for both rules about memcpy with a null pointer and 0 bytes (a parameter of the model); not: squeeze into a null pointer (C72), `std::string(nullptr, 0)` is taken to be the empty string (as since C++14) | the model with the null pointer agrees with the one with an empty array up to the kind of undefined behaviour, lifted to histories; under the strict rule refuted for absorb on every type and for salt and personalization of BLAKE2, proved for all other setters |
| C71 | threads that make calls on a store of objects; a call begins and ends in separate steps, const calls copy the provider in between (hasher.hpp:329, 351); a data race is an overlap of two calls on one object of which one is not const (README.md:297-303) | invariant over all schedules: copies agree with the object, each thread's own calls run alone give the same; calls defined by C08; a racing schedule is built for every conflicting pair |
| C72 | squeeze of every XOF provider for `(nullptr, 0)`, for both rules about memcpy with a null pointer and 0 bytes | equal to the model of squeeze with 0 bytes, lifted to histories; under the strict rule proved for the first squeeze, refuted after a squeeze whose length is no multiple of the output block (position after each output loop by induction); not: digest into a null pointer, which throws for want of space like any other too small buffer (C06) |
| C73 | hasher.hpp over an arbitrary provider (the model of the hasher has the provider as a parameter); the contract speaks of direct calls of init, update, final, squeeze, clear and setters only, with the class invariant `usable` as a parameter | the hasher simulates the abstract hasher for every provider with the contract; digest() const and the hex encoding without any contract; contract shown for MD5, BLAKE, SHAKE128 and two providers written as examples (any provider with a simulation of HasherProof.v whose setters throw before they change the object has it), and needed in two of its parts |
| C74 | absorb_bytes with a transform that records its calls (counter, bytes, number of blocks), and with any transform that leaves the buffer alone | the recorded blocks are compared with the blocks of the message (`counted`, `full_blocks`), using the buffering invariant of AbsorbProof.v; any other transform is run on the same calls |
| C75 | the squeezing loop of shake_provider.hpp and ascon_provider.hpp (Squeeze.v) with any permutation, sequences of squeezes; a permutation with a counter counts the calls | the state is the permutation applied (total-1)/r times and the output is compared byte by byte with `output`, using SqueezeProof.v; linked to the squeeze functions of SHAKE, cSHAKE and Ascon; the different loop of Esch (esch_provider.hpp:151-159) has its own theorem; the squeezes of KMAC-XOF and K12 are shown to be those of their inner SHAKE object |

## Simplifications

* Lengths that a standard defines modulo a power of two larger than 2^64 bits are taken
  modulo 2^64 (or 2^61 bytes) in the specification, as in the code; separate theorems
  (C47, C33_echo_length, C30_groestl_padding) say where this is exact.
* Histories (`hcalls`, `xcalls`) of XOF types contain no empty squeeze (C12 is refuted) and
  no absorb directly after a squeeze (no standard defines the result); histories of
  blake2bp/sp contain no `reset(true)` (C05 is refuted there). The theorems named
  `…_any_history` (`hany`, `xany`) allow all of these.
* OpenMP loops in blake2bp/sp are modelled as any interleaving that keeps the blocks of a
  leaf in order.
* The models of BLAKE2 and K12 hand each block its counter; the code as written gives the same
  below 2^61 - 128 and 2^76 bytes (C59).

## Findings

* `validate_hash_size(size, list)` accepts every non-zero size (C10).
* `squeeze(0)` discards output: up to a block as the first squeeze, a whole block at a block
  boundary (sponges). As the first squeeze of Skein the next bytes are the secret chaining
  value, of BLAKE2X the root hash (C12_first_skein, C12_first_blake2x). Also `squeeze(0, it)` takes `&hash[0]` of an empty
  vector (C12).
* absorb() after squeeze() depends on how the data is cut: the iterator form and the pointer
  form differ (ascon_xof), an empty absorb changes the output (shake128) (C02).
* blake2bp/sp: after `reset(true)`, `reset()` no longer gives a fresh object (C04).
* `ascon_cxof::reset(true)` keeps the customization; blake2bp/sp `reset(true)` loses the
  tree parameters (C05).
* cSHAKE/KMAC insert a spurious block when the header fills the rate (C20, C21).
* Streebog's 512-bit addition loses a carry (C28).
* SM3 and LSH rotate by 0 or 32, shifting by the word width (C27, C34).
* An empty salt/personalization in BLAKE2 is not the same as none (C48).
* blake2xb/xs reject sizes that the documentation allows (C10).
* absorb(istream) with exceptions enabled in the stream throws at the end of the data and loses up to 65535 bytes before it (C58).
* BLAKE2 above 2^61 bytes depends on how the data is cut into calls (C59).
* Whirlpool, Grøstl, Kupyna, Streebog and ECHO read tables at indices that are bytes of the data, Streebog
  also branches on comparisons of the data (C60).
* absorb() reads whole blocks through `uint32_t*`/`uint64_t*` directly from the caller's data: unaligned, which is
  undefined behaviour, if the bytes absorbed before are not a multiple of the word (C61).
* Ascon, SHAKE, cSHAKE, KMAC and K12 objects can be copied but not assigned, the member `rate` is const.
* hexdigest() uses the global locale; one that separates single digits changes the result (C65).
* `digest(T* buf, size_t)` passes `buf` to `final(unsigned char*)` without a cast: it does not compile for char
  and signed char, which its documentation allows (C66).
* With a 32-bit size_t a single absorb() of 512 MB or more is not fully counted: `total += bytes * 8` is a product of
  size_t; the length of a KMAC key or a cSHAKE string of 512 MB is encoded as 0 (C67).
* If memory is short: `reset(true)` of KMAC throws and leaves a key of zero bytes, set_key() of blake2bp/sp throws
  and leaves nodes with different keys, hexsqueeze() may throw after it has squeezed, and hexdigest() may return a
  truncated string without an exception (C68). The destructor of KMAC allocates (clear() calls set_key("")), so a
  failure there ends the program; every digest() of KMAC destroys a copy.
* The static-size Skein types can be constructed with a run-time size, which is ignored
  (skein_provider.hpp:193-198, C69). jh can be declared without a size, its documentation says it has no default;
  `static_size::sha512<0>` and the like are not rejected but are the types with a run-time size (C69).
* absorb_bytes ends with `memcpy(m + pos, data, len)` without a test of len (absorb_data.hpp:37), so `absorb(v.data(), v.size())` of an empty
  vector may pass a null pointer to memcpy, which is undefined up to C23; likewise set_salt and set_personalization of BLAKE2
  (blake2_provider.hpp:219, 227). ECHO and BLAKE test the length first (C70). squeeze(nullptr, 0) reaches a memcpy in the same way
  when an earlier squeeze ended inside a block (e.g. shake_provider.hpp:140, C72).
