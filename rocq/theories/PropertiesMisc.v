(** * Properties of the constructors and of the helper functions. *)
From Verif Require Import Base Lemmas WordLemmas Hasher HasherSpec HasherProof MdState Library LibraryTypes LibraryProof
  Sha2 Sha3 Kmac Esch Blake Blake2 Blake2p TTable Groestl Kupyna Streebog Jh Lsh Skein Echo
  EmptyRefuted Sizes Helpers.

(** ** C10: digest sizes *)
(** [throws_exactly T doc]: whatever the memory held before, constructing [T hs] throws if
    and only if [hs] is not documented. *)
Theorem C10_sha512 : throws_exactly sha512_type (bits_up_to 512).
Proof. exact sha512_sizes. Qed.
Theorem C10_kmac : throws_exactly (kmac_type 128) (bits_up_to (2 ^ 64 - 1)) /\
  throws_exactly (kmac_type 256) (bits_up_to (2 ^ 64 - 1)).
Proof. exact (conj kmac128_sizes kmac256_sizes). Qed.
Theorem C10_groestl : throws_exactly groestl_type (bits_up_to 512).
Proof. exact groestl_sizes. Qed.
Theorem C10_jh : throws_exactly jh_type (bits_up_to 512).
Proof. exact jh_sizes. Qed.
Theorem C10_echo : throws_exactly echo_type (bits_up_to 512).
Proof. exact echo_sizes. Qed.
Theorem C10_lsh : throws_exactly (lsh_type 32) (bits_up_to 256) /\ throws_exactly (lsh_type 64) (bits_up_to 512).
Proof. exact (conj lsh256_sizes lsh512_sizes). Qed.
Theorem C10_skein nw : In nw [4; 8; 16]%nat -> throws_exactly (skein_type nw) (bits_up_to (2 ^ 64 - 1)).
Proof. exact (skein_sizes nw). Qed.
Theorem C10_blake2 : throws_exactly (blake2_type 64 BHash) (bits_up_to 512) /\
  throws_exactly (blake2_type 32 BHash) (bits_up_to 256) /\
  throws_exactly (blake2p_type 64) (bits_up_to 512) /\ throws_exactly (blake2p_type 32) (bits_up_to 256).
Proof. exact (conj blake2b_sizes (conj blake2s_sizes (conj blake2bp_sizes blake2sp_sizes))). Qed.
(** What blake2xb and blake2xs accept, and that it is less than documented. *)
Theorem C10_blake2x_partial : throws_exactly (blake2_type 64 BXhash) (bits_up_to 16368) /\
  throws_exactly (blake2_type 32 BXhash) (bits_up_to 4080).
Proof. exact (conj blake2xb_sizes blake2xs_sizes). Qed.
Theorem C10_blake2x_refuted : ~ throws_exactly (blake2_type 64 BXhash) (bits_up_to (2 ^ 64 - 1)) /\
  ~ throws_exactly (blake2_type 32 BXhash) (bits_up_to (2 ^ 64 - 1)).
Proof. exact blake2x_sizes. Qed.
(** The types documented with a list of sizes: the statement is false, only zero is rejected. *)
Theorem C10_size_list_refuted :
  ~ throws_exactly blake_type (fun hs => In hs [224; 256; 384; 512]) /\
  ~ throws_exactly sha3_type (fun hs => In hs [224; 256; 384; 512]) /\
  ~ throws_exactly kupyna_type (fun hs => In hs [256; 512]) /\
  ~ throws_exactly streebog_type (fun hs => In hs [256; 512]) /\
  ~ throws_exactly esch_type (fun hs => In hs [256; 384]).
Proof. exact (conj blake_sizes (conj sha3_sizes (conj kupyna_sizes (conj streebog_sizes esch_sizes)))). Qed.
Theorem C10_size_list_partial : throws_only_zero blake_type /\ throws_only_zero sha3_type /\
  throws_only_zero kupyna_type /\ throws_only_zero streebog_type /\ throws_only_zero esch_type.
Proof. exact (conj blake_only_zero (conj sha3_only_zero (conj kupyna_only_zero (conj streebog_only_zero esch_only_zero)))). Qed.
(** Some of the sizes accepted by mistake make the first digest call undefined. *)
Theorem C10_accepted_undefined :
  undefined (after (blake_type 1024) (zero_mem 12 128) [] [HDigestIter]) = true /\
  undefined (after (sha3_type 8) (zero_mem 25 144) [] [HDigestIter]) = true /\
  undefined (after (kupyna_type 1032) (zero_mem 16 128) [] [HDigestIter]) = true /\
  undefined (after (streebog_type 1024) (zero_mem 16 64) [] [HDigestIter]) = true /\
  undefined (after (esch_type 1024) (zero_mem 16 128) [] [HDigestIter]) = true.
Proof. exact accepted_undefined. Qed.
Example C10_example : bits_up_to 512 264 /\ ~ bits_up_to 512 260 /\ ~ bits_up_to 512 520 /\ ~ bits_up_to 512 0 /\
  ht_mem_ok (jh_type 264) (zero_mem 16 64).
Proof. unfold bits_up_to. repeat split; try reflexivity; try discriminate; intros (A & B & C); try discriminate; apply B; reflexivity. Qed.

(** ** C46: byte order and rotations *)
(** Bit [i] of the swapped word is bit [mirror k i] of the word: the same bit of the mirrored
    byte. *)
Theorem C46_byteswap : (forall v i, i < 16 -> N.testbit (byteswap16 v) i = N.testbit v (mirror 2 i)) /\
  (forall v i, i < 32 -> N.testbit (byteswap32 v) i = N.testbit v (mirror 4 i)) /\
  (forall v i, i < 64 -> N.testbit (byteswap64 v) i = N.testbit v (mirror 8 i)) /\
  (forall v, byteswap16 v < 2 ^ 16 /\ byteswap32 v < 2 ^ 32 /\ byteswap64 v < 2 ^ 64).
Proof.
  exact (conj byteswap16_bits (conj byteswap32_bits (conj byteswap64_bits
    (fun v => conj (byteswap16_lt v) (conj (byteswap32_lt v) (byteswap64_lt v)))))).
Qed.
Theorem C46_byteswap_involution : (forall v, v < 2 ^ 16 -> byteswap16 (byteswap16 v) = v) /\
  (forall v, v < 2 ^ 32 -> byteswap32 (byteswap32 v) = v) /\
  (forall v, v < 2 ^ 64 -> byteswap64 (byteswap64 v) = v).
Proof. exact byteswap_invol. Qed.
(** Between bytes and words: a big-endian word is a swapped little-endian load, and storing a
    swapped word writes its bytes in big-endian order. *)
Theorem C46_byteswap_bytes : (forall b, bytes_ok b -> length b = 4%nat -> byteswap32 (le_word b) = be_word b) /\
  (forall b, bytes_ok b -> length b = 8%nat -> byteswap64 (le_word b) = be_word b) /\
  (forall v, le_bytes 4 (byteswap32 v) = rev (le_bytes 4 v)) /\
  (forall v, le_bytes 8 (byteswap64 v) = rev (le_bytes 8 v)).
Proof. exact (conj byteswap32_be_word (conj byteswap64_be_word (conj le_bytes_byteswap32 le_bytes_byteswap64))). Qed.
Theorem C46_rotations w x n i : 0 < n -> n < w -> x < 2 ^ w -> i < w ->
  N.testbit (rotl w x n) i = N.testbit x ((i + (w - n)) mod w) /\
  N.testbit (rotr w x n) i = N.testbit x ((i + n) mod w) /\
  rotl w x n < 2 ^ w /\ rotr w x n < 2 ^ w.
Proof.
  intros H0 Hn Hx Hi. exact (conj (rotl_bits w x n i H0 Hn Hx Hi) (conj (rotr_bits w x n i H0 Hn Hx Hi)
    (conj (rotl_lt w x n H0 Hn Hx) (rotr_lt' w x n H0 Hn Hx)))).
Qed.
Theorem C46_rotations_inverse w x n : 0 < n -> n < w -> x < 2 ^ w ->
  rotr w (rotl w x n) n = x /\ rotl w (rotr w x n) n = x.
Proof. exact (rot_inverse w x n). Qed.
Example C46_example : byteswap16 0x1234 = 0x3412 /\ byteswap32 0x12345678 = 0x78563412 /\
  byteswap64 0x0123456789abcdef = 0xefcdab8967452301 /\
  rotl 32 0x80000001 1 = 3 /\ rotr 64 3 1 = 0x8000000000000001 /\ 0x80000001 < 2 ^ 32 /\
  bytes_ok [1; 2; 3; 4] /\ be_word [1; 2; 3; 4] = 0x01020304.
Proof. repeat split; try reflexivity. repeat constructor. Qed.

Definition misc_theorems :=
  (@C10_sha512, @C10_kmac, @C10_groestl, @C10_jh, @C10_echo, @C10_lsh, @C10_skein, @C10_blake2,
   @C10_blake2x_partial, @C10_blake2x_refuted, @C10_size_list_refuted, @C10_size_list_partial,
   @C10_accepted_undefined,
   @C46_byteswap, @C46_byteswap_involution, @C46_byteswap_bytes, @C46_rotations, @C46_rotations_inverse).
Print Assumptions misc_theorems.
