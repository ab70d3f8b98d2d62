(** * Round constants and initial values with integer generating rules. *)
From Verif Require Import Base SpecCommon GfSpec AesSpec SkeinSpec KeccakSpec KeccakProof ConstSha3
  ConstAscon Ascon AsconSpec AsconProof ConstWhirlpool WhirlpoolSpec WhirlpoolProof
  MdState Sha2 Sha2Spec Sha2Proof Md5 Sha1.

(** Threefish: AES-256 encryption of the number 240 under the all-zero key, last 64 bits. *)
Lemma skein_C240_rule : tf_C240 = be_word (skipn 8 (aes256 (repeat 0 32) (be_bytes 16 240))).
Proof. vm_compute. reflexivity. Qed.

(** Keccak: the LFSR of FIPS 202, algorithm 5. *)
Lemma keccak_RC_rule i : (i < 24)%nat -> nth i sha3_RC 0 = RC i.
Proof. exact (kc_RC i). Qed.

(** Ascon: the high nibble counts down from 15 and the low nibble counts up from 0. *)
Lemma ascon_RC_rule i : (i < 12)%nat -> nth i ascon_RC 0 = 16 * (15 - N.of_nat i) + N.of_nat i.
Proof. intros H. do 12 (destruct i as [|i]; [reflexivity|]). lia. Qed.
(** The stored initial states are the permutation of (IV, 0, 0, 0, 0). *)
Lemma ascon_iv_rule ty : ascon_iv ty = ascon_p 12 [ascon_iv_word ty; 0; 0; 0; 0].
Proof. exact (ascon_iv_eq ty). Qed.

(** Whirlpool: the bytes of constant r are S[8r], ..., S[8r+7]. *)
Lemma whirlpool_RC_rule r : (r < 10)%nat ->
  words_bytes 8 [nth r whirlpool_RC 0] = map (fun j => wp_S (N.of_nat (8 * r + j))) (seq 0 8).
Proof. intros H. do 10 (destruct r as [|r]; [vm_compute; reflexivity|]). lia. Qed.

(** SHA-512/t: SHA-512 of "SHA-512/t" with the modified initial value, also where the code
    stores the result (t = 224, 256). *)
Lemma sha512t_iv_rule hs s : s2_hs s = hs -> 0 < hs <= 512 /\ hs mod 8 = 0 /\ hs <> 384 /\ hs <> 512 -> length (sm (s2 s)) = 128%nat ->
  exists s', sha512_init s = Ok s' /\ sh (s2 s') = tuple8 (iv_512t hs).
Proof.
  intros E (H1 & H2 & H3 & H4) Hm.
  assert (Hs : size_ok W64 hs).
  { unfold size_ok. repeat split; auto; lia. }
  destruct (sha2_init_ok W64 hs s Hs E Hm) as (m & Hi & _). eexists. split; [exact Hi|]. cbn [s2 sh iv_of].
  rewrite (proj2 (N.eqb_neq hs 384) H3), (proj2 (N.eqb_neq hs 512) H4). reflexivity.
Qed.

(** MD5 and SHA-1 start from the bytes 01 23 ... ef fe dc ... 10 (and f0 e1 d2 c3). *)
Lemma md5_iv_rule s : exists s', md5_init s = Ok s' /\
  words_bytes 4 (sh s') = [0x01; 0x23; 0x45; 0x67; 0x89; 0xab; 0xcd; 0xef; 0xfe; 0xdc; 0xba; 0x98; 0x76; 0x54; 0x32; 0x10].
Proof. eexists. split; reflexivity. Qed.
Lemma sha1_iv_rule s : exists s', sha1_init s = Ok s' /\
  words_bytes 4 (sh s') = [0x01; 0x23; 0x45; 0x67; 0x89; 0xab; 0xcd; 0xef; 0xfe; 0xdc; 0xba; 0x98; 0x76; 0x54; 0x32; 0x10; 0xf0; 0xe1; 0xd2; 0xc3].
Proof. eexists. split; reflexivity. Qed.
