(** * C51: what clear() and reset(true) leave in memory. *)
From Verif Require Import Base Lemmas Hasher MdState Md5 Sha1 Sha2 Sm3 Whirlpool TTable Groestl Kupyna Streebog Jh Lsh
  Blake Echo Skein Blake2 Blake2p Sha3 Shake Kmac K12 Ascon Esch Wipe.

(** Every destructor calls clear(), and so does reset(true). In every state, clear()
    leaves only zeros in the chaining state, the message buffer and the salt, and does not
    change the size of any of them. *)
Theorem C51_clear : wipes md5 st_mem /\
  wipes sha1 st_mem /\
  wipes sha256_family (fun s => st_mem (s2 s)) /\
  wipes sha512_family (fun s => st_mem (s2 s)) /\
  (forall sem, wipes (sm3 sem) st_mem) /\
  wipes whirlpool st_mem /\
  wipes groestl (fun s => st_mem (cls s)) /\
  wipes kupyna (fun s => st_mem (cls s)) /\
  wipes streebog (fun s => st_mem (sbs s)) /\
  wipes jh (fun s => st_mem (jhs s)) /\
  (forall sem w, wipes (lsh sem w) (fun s => st_mem (lss s))) /\
  wipes blake (fun s => st_mem (bls s)) /\
  wipes echo ec_mem /\
  wipes sha3 (fun s => st_mem (k3 s)) /\
  wipes esch (fun s => st_mem (ek s)) /\
  wipes esch_xof (fun s => st_mem (ek s)) /\
  wipes ascon_hash (fun s => st_mem (ak s)) /\
  wipes ascon_xof (fun s => st_mem (ak s)) /\
  wipes ascon_cxof (fun s => st_mem (ak s)).
Proof. exact (conj md5_wipes (conj sha1_wipes (conj sha256_wipes (conj sha512_wipes (conj sm3_wipes (conj whirlpool_wipes (conj groestl_wipes (conj kupyna_wipes (conj streebog_wipes (conj jh_wipes (conj lsh_wipes (conj blake_wipes (conj echo_wipes (conj sha3_wipes (conj esch_wipes (conj esch_xof_wipes (conj ascon_hash_wipes (conj ascon_xof_wipes ascon_cxof_wipes)))))))))))))))))). Qed.
(** For the providers with std::string members: all of the memory, including the strings, is
    overwritten with zeros of the same length; the strings are emptied only then. *)
Theorem C51_clear_strings : (forall nw, wipes_then (skein nw) sk_mem any sk_wipe sk_drop) /\
  (forall nw, wipes_then (skein_xof nw) sk_mem any sk_wipe sk_drop) /\
  (forall B, wipes_then (shake B 24) shake_mem any shake_wipe shake_drop) /\
  (forall B, wipes_then (cshake B 24) shake_mem any shake_wipe shake_drop) /\
  (forall B R, wipes_then (k12 B R) k12_mem any k12_wipe k12_drop) /\
  (forall B, wipes_then (kmac B) kmac_mem any kmac_wipe (kmac_drop B)) /\
  (forall B, wipes_then (kmacxof B) kmac_mem any kmac_wipe (kmac_drop B)) /\
  (forall w ty, wipes_then (blake2 w ty) b2_mem b2_arrays b2_wipe b2_drop) /\
  (forall w, wipes_then (blake2x_xof w) b2_mem b2_arrays b2_wipe b2_drop) /\
  (forall w tf, wipes_then (blake2p_with w tf) b2p_mem_of b2p_arrays b2p_wipe b2p_drop).
Proof. exact (conj skein_wipes (conj skein_xof_wipes (conj shake_wipes (conj cshake_wipes (conj k12_wipes (conj kmac_wipes (conj kmacxof_wipes (conj blake2_wipes (conj blake2x_xof_wipes blake2p_wipes))))))))). Qed.
(** The state after reset(true) does not depend on the history: any two states of the same
    shape (digest size, array lengths) are reset to the same state. *)
Theorem C51_reset_forgets : forgets md5 st_shape /\
  forgets sha1 st_shape /\
  forgets sha256_family (fun s => (s2_hs s, st_shape (s2 s))) /\
  (forall sem, forgets (sm3 sem) st_shape) /\
  forgets whirlpool st_shape /\
  forgets groestl (fun s => (clhs s, st_shape (cls s))) /\
  forgets kupyna (fun s => (clhs s, st_shape (cls s))) /\
  forgets streebog (fun s => (sbhs s, st_shape (sbs s))) /\
  forgets jh (fun s => (jhhs s, st_shape (jhs s))) /\
  (forall sem w, forgets (lsh sem w) (fun s => (lshs s, st_shape (lss s)))) /\
  forgets blake (fun s => (blhs s, st_shape (bls s))) /\
  forgets sha3 (fun s => (k3_hs s, k3_rate s, st_shape (k3 s))) /\
  forgets esch (fun s => (ehs s, st_shape (ek s))) /\
  forgets esch_xof (fun s => (ehs s, st_shape (ek s))) /\
  forgets echo (fun s => (echs s, length (ecsalt s))) /\
  forgets sha512_family (fun s => (s2_hs s, st_shape (s2 s))) /\
  forgets ascon_hash (fun s => (aZ s, st_shape (ak s))) /\
  forgets ascon_xof (fun s => (aZ s, st_shape (ak s))) /\
  (forall nw, forgets (skein nw) (fun s => (skhs s, st_shape (skc s), length (skhb s)))) /\
  (forall nw, forgets (skein_xof nw) (fun s => (skhs s, st_shape (skc s), length (skhb s)))) /\
  (forall B, forgets (shake B 24) (fun s => st_shape (hk s))) /\
  (forall B, forgets (cshake B 24) (fun s => st_shape (hk s))) /\
  (forall B, forgets (kmac B) (fun s => (kmhs s, st_shape (hk (kmsh s))))) /\
  (forall B, forgets (kmacxof B) (fun s => (kmhs s, st_shape (hk (kmsh s))))) /\
  (forall w ty, forgets (blake2 w ty) (fun s => (b2hs s, st_shape (b2c s)))) /\
  (forall w, forgets (blake2x_xof w) (fun s => (b2hs s, st_shape (b2c s)))) /\
  (forall w tf, forgets (blake2p_with w tf) (fun s => (bphs s, length (bpm s), b2_shape (bpmain s), map b2_shape (bpleaf s)))) /\
  (forall B R, forgets_mem (k12 B R) k12_mem (fun s => (length (km s), st_shape (hk (kmain s)), st_shape (hk (kchild s))))).
Proof. exact (conj md5_forgets (conj sha1_forgets (conj sha256_forgets (conj sm3_forgets (conj whirlpool_forgets (conj groestl_forgets (conj kupyna_forgets (conj streebog_forgets (conj jh_forgets (conj lsh_forgets (conj blake_forgets (conj sha3_forgets (conj esch_forgets (conj esch_xof_forgets (conj echo_forgets (conj sha512_forgets (conj ascon_hash_forgets (conj ascon_xof_forgets (conj skein_forgets (conj skein_xof_forgets (conj shake_forgets (conj cshake_forgets (conj kmac_forgets (conj kmacxof_forgets (conj blake2_forgets (conj blake2x_xof_forgets (conj blake2p_forgets k12_forgets))))))))))))))))))))))))))). Qed.
(** Read literally the statement fails after reset(true), which initialises the provider
    again: the chaining state then holds the initial value. *)
Theorem C51_reset_zero_refuted : exists s s', reset md5 true s = Ok s' /\ ~ all_zero (st_mem s').
Proof. exact md5_reset_iv. Qed.
(** clear() of ascon_cxof keeps the customization string, which is not key material. *)
Theorem C51_ascon_cxof_keeps : exists s1 s2 : ascon_st, st_shape (ak s1) = st_shape (ak s2) /\
  p_clear ascon_cxof s1 = Ok s1 /\ p_clear ascon_cxof s2 = Ok s2 /\ aZ s1 <> aZ s2.
Proof. exact ascon_cxof_keeps. Qed.

Example C51_example : exists s s' : sk_st, sk_mem s <> [[]; []; []; []; []; []] /\
  sk_wipe s = s' /\ ~ all_zero (sk_mem s) /\ all_zero (sk_mem s').
Proof.
  exists (mksk (mkst [1; 2] [3; 4] 2 0) [5] 256 false [6] [7] [8; 9]). eexists. split; [discriminate|]. split; [reflexivity|].
  split; [|repeat constructor]. intros H. inversion H as [|? ? H1 ?]. inversion H1. discriminate.
Qed.
Example C51_shape_example : b2_arrays (mkb2 (mkst [] [1] 1 0) [1; 2] [3; 4] [5] 256 0 false 0 0 0) /\
  st_shape (mkst [1; 2] [3] 1 8) = st_shape (mkst [0; 0] [7] 0 0).
Proof. repeat split. Qed.

Definition wipe_theorems := (@C51_clear, @C51_clear_strings, @C51_reset_forgets, @C51_reset_zero_refuted, @C51_ascon_cxof_keeps).
Print Assumptions wipe_theorems.
