(** * Conformance of the BLAKE family (C23–C26).

    See Properties.v for [implements]. *)
From Verif Require Import Base Hasher HasherSpec HasherProof MdState Blake BlakeSpec BlakeProof Blake2 Blake2Spec Blake2Sim
  Library LibraryTypes Blake2p Blake2pSpec Blake2pSim Blake2pRefuted.

(** The specification counts the bytes modulo 2^61, so it is RFC 7693 for every message
    shorter than 2^61 bytes. *)
Theorem C23_blake2b_conforms hs g xo : 0 < hs <= 512 -> hs mod 8 = 0 -> length (sm g) = 128%nat ->
  implements (blake2 64 BHash) (blake2_spec 64 hs) true (fresh_of (b2_ctor 64 BHash hs g xo) (b2_init 64 BHash)) /\
  implements (blake2 64 BHash) (blake2_spec 64 hs) true (fresh_of (b2_ctor_static 64 hs g xo) (b2_init 64 BHash)).
Proof. exact (blake2_implements 64 (or_introl eq_refl) hs g xo). Qed.
Theorem C23_blake2s_conforms hs g xo : 0 < hs <= 256 -> hs mod 8 = 0 -> length (sm g) = 64%nat ->
  implements (blake2 32 BHash) (blake2_spec 32 hs) true (fresh_of (b2_ctor 32 BHash hs g xo) (b2_init 32 BHash)) /\
  implements (blake2 32 BHash) (blake2_spec 32 hs) true (fresh_of (b2_ctor_static 32 hs g xo) (b2_init 32 BHash)).
Proof. exact (blake2_implements 32 (or_intror eq_refl) hs g xo). Qed.
Example C23_example : 0 < 264 <= 512 /\ 264 mod 8 = 0 /\ length (sm (mkst (repeat 7 8) (repeat 165 128) 3 4)) = 128%nat.
Proof. repeat split; discriminate. Qed.

Theorem C24_blake2xb_conforms hs g xo : 0 < hs <= 16368 -> hs mod 8 = 0 -> length (sm g) = 128%nat ->
  implements (blake2 64 BXhash) (blake2x_spec 64 hs) true (fresh_of (b2_ctor 64 BXhash hs g xo) (b2_init 64 BXhash)) /\
  implements (blake2 64 BXhash) (blake2x_spec 64 hs) true (fresh_of (b2_ctor_static 64 hs g xo) (b2_init 64 BXhash)).
Proof. exact (blake2x_implements 64 (or_introl eq_refl) hs g xo). Qed.
Theorem C24_blake2xs_conforms hs g xo : 0 < hs <= 4080 -> hs mod 8 = 0 -> length (sm g) = 64%nat ->
  implements (blake2 32 BXhash) (blake2x_spec 32 hs) true (fresh_of (b2_ctor 32 BXhash hs g xo) (b2_init 32 BXhash)) /\
  implements (blake2 32 BXhash) (blake2x_spec 32 hs) true (fresh_of (b2_ctor_static 32 hs g xo) (b2_init 32 BXhash)).
Proof. exact (blake2x_implements 32 (or_intror eq_refl) hs g xo). Qed.
(** The types without a length given in advance, default-constructed. *)
Theorem C24_blake2xb_xof_conforms g xo : length (sm g) = 128%nat ->
  ximplements (blake2x_xof 64) (blake2x_xof_spec 64) true (fresh_of (b2_ctor 64 BXof 512 g xo) (b2_init 64 BXof)).
Proof. exact (blake2x_xof_implements 64 (or_introl eq_refl) g xo). Qed.
Theorem C24_blake2xs_xof_conforms g xo : length (sm g) = 64%nat ->
  ximplements (blake2x_xof 32) (blake2x_xof_spec 32) true (fresh_of (b2_ctor 32 BXof 256 g xo) (b2_init 32 BXof)).
Proof. exact (blake2x_xof_implements 32 (or_intror eq_refl) g xo). Qed.
Example C24_example : 0 < 16368 <= 16368 /\ 16368 mod 8 = 0 /\ length (sm (mkst [] (repeat 165 64) 3 4)) = 64%nat.
Proof. repeat split; discriminate. Qed.

(** reset(true) is excluded: see C05_blake2bp_refuted. *)
Theorem C25_blake2bp_conforms hs g : 0 < hs <= 512 -> hs mod 8 = 0 -> b2p_mem_sized 64 g ->
  implements (blake2p 64) (blake2p_spec 64 hs) false (fresh_of (b2p_ctor 64 hs g) (b2p_init 64)) /\
  implements (blake2p 64) (blake2p_spec 64 hs) false (fresh_of (b2p_ctor_static 64 hs g) (b2p_init 64)).
Proof. exact (blake2p_implements 64 (or_introl eq_refl) hs g). Qed.
Theorem C25_blake2sp_conforms hs g : 0 < hs <= 256 -> hs mod 8 = 0 -> b2p_mem_sized 32 g ->
  implements (blake2p 32) (blake2p_spec 32 hs) false (fresh_of (b2p_ctor 32 hs g) (b2p_init 32)) /\
  implements (blake2p 32) (blake2p_spec 32 hs) false (fresh_of (b2p_ctor_static 32 hs g) (b2p_init 32)).
Proof. exact (blake2p_implements 32 (or_intror eq_refl) hs g). Qed.
(** Built with OpenMP. [sch] chooses for each call of transform any interleaving that
    keeps the blocks of each leaf in order. *)
Theorem C25_blake2bp_openmp_conforms hs g sch : 0 < hs <= 512 -> hs mod 8 = 0 -> b2p_mem_sized 64 g ->
  (forall leaf t d n, fair 4 n (sch leaf t d n)) ->
  implements (blake2p_omp 64 sch) (blake2p_spec 64 hs) false (fresh_of (b2p_ctor 64 hs g) (b2p_init 64)) /\
  implements (blake2p_omp 64 sch) (blake2p_spec 64 hs) false (fresh_of (b2p_ctor_static 64 hs g) (b2p_init 64)).
Proof. exact (blake2p_omp_implements 64 (or_introl eq_refl) hs g sch). Qed.
Theorem C25_blake2sp_openmp_conforms hs g sch : 0 < hs <= 256 -> hs mod 8 = 0 -> b2p_mem_sized 32 g ->
  (forall leaf t d n, fair 8 n (sch leaf t d n)) ->
  implements (blake2p_omp 32 sch) (blake2p_spec 32 hs) false (fresh_of (b2p_ctor 32 hs g) (b2p_init 32)) /\
  implements (blake2p_omp 32 sch) (blake2p_spec 32 hs) false (fresh_of (b2p_ctor_static 32 hs g) (b2p_init 32)).
Proof. exact (blake2p_omp_implements 32 (or_intror eq_refl) hs g sch). Qed.
(** One call of transform: any interleaving leaves the leaves as the sequential loop. *)
Theorem C25_schedule_independence w data n sched leaf r : fair (length leaf) n sched ->
  b2p_transform w data n leaf = Ok r -> b2p_run w data sched leaf = Ok r.
Proof. exact (schedule_ok w data n sched leaf r). Qed.
Example C25_example : 0 < 512 <= 512 /\ 512 mod 8 = 0 /\
  b2p_mem_sized 64 (mkb2pm (mkst [] (repeat 1 128) 3 4, 5) (repeat (mkst [] (repeat 1 128) 3 4, 5) 4) (repeat 9 512) 7 7) /\
  fair 4 3 (backwards 4 3) /\ fair 8 2 (backwards 8 2).
Proof.
  split; [repeat split; discriminate|]. split; [reflexivity|].
  split; [repeat split; repeat constructor|]. split; apply backwards_fair.
Qed.

(** reset(true) leaves a different function: the tree parameters are lost. *)
Theorem C05_blake2bp_refuted : reset_true_differs (blake2p_type 64 512).
Proof. exact blake2bp_reset_true. Qed.
Theorem C05_blake2sp_refuted : reset_true_differs (blake2p_type 32 256).
Proof. exact blake2sp_reset_true. Qed.

(** BLAKE counts the bits of the message modulo 2^64. *)
Theorem C26_blake_conforms hs g : hs = 224 \/ hs = 256 \/ hs = 384 \/ hs = 512 -> length (sm g) = 128%nat ->
  implements blake (blake_spec hs) true (fresh_of (bl_ctor hs g) bl_init) /\
  implements blake (blake_spec hs) true (fresh_of (bl_ctor_static hs g) bl_init).
Proof. exact (fun H => blake_implements hs H g). Qed.
Example C26_example : (384 = 224 \/ 384 = 256 \/ 384 = 384 \/ 384 = 512) /\ length (sm (mkst [] (repeat 165 128) 3 4)) = 128%nat.
Proof. split; [auto|reflexivity]. Qed.

Definition blake_theorems :=
  (@C26_blake_conforms,
   @C23_blake2b_conforms,
   @C23_blake2s_conforms,
   @C24_blake2xb_conforms,
   @C24_blake2xs_conforms,
   @C24_blake2xb_xof_conforms,
   @C24_blake2xs_xof_conforms,
   @C25_blake2bp_conforms,
   @C25_blake2sp_conforms,
   @C25_blake2bp_openmp_conforms,
   @C25_blake2sp_openmp_conforms,
   @C25_schedule_independence,
   @C05_blake2bp_refuted,
   @C05_blake2sp_refuted).
Print Assumptions blake_theorems.
