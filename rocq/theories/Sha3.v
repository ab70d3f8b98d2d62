(** * Model of algorithm/detail/sha3_provider.hpp:121-190. *)
From Verif Require Import Base Absorb Hasher MdState Keccak Validate.

(** sha3_provider.hpp:184-189: A, m, pos, total in [k3]; hs, rate. *)
Record sha3_st := mk3 { k3 : st; k3_hs : N; k3_rate : N }.

(** sha3_provider.hpp:127-133: run-time size. [rate] is computed in size_t arithmetic. *)
Definition sha3_ctor (hs : N) (g : st) : res sha3_st :=
  _ <- validate_list hs [224; 256; 384; 512] ;;
  Ok (mk3 g hs (subw 64 1600 (trunc 64 (hs * 2)))).

(** sha3_provider.hpp:135-141: static size, restricted by the static_assert. *)
Definition sha3_ctor_static (hs : N) (g : st) : res sha3_st := Ok (mk3 g hs (1600 - hs * 2)).

(** sha3_provider.hpp:148-153 *)
Definition sha3_init (s : sha3_st) : res sha3_st :=
  Ok (mk3 (mkst (zeros 25) (sm (k3 s)) 0 0) (k3_hs s) (k3_rate s)).

(** sha3_provider.hpp:155-159 *)
Definition sha3_update (s : sha3_st) (data : list N) : res sha3_st :=
  let r := N.to_nat (k3_rate s / 8) in
  s' <- md_update_res (kc_block 24 (N.to_nat (k3_rate s / 64))) r r (k3 s) data ;;
  Ok (mk3 s' (k3_hs s) (k3_rate s)).

(** sha3_provider.hpp:163-168 (the same code as shake_provider.hpp:126, 130-134): padding
    with the suffix byte [sfx] and the last call of the permutation. *)
Definition kc_pad_block (R : nat) (rate : N) (sfx : N) (s : st) : res st :=
  let r := N.to_nat (rate / 8) in
  m <- store (sm s) (spos s) sfx ;;
  let pos := (spos s + 1)%nat in
  m <- (if (r =? pos)%nat then Ok m else k <- size_sub r pos ;; memset m pos 0 k) ;;
  b <- load m (r - 1) 1 ;;
  m <- store m (r - 1) (N.lor (nthN 0 b) 0x80) ;;
  A <- md_transform1_res (kc_block R (N.to_nat (rate / 64))) r (sh s) m (stotal s) ;;
  Ok (mkst A m pos (stotal s)).

(** sha3_provider.hpp:161-170 *)
Definition sha3_final (s : sha3_st) : res (sha3_st * list N) :=
  s' <- kc_pad_block 24 (k3_rate s) 0x06 (k3 s) ;;
  w <- load (words_bytes 8 (sh s')) 0 (N.to_nat (k3_hs s / 8)) ;;
  Ok (mk3 s' (k3_hs s) (k3_rate s), w).

(** sha3_provider.hpp:177-181 *)
Definition sha3_clear (s : sha3_st) : res sha3_st :=
  Ok (mk3 (mkst (zero_memory (sh (k3 s))) (zero_memory (sm (k3 s))) (spos (k3 s)) (stotal (k3 s)))
    (k3_hs s) (k3_rate s)).

(** sha3_provider.hpp:172-175 and algorithm/sha3.hpp. *)
Definition sha3 : hash_provider :=
  {| hp := {| pst := sha3_st; p_init := sha3_init; p_update := sha3_update; p_clear := sha3_clear;
              p_param := Empty_set; p_set := no_set |};
     hp_final := sha3_final; hp_size := k3_hs |}.
