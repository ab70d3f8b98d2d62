(** * absorb_bytes and the counters with a size_t of [W] bits.

    The other files take size_t to have 64 bits. The members total are uint64_t, but
    [bs * 8], [bytes * 8] and the counters in the transforms of BLAKE and BLAKE2 are products of
    size_t. [pos + len] is assumed not to wrap: the data is shorter than 2^W - bs bytes. *)
From Verif Require Import Base Absorb Hasher MdState Library Md5 Sha1 Sha2 Sm3 Whirlpool TTable Groestl Kupyna
  Streebog Jh Lsh Blake Blake2 Echo Exact LibraryTypes.

Section SizeT.
Variable W : N.

(** absorb_data.hpp:14-39 *)
Definition absorb_bytes_sz {C : Type}
  (tf : C -> list N -> N -> list N -> nat -> res (C * list N))
  (bs bschk : nat) (data : list N)
  (c : C) (m : list N) (pos : nat) (total : N)
  : res (C * list N * nat * N) :=
  ' (c, m, data, pos, total) <-
    (if negb (pos =? 0)%nat && (bschk <=? pos + length data)%nat then
       k <- size_sub bs pos ;;
       m <- memcpy m pos data k ;;
       blk <- load m 0 bs ;;
       ' (c, m) <- tf c m total blk 1%nat ;;
       Ok (c, m, skipn k data, 0%nat, trunc 64 (total + trunc W (N.of_nat (bs * 8))))
     else Ok (c, m, data, pos, total)) ;;
  ' (c, m, data, total) <-
    (if (bschk <=? length data)%nat then
       let blocks := ((length data + bs - bschk) / bs)%nat in
       let bytes := (blocks * bs)%nat in
       blk <- load data 0 bytes ;;
       ' (c, m) <- tf c m total blk blocks ;;
       Ok (c, m, skipn bytes data, trunc 64 (total + trunc W (N.of_nat (bytes * 8))))
     else Ok (c, m, data, total)) ;;
  m <- memcpy m pos data (length data) ;;
  Ok (c, m, (pos + length data)%nat, total).

(** E.g. sha2_provider.hpp:183-187. *)
Definition md_update_sz (step : list N -> N -> list N -> list N) (bs bschk : nat)
  (s : st) (data : list N) : res st :=
  ' (h, m, pos, total) <-
    absorb_bytes_sz (fun h m t d n => Ok (block_loop step bs h t d n, m))
      bs bschk data (sh s) (sm s) (spos s) (stotal s) ;;
  Ok (mkst h m pos total).
(** E.g. sm3_provider.hpp:74-78. *)
Definition md_update_res_sz (step : list N -> N -> list N -> res (list N)) (bs bschk : nat)
  (s : st) (data : list N) : res st :=
  ' (h, m, pos, total) <-
    absorb_bytes_sz (fun h m t d n => h <- block_loop_res step bs h t d n ;; Ok (h, m))
      bs bschk data (sh s) (sm s) (spos s) (stotal s) ;;
  Ok (mkst h m pos total).

(** md5_provider.hpp:71-75 *)
Definition md5_update_sz : st -> list N -> res st := md_update_sz md5_block 64 64.
(** sha1_provider.hpp:62-66 *)
Definition sha1_update_sz : st -> list N -> res st := md_update_sz sha1_block 64 64.
(** sha2_provider.hpp:183-187 *)
Definition sha2_update_sz (T : sha2_word) (s : sha2_st) (data : list N) : res sha2_st :=
  x <- md_update_sz (sha2_block T) (sha2_bs T) (sha2_bs T) (s2 s) data ;; Ok (mk2 x (s2_hs s)).
(** sm3_provider.hpp:74-78 *)
Definition sm3_update_sz (sem : shift_sem) : st -> list N -> res st := md_update_res_sz (sm3_block sem) 64 64.
(** whirlpool_provider.hpp:56-60 *)
Definition wp_update_sz : st -> list N -> res st := md_update_sz wp_block 64 64.
(** groestl_provider.hpp:137-141 *)
Definition gr_update_sz (s : cl_st) (data : list N) : res cl_st :=
  let bs := cl_bs (clhs s) in
  x <- md_update_sz (gr_step (clhs s)) bs bs (cls s) data ;; Ok (mkcl x (clhs s)).
(** kupyna_provider.hpp:135-139 *)
Definition ku_update_sz (s : cl_st) (data : list N) : res cl_st :=
  let bs := cl_bs (clhs s) in
  x <- md_update_sz (ku_step (clhs s)) bs bs (cls s) data ;; Ok (mkcl x (clhs s)).
(** streebog_provider.hpp:135-139 *)
Definition sb_update_sz (s : sb_st) (data : list N) : res sb_st :=
  x <- md_update_sz sb_step 64 64 (sbs s) data ;; Ok (mksb x (sbhs s)).
(** jh_provider.hpp:136-140 *)
Definition jh_update_sz (s : jh_st) (data : list N) : res jh_st :=
  x <- md_update_sz jh_step 64 64 (jhs s) data ;; Ok (mkjh x (jhhs s)).
(** lsh_provider.hpp:112-116 *)
Definition lsh_update_sz (sem : shift_sem) (w : N) (s : lsh_st) (data : list N) : res lsh_st :=
  x <- md_update_res_sz (lsh_block sem w) (lsh_bs w) (lsh_bs w) (lss s) data ;; Ok (mklsh x (lshs s)).
(** echo_provider.hpp:207-211; the counter in transform (258) is computed in 64 bits. *)
Definition ec_update_sz (s : ec_st) (data : list N) : res ec_st :=
  let hs := echs s in
  let x := ecs s in
  ' (V, m, pos, total) <-
    absorb_bytes_sz (fun V m t d n => ec_transform hs (ecsalt s) V m t (Some d) n true (N.of_nat (ec_bs hs * n)))
      (ec_bs hs) (ec_bs hs) data (sh x) (sm x) (spos x) (stotal x) ;;
  Ok (mkec (mkst V m pos total) (ecsalt s) hs).

(** blake_provider.hpp:79-134: [(blk + 1) * sizeof(M) * 8] at line 87 is a size_t. *)
Definition bl_transform_sz (w : N) (H : list N) (total : N) (data : list N) (n : nat) : list N :=
  fold_left (fun H blk =>
    bl_block w false (trunc 64 (total + trunc W (N.of_nat ((blk + 1) * bl_bs w * 8)))) H
      (firstn (bl_bs w) (skipn (blk * bl_bs w) data))) (seq 0 n) H.
(** blake_provider.hpp:224-228 *)
Definition bl_update_sz (s : bl_st) (data : list N) : res bl_st :=
  let w := bl_w (blhs s) in
  ' (h, m, pos, total) <-
    absorb_bytes_sz (fun h m t d n => Ok (bl_transform_sz w h t d n, m)) (bl_bs w) (bl_bs w) data
      (sh (bls s)) (sm (bls s)) (spos (bls s)) (stotal (bls s)) ;;
  Ok (mkbl (mkst h m pos total) (blhs s)).

(** blake2_provider.hpp:317-372: [(blk + 1) * N] at line 324 is a size_t, N the bits of H. *)
Definition b2_transform_sz (w : N) (H : list N) (total : N) (data : list N) (n : nat) : list N :=
  fold_left (fun H blk =>
    b2_block w (trunc 64 (total / 8 + trunc W (N.of_nat ((blk + 1) * (b2_bs w * 4))) / 4)) false false H
      (firstn (b2_bs w) (skipn (blk * b2_bs w) data))) (seq 0 n) H.
(** blake2_provider.hpp:200-204 *)
Definition b2_update_sz (w : N) (s : b2_st) (data : list N) : res b2_st :=
  ' (h, m, pos, total) <-
    absorb_bytes_sz (fun h m t d n => Ok (b2_transform_sz w h t d n, m)) (b2_bs w) (b2_bs w + 1) data
      (sh (b2c s)) (sm (b2c s)) (spos (b2c s)) (stotal (b2c s)) ;;
  Ok (mkb2 (mkst h m pos total) (b2s s) (b2p s) (b2k s) (b2hs s) (b2xo s) (b2sq s) (b2fo s) (b2nd s) (b2no s)).
End SizeT.

(** The hasher (hasher.hpp:36-395) over a provider with another update function. init() may call
    update() too, but with at most 128 bytes (sha2_provider.hpp:172-175, blake2_provider.hpp:305-315),
    where the versions agree. *)
Definition with_update (P : hash_provider) (u : pst P -> list N -> res (pst P)) : hash_provider :=
  {| hp := {| pst := pst P; p_init := p_init P; p_update := u; p_clear := p_clear P;
              p_param := p_param P; p_set := p_set P |};
     hp_final := hp_final P; hp_size := hp_size P |}.
(** The type over that provider, hasher.hpp:36-395. *)
Definition type_with {P} (T : htype P) (u : pst P -> list N -> res (pst P)) : htype (with_update P u) :=
  Build_htype (with_update P u) (ht_mem T) (ht_mem_ok T) (ht_new T) (ht_size T) (ht_accepts T) (ht_clr T).

(** The types whose counter reaches the output, with their update at a width of size_t; the types
    over BLAKE and BLAKE2 are those of Exact.v, whose counters are as in the code.
    Specification; no code of /repo. *)
Inductive counts : forall P, htype P -> (N -> pst P -> list N -> res (pst P)) -> Prop :=
| ct_md5 : counts _ md5_type md5_update_sz
| ct_sha1 : counts _ sha1_type sha1_update_sz
| ct_sha224 : counts _ sha224_type (fun W => sha2_update_sz W W32)
| ct_sha256 : counts _ sha256_type (fun W => sha2_update_sz W W32)
| ct_sha384 : counts _ sha384_type (fun W => sha2_update_sz W W64)
| ct_sha512 hs : counts _ (sha512_type hs) (fun W => sha2_update_sz W W64)
| ct_sha512_static hs : counts _ (sha512_static_type hs) (fun W => sha2_update_sz W W64)
| ct_sm3 : counts _ sm3_type (fun W => sm3_update_sz W Masked)
| ct_whirlpool : counts _ whirlpool_type wp_update_sz
| ct_groestl hs : counts _ (groestl_type hs) gr_update_sz
| ct_groestl_static hs : counts _ (groestl_static_type hs) gr_update_sz
| ct_kupyna hs : counts _ (kupyna_type hs) ku_update_sz
| ct_kupyna_static hs : counts _ (kupyna_static_type hs) ku_update_sz
| ct_streebog hs : counts _ (streebog_type hs) sb_update_sz
| ct_streebog_static hs : counts _ (streebog_static_type hs) sb_update_sz
| ct_jh hs : counts _ (jh_type hs) jh_update_sz
| ct_jh_static hs : counts _ (jh_static_type hs) jh_update_sz
| ct_lsh w hs : In w [32; 64] -> counts _ (lsh_type w hs) (fun W => lsh_update_sz W Masked w)
| ct_lsh_static w hs : In w [32; 64] -> counts _ (lsh_static_type w hs) (fun W => lsh_update_sz W Masked w)
| ct_echo hs : counts _ (echo_type hs) ec_update_sz
| ct_echo_static hs : counts _ (echo_static_type hs) ec_update_sz
| ct_blake hs : counts _ (blakex_type hs) bl_update_sz
| ct_blake_static hs : counts _ (blakex_static_type hs) bl_update_sz
| ct_blake2 w ty hs : In w [32; 64] -> counts _ (blake2x_type w ty hs) (fun W => b2_update_sz W w)
| ct_blake2_static w ty hs : In w [32; 64] -> counts _ (blake2x_static_type w ty hs) (fun W => b2_update_sz W w).
Arguments counts {P}.

(** Calls that hand over less than 2^(W-3) bytes at once. Streams are read in pieces of 65536
    bytes (hasher.hpp:155), iterators byte by byte (184-189). *)
Definition short_call {param} (W : N) (o : hash_op param) : Prop :=
  match o with
  | HBase (Absorb FPtr d) | HBase (Absorb FStr d) => 8 * N.of_nat (length d) < 2 ^ W
  | _ => True
  end.

(** Spec of C67: of [len] bytes given with [pos] bytes in the buffer, the number that is processed
    in place, as whole blocks (absorb_data.hpp:27-34). *)
Definition in_place (bs bschk pos len : nat) : nat :=
  let rest := if (0 <? pos)%nat && (bschk <=? pos + len)%nat then (len - (bs - pos))%nat else len in
  if (bschk <=? rest)%nat then ((rest + bs - bschk) / bs * bs)%nat else 0%nat.
