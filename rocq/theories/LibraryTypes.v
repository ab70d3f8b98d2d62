(** * The hash types of the library (algorithm/*.hpp) for the modelled providers.

    One constructor of [library] ([xlibrary] for the extendable-output types) per public
    type and supported size; [static_pair] relates the variant with a run-time size to
    its counterpart in namespace static_size. *)
From Verif Require Import Base Hasher MdState Library
  Md5 Sha1 Sha2 Sm3 Whirlpool Sha3 Shake Kmac K12 Ascon Esch Blake Blake2 Blake2p TTable Groestl Kupyna Streebog Jh Lsh Skein Echo.

(** A type without customization parameters over a provider whose memory is [st].
    E.g. algorithm/md5.hpp:56. *)
Definition plain (P : hash_provider) (bs : nat) (new : st -> res (pst P)) (size : nat)
  (acc : p_param P -> list N -> bool) : htype P :=
  {| ht_mem := st; ht_mem_ok := fun g => length (sm g) = bs; ht_new := new; ht_size := size;
     ht_accepts := acc; ht_clr := true |}.
(** No setters: algorithm/mixin/null_mixin.hpp *)
Definition never {param} (_ : param) (_ : list N) : bool := false.
(** Setters that accept every string, e.g. algorithm/mixin/kmac_mixin.hpp:28-61 *)
Definition always {param} (_ : param) (_ : list N) : bool := true.

(** md5.hpp, sha1.hpp, sha2.hpp, sm3.hpp, whirlpool.hpp *)
(* algorithm/md5.hpp:56 *)
Definition md5_type := plain md5 64 md5_init 16 never.
(* algorithm/sha1.hpp:49 *)
Definition sha1_type := plain sha1 64 sha1_init 20 never.
(* algorithm/sha2.hpp:162 *)
Definition sha224_type := plain sha256_family 64 (fun g => fresh_of (sha2_ctor_fixed 224 g) sha256_init) 28 never.
(* algorithm/sha2.hpp:126 *)
Definition sha256_type := plain sha256_family 64 (fun g => fresh_of (sha2_ctor_fixed 256 g) sha256_init) 32 never.
(* algorithm/sha2.hpp:94 *)
Definition sha384_type := plain sha512_family 128 (fun g => fresh_of (sha2_ctor_fixed 384 g) sha512_init) 48 never.
(* algorithm/sha2.hpp:59 *)
Definition sha512_type (hs : N) :=
  plain sha512_family 128 (fun g => fresh_of (sha512_ctor hs g) sha512_init) (N.to_nat (hs / 8)) never.
(* algorithm/sha2.hpp:196-197 *)
Definition sha512_static_type (hs : N) :=
  plain sha512_family 128 (fun g => fresh_of (sha2_ctor_fixed hs g) sha512_init) (N.to_nat (hs / 8)) never.
(* on a machine whose shifter masks the count, see C27 *)
(* algorithm/sm3.hpp:56 *)
Definition sm3_type := plain (sm3 Masked) 64 sm3_init 32 never.
(* algorithm/whirlpool.hpp:54 *)
Definition whirlpool_type := plain whirlpool 64 wp_init 64 never.

(** sha3.hpp, shake.hpp *)
(* algorithm/sha3.hpp:55 *)
Definition sha3_type (hs : N) := plain sha3 144 (fun g => fresh_of (sha3_ctor hs g) sha3_init) (N.to_nat (hs / 8)) never.
(* algorithm/sha3.hpp:89-90 *)
Definition sha3_static_type (hs : N) :=
  plain sha3 144 (fun g => fresh_of (sha3_ctor_static hs g) sha3_init) (N.to_nat (hs / 8)) never.
(** Uninitialised members: shake_provider.hpp:169-177 *)
Definition shake_mem := (st * bool * N)%type.
(** Array lengths: shake_provider.hpp:169-170 *)
Definition shake_mem_ok (g : shake_mem) : Prop := length (sm (fst (fst g))) = 168%nat.
(* algorithm/shake.hpp:51, 82 *)
Definition shake_type (B : N) :=
  Build_xtype (shake B 24) shake_mem shake_mem_ok
    (fun g => fresh_of (shake_ctor (fst (fst g)) (snd (fst g)) (snd g)) (shake_init B 24))
    never true.
(* algorithm/shake.hpp:122, 161 *)
Definition cshake_type (B : N) :=
  Build_xtype (cshake B 24) shake_mem shake_mem_ok
    (fun g => fresh_of (shake_ctor (fst (fst g)) (snd (fst g)) (snd g)) (shake_init B 24))
    always true.

(** kmac.hpp; the last component is the uninitialised squeezing flag. *)
Definition kmac_mem := (shake_mem * bool)%type.
(** Members of type shake_provider: kmac_provider.hpp:127, k12m14_provider.hpp:133-134 *)
Definition inner_shake (g : shake_mem) : shake_st := mksh (fst (fst g)) [] [] (snd (fst g)) (snd g).
(* algorithm/kmac.hpp:72, 125 *)
Definition kmac_type (B hs : N) :=
  Build_htype (kmac B) kmac_mem (fun g => shake_mem_ok (fst g))
    (fun g => fresh_of (kmac_ctor B hs (snd g) (inner_shake (fst g))) (kmac_init B))
    (N.to_nat (hs / 8)) always true.
(* algorithm/kmac.hpp:257-258, 295-296 *)
Definition kmac_static_type (B hs : N) :=
  Build_htype (kmac B) kmac_mem (fun g => shake_mem_ok (fst g))
    (fun g => fresh_of (kmac_ctor_static B hs (snd g) (inner_shake (fst g))) (kmac_init B))
    (N.to_nat (hs / 8)) always true.
(* algorithm/kmac.hpp:167, 210 *)
Definition kmacxof_type (B : N) :=
  Build_xtype (kmacxof B) kmac_mem (fun g => shake_mem_ok (fst g))
    (fun g => fresh_of (kmac_ctor_static B 0 (snd g) (inner_shake (fst g))) (kmac_init B))
    always true.

(** k12m14.hpp *)
Record k12_mem := mkk12m { km_main : shake_mem; km_child : shake_mem; km_m : list N; km_pos : nat;
  km_total : N; km_chunk : N; km_sq : bool }.
(* algorithm/k12m14.hpp:56, 68, 103, 140 *)
Definition k12_type (B : N) (R : nat) :=
  Build_xtype (k12 B R) k12_mem (fun g => shake_mem_ok (km_main g) /\ shake_mem_ok (km_child g) /\ length (km_m g) = N.to_nat 8192)
    (fun g => fresh_of (k12_ctor (inner_shake (km_main g)) (inner_shake (km_child g))
                 (km_m g) (km_pos g) (km_total g) (km_chunk g) (km_sq g)) (k12_init B R))
    always true.

(** ascon.hpp *)
(* algorithm/ascon.hpp:53 *)
Definition ascon_hash_type := plain ascon_hash 64 (fun g => fresh_of (ascon_ctor g) (ascon_init AHash)) 32 never.
(* algorithm/ascon.hpp:82 *)
Definition ascon_xof_type :=
  Build_xtype ascon_xof st (fun g => length (sm g) = 64%nat)
    (fun g => fresh_of (ascon_ctor g) (ascon_init AXof))
    never true.
(* reset(true) excluded, see C05_ascon_cxof_refuted *)
(* algorithm/ascon.hpp:121 *)
Definition ascon_cxof_type :=
  Build_xtype ascon_cxof st (fun g => length (sm g) = 64%nat)
    (fun g => fresh_of (ascon_ctor g) (ascon_init ACxof))
    always false.

(** esch.hpp; [w] is the number of state words. *)
Definition esch_mem_ok (w : nat) (g : st) : Prop := length (sm g) = 128%nat /\ length (sh g) = w.
(* algorithm/esch.hpp:56 *)
Definition esch_type (hs : N) :=
  Build_htype esch st (esch_mem_ok 16)
    (fun g => fresh_of (esch_ctor hs g) esch_init)
    (N.to_nat (hs / 8)) never true.
(* algorithm/esch.hpp:143-144 *)
Definition esch_static_type (hs : N) :=
  Build_htype esch st (esch_mem_ok 16)
    (fun g => fresh_of (esch_ctor_static hs g) esch_init)
    (N.to_nat (hs / 8)) never true.
(* algorithm/esch.hpp:84, 107 *)
Definition esch_xof_type (sz : N) (w : nat) :=
  Build_xtype esch_xof st (esch_mem_ok w)
    (fun g => fresh_of (esch_ctor_xof sz g) esch_init)
    never true.

(** blake.hpp. Documented (blake_mixin.hpp): a salt of 32 bytes for the sizes above 256,
    16 bytes otherwise; the empty string is accepted too. *)
Definition blake_accepts (hs : N) (q : bl_param) (v : list N) : bool :=
  let n := length v in (n =? 0)%nat || (n =? if (256 <? hs)%N then 32 else 16)%nat.
(* algorithm/blake.hpp:58 *)
Definition blake_type (hs : N) :=
  plain blake 128 (fun g => fresh_of (bl_ctor hs g) bl_init) (N.to_nat (hs / 8)) (blake_accepts hs).
(* algorithm/blake.hpp:101-102 *)
Definition blake_static_type (hs : N) :=
  plain blake 128 (fun g => fresh_of (bl_ctor_static hs g) bl_init) (N.to_nat (hs / 8)) (blake_accepts hs).

(** blake2.hpp; [w] is the word size. Documented (blake2_mixin.hpp): keys of at most
    [w] bytes, salt and personalization of exactly 16 (8) bytes; the empty string is
    accepted too. The second component is the uninitialised member xoffset. *)
Definition b2_mem := (st * N)%type.
(** Array lengths: blake2_provider.hpp:377-381 *)
Definition b2_mem_ok (w : N) (g : b2_mem) : Prop := N.of_nat (length (sm (fst g))) = 2 * w.
(** Documented lengths: algorithm/mixin/blake2_mixin.hpp:31-103 *)
Definition b2_accepts (w : N) (q : b2_param) (v : list N) : bool :=
  let n := N.of_nat (length v) in
  match q with B2Key => n <=? w | _ => (n =? 0) || (n =? w / 4) end.
(* algorithm/blake2.hpp:68, 117, 161, 204 *)
Definition blake2_type (w : N) (ty : b2_type) (hs : N) :=
  Build_htype (blake2 w ty) b2_mem (b2_mem_ok w)
    (fun g => fresh_of (b2_ctor w ty hs (fst g) (snd g)) (b2_init w ty))
    (N.to_nat (hs / 8)) (b2_accepts w) true.
(* algorithm/blake2.hpp:317-318, 351-352, 385-386, 419-420 *)
Definition blake2_static_type (w : N) (ty : b2_type) (hs : N) :=
  Build_htype (blake2 w ty) b2_mem (b2_mem_ok w)
    (fun g => fresh_of (b2_ctor_static w hs (fst g) (snd g)) (b2_init w ty))
    (N.to_nat (hs / 8)) (b2_accepts w) true.
(* algorithm/blake2.hpp:239, 274 *)
Definition blake2x_xof_type (w : N) :=
  Build_xtype (blake2x_xof w) b2_mem (b2_mem_ok w)
    (fun g => fresh_of (b2_ctor w BXof (8 * w) (fst g) (snd g)) (b2_init w BXof))
    (b2_accepts w) true.

(** blake2p.hpp, built without and with OpenMP; [sch] is the schedule. *)
Definition b2p_mem_ok (w : N) (g : b2p_mem) : Prop :=
  b2_mem_ok w (gpmain g) /\ length (gpleaf g) = (if (w =? 64)%N then 4 else 8)%nat /\
  Forall (b2_mem_ok w) (gpleaf g) /\ length (gpm g) = 512%nat.
(* reset(true) excluded, see C05_blake2bp_refuted *)
(* algorithm/blake2p.hpp:58, 96 *)
Definition blake2p_type (w : N) (hs : N) :=
  Build_htype (blake2p w) b2p_mem (b2p_mem_ok w)
    (fun g => fresh_of (b2p_ctor w hs g) (b2p_init w))
    (N.to_nat (hs / 8)) (b2_accepts w) false.
(* algorithm/blake2p.hpp:139-140, 173-174 *)
Definition blake2p_static_type (w : N) (hs : N) :=
  Build_htype (blake2p w) b2p_mem (b2p_mem_ok w)
    (fun g => fresh_of (b2p_ctor_static w hs g) (b2p_init w))
    (N.to_nat (hs / 8)) (b2_accepts w) false.
(** Choice of the OpenMP schedule: blake2p_provider.hpp:165-168 *)
Definition b2p_schedule := list b2_st -> N -> list N -> nat -> list (nat * nat).
(* algorithm/blake2p.hpp:58, 96 *)
Definition blake2p_omp_type (w : N) (hs : N) (sch : b2p_schedule) :=
  Build_htype (blake2p_omp w sch) b2p_mem (b2p_mem_ok w)
    (fun g => fresh_of (b2p_ctor w hs g) (b2p_init w))
    (N.to_nat (hs / 8)) (b2_accepts w) false.
(* algorithm/blake2p.hpp:139-140, 173-174 *)
Definition blake2p_omp_static_type (w : N) (hs : N) (sch : b2p_schedule) :=
  Build_htype (blake2p_omp w sch) b2p_mem (b2p_mem_ok w)
    (fun g => fresh_of (b2p_ctor_static w hs g) (b2p_init w))
    (N.to_nat (hs / 8)) (b2_accepts w) false.
(** blake2p_provider.hpp:165-168: the loop for every choice. *)
Definition any_schedule (w : N) (sch : b2p_schedule) : Prop :=
  forall leaf t d n, fair (if (w =? 64)%N then 4 else 8)%nat n (sch leaf t d n).

(** jh.hpp *)
(* algorithm/jh.hpp:54 *)
Definition jh_type (hs : N) :=
  plain jh 64 (fun g => fresh_of (jh_ctor hs g) jh_init) (N.to_nat (hs / 8)) never.
(* algorithm/jh.hpp:88-89 *)
Definition jh_static_type (hs : N) :=
  plain jh 64 (fun g => fresh_of (jh_ctor_static hs g) jh_init) (N.to_nat (hs / 8)) never.

(** lsh.hpp, on a machine whose shifter masks the count *)
(* algorithm/lsh.hpp:61, 99 *)
Definition lsh_type (w hs : N) :=
  plain (lsh Masked w) (lsh_bs w) (fun g => fresh_of (lsh_ctor w hs g) (lsh_init Masked w)) (N.to_nat (hs / 8)) never.
(* algorithm/lsh.hpp:133-134, 158-159 *)
Definition lsh_static_type (w hs : N) :=
  plain (lsh Masked w) (lsh_bs w) (fun g => fresh_of (lsh_ctor_static hs g) (lsh_init Masked w)) (N.to_nat (hs / 8)) never.

(** skein.hpp; [nw] is the number of state words. Any string is accepted as key, nonce
    or personalization. The memory is that of the buffers, hbk and squeezing. *)
Definition skein_mem := (st * list N * bool)%type.
(** Array lengths: skein_provider.hpp:380-384 *)
Definition skein_mem_ok (nw : nat) (g : skein_mem) : Prop :=
  length (sh (fst (fst g))) = (2 + nw)%nat /\ length (sm (fst (fst g))) = (8 * nw)%nat.
(* algorithm/skein.hpp:70, 118, 166 *)
Definition skein_type (nw : nat) (hs : N) :=
  Build_htype (skein nw) skein_mem (skein_mem_ok nw)
    (fun g => fresh_of (sk_ctor hs (fst (fst g)) (snd (fst g)) (snd g)) (sk_init nw false))
    (N.to_nat (hs / 8)) always true.
(* algorithm/skein.hpp:314-315, 348-349, 382-383 *)
Definition skein_static_type (nw : nat) (hs : N) :=
  Build_htype (skein nw) skein_mem (skein_mem_ok nw)
    (fun g => fresh_of (sk_ctor_static hs (fst (fst g)) (snd (fst g)) (snd g)) (sk_init nw false))
    (N.to_nat (hs / 8)) always true.
(* algorithm/skein.hpp:201, 236, 271 *)
Definition skein_xof_type (nw : nat) :=
  Build_xtype (skein_xof nw) skein_mem (skein_mem_ok nw)
    (fun g => fresh_of (sk_ctor (64 * N.of_nat nw) (fst (fst g)) (snd (fst g)) (snd g)) (sk_init nw true))
    always true.

(** echo.hpp. Documented (echo_mixin.hpp): a salt of 16 bytes; the empty string is accepted
    too. The constructor overwrites all memory. *)
Definition echo_accepts (q : ec_param) (v : list N) : bool :=
  (length v =? 0)%nat || (length v =? 16)%nat.
(* algorithm/echo.hpp:62 *)
Definition echo_type (hs : N) :=
  Build_htype echo st (fun _ => True) (fun g => fresh_of (ec_ctor hs g) ec_init) (N.to_nat (hs / 8)) echo_accepts true.
(* algorithm/echo.hpp:103-104 *)
Definition echo_static_type (hs : N) :=
  Build_htype echo st (fun _ => True) (fun g => fresh_of (ec_ctor_static hs g) ec_init) (N.to_nat (hs / 8)) echo_accepts true.

(** groestl.hpp, kupyna.hpp *)
(* algorithm/groestl.hpp:53 *)
Definition groestl_type (hs : N) :=
  plain groestl 128 (fun g => fresh_of (gr_ctor hs g) gr_init) (N.to_nat (hs / 8)) never.
(* algorithm/groestl.hpp:87-88 *)
Definition groestl_static_type (hs : N) :=
  plain groestl 128 (fun g => fresh_of (gr_ctor_static hs g) gr_init) (N.to_nat (hs / 8)) never.
(* algorithm/kupyna.hpp:58 *)
Definition kupyna_type (hs : N) :=
  plain kupyna 128 (fun g => fresh_of (ku_ctor hs g) ku_init) (N.to_nat (hs / 8)) never.
(* algorithm/kupyna.hpp:93-94 *)
Definition kupyna_static_type (hs : N) :=
  plain kupyna 128 (fun g => fresh_of (ku_ctor_static hs g) ku_init) (N.to_nat (hs / 8)) never.
(** streebog.hpp *)
(* algorithm/streebog.hpp:80 *)
Definition streebog_type (hs : N) :=
  plain streebog 64 (fun g => fresh_of (sb_ctor hs g) sb_init) (N.to_nat (hs / 8)) never.
(* algorithm/streebog.hpp:137-138 *)
Definition streebog_static_type (hs : N) :=
  plain streebog 64 (fun g => fresh_of (sb_ctor_static hs g) sb_init) (N.to_nat (hs / 8)) never.

(** ** The library *)
(** validate_hash_size.hpp:26-36. *)
Definition bits_up_to (max hs : N) : Prop := 0 < hs /\ hs <= max /\ hs mod 8 = 0.

(** All fixed-output types of algorithm/*.hpp. *)
Inductive library : forall P, htype P -> Prop :=
| lib_md5 : library _ md5_type
| lib_sha1 : library _ sha1_type
| lib_sha224 : library _ sha224_type
| lib_sha256 : library _ sha256_type
| lib_sha384 : library _ sha384_type
| lib_sha512 hs : bits_up_to 512 hs -> library _ (sha512_type hs)
| lib_sha512_static hs : bits_up_to 512 hs -> library _ (sha512_static_type hs)
| lib_sm3 : library _ sm3_type
| lib_whirlpool : library _ whirlpool_type
| lib_sha3 hs : In hs [224; 256; 384; 512] -> library _ (sha3_type hs)
| lib_sha3_static hs : In hs [224; 256; 384; 512] -> library _ (sha3_static_type hs)
| lib_kmac128 hs : bits_up_to (2 ^ 64 - 1) hs -> library _ (kmac_type 128 hs)
| lib_kmac128_static hs : bits_up_to (2 ^ 64 - 1) hs -> library _ (kmac_static_type 128 hs)
| lib_kmac256 hs : bits_up_to (2 ^ 64 - 1) hs -> library _ (kmac_type 256 hs)
| lib_kmac256_static hs : bits_up_to (2 ^ 64 - 1) hs -> library _ (kmac_static_type 256 hs)
| lib_ascon_hash : library _ ascon_hash_type
| lib_esch hs : In hs [256; 384] -> library _ (esch_type hs)
| lib_esch_static hs : In hs [256; 384] -> library _ (esch_static_type hs)
| lib_blake hs : In hs [224; 256; 384; 512] -> library _ (blake_type hs)
| lib_blake_static hs : In hs [224; 256; 384; 512] -> library _ (blake_static_type hs)
| lib_groestl hs : bits_up_to 512 hs -> library _ (groestl_type hs)
| lib_groestl_static hs : bits_up_to 512 hs -> library _ (groestl_static_type hs)
| lib_jh hs : bits_up_to 512 hs -> library _ (jh_type hs)
| lib_jh_static hs : bits_up_to 512 hs -> library _ (jh_static_type hs)
| lib_lsh256 hs : bits_up_to 256 hs -> library _ (lsh_type 32 hs)
| lib_lsh256_static hs : bits_up_to 256 hs -> library _ (lsh_static_type 32 hs)
| lib_lsh512 hs : bits_up_to 512 hs -> library _ (lsh_type 64 hs)
| lib_lsh512_static hs : bits_up_to 512 hs -> library _ (lsh_static_type 64 hs)
| lib_skein nw hs : In nw [4; 8; 16]%nat -> bits_up_to (2 ^ 64 - 1) hs -> library _ (skein_type nw hs)
| lib_skein_static nw hs : In nw [4; 8; 16]%nat -> bits_up_to (2 ^ 64 - 1) hs -> library _ (skein_static_type nw hs)
| lib_echo hs : bits_up_to 512 hs -> library _ (echo_type hs)
| lib_echo_static hs : bits_up_to 512 hs -> library _ (echo_static_type hs)
| lib_kupyna hs : In hs [256; 512] -> library _ (kupyna_type hs)
| lib_kupyna_static hs : In hs [256; 512] -> library _ (kupyna_static_type hs)
| lib_streebog hs : In hs [256; 512] -> library _ (streebog_type hs)
| lib_streebog_static hs : In hs [256; 512] -> library _ (streebog_static_type hs)
| lib_blake2b hs : bits_up_to 512 hs -> library _ (blake2_type 64 BHash hs)
| lib_blake2b_static hs : bits_up_to 512 hs -> library _ (blake2_static_type 64 BHash hs)
| lib_blake2s hs : bits_up_to 256 hs -> library _ (blake2_type 32 BHash hs)
| lib_blake2s_static hs : bits_up_to 256 hs -> library _ (blake2_static_type 32 BHash hs)
| lib_blake2xb hs : bits_up_to 16368 hs -> library _ (blake2_type 64 BXhash hs)
| lib_blake2xb_static hs : bits_up_to 16368 hs -> library _ (blake2_static_type 64 BXhash hs)
| lib_blake2xs hs : bits_up_to 4080 hs -> library _ (blake2_type 32 BXhash hs)
| lib_blake2xs_static hs : bits_up_to 4080 hs -> library _ (blake2_static_type 32 BXhash hs)
| lib_blake2bp hs : bits_up_to 512 hs -> library _ (blake2p_type 64 hs)
| lib_blake2bp_static hs : bits_up_to 512 hs -> library _ (blake2p_static_type 64 hs)
| lib_blake2sp hs : bits_up_to 256 hs -> library _ (blake2p_type 32 hs)
| lib_blake2sp_static hs : bits_up_to 256 hs -> library _ (blake2p_static_type 32 hs)
| lib_blake2bp_omp hs sch : bits_up_to 512 hs -> any_schedule 64 sch -> library _ (blake2p_omp_type 64 hs sch)
| lib_blake2bp_omp_static hs sch : bits_up_to 512 hs -> any_schedule 64 sch -> library _ (blake2p_omp_static_type 64 hs sch)
| lib_blake2sp_omp hs sch : bits_up_to 256 hs -> any_schedule 32 sch -> library _ (blake2p_omp_type 32 hs sch)
| lib_blake2sp_omp_static hs sch : bits_up_to 256 hs -> any_schedule 32 sch -> library _ (blake2p_omp_static_type 32 hs sch).
Arguments library {P}.

(** All extendable-output types of algorithm/*.hpp. *)
Inductive xlibrary : forall P, xtype P -> Prop :=
| xlib_shake128 : xlibrary _ (shake_type 128)
| xlib_shake256 : xlibrary _ (shake_type 256)
| xlib_cshake128 : xlibrary _ (cshake_type 128)
| xlib_cshake256 : xlibrary _ (cshake_type 256)
| xlib_kmac128 : xlibrary _ (kmacxof_type 128)
| xlib_kmac256 : xlibrary _ (kmacxof_type 256)
| xlib_k12 : xlibrary _ (k12_type 128 12)
| xlib_m14 : xlibrary _ (k12_type 256 14)
| xlib_kt256 : xlibrary _ (k12_type 256 12)
| xlib_ascon_xof : xlibrary _ ascon_xof_type
| xlib_ascon_cxof : xlibrary _ ascon_cxof_type
| xlib_esch256 : xlibrary _ (esch_xof_type 384 12)
| xlib_esch384 : xlibrary _ (esch_xof_type 512 16)
| xlib_blake2xb : xlibrary _ (blake2x_xof_type 64)
| xlib_blake2xs : xlibrary _ (blake2x_xof_type 32)
| xlib_skein nw : In nw [4; 8; 16]%nat -> xlibrary _ (skein_xof_type nw).
Arguments xlibrary {P}.

(** Types and their static_size variants in algorithm/*.hpp. *)
Inductive static_pair : forall P, htype P -> htype P -> Prop :=
| pair_sha512 hs : bits_up_to 512 hs -> static_pair _ (sha512_type hs) (sha512_static_type hs)
| pair_sha3 hs : In hs [224; 256; 384; 512] -> static_pair _ (sha3_type hs) (sha3_static_type hs)
| pair_kmac128 hs : bits_up_to (2 ^ 64 - 1) hs -> static_pair _ (kmac_type 128 hs) (kmac_static_type 128 hs)
| pair_kmac256 hs : bits_up_to (2 ^ 64 - 1) hs -> static_pair _ (kmac_type 256 hs) (kmac_static_type 256 hs)
| pair_esch hs : In hs [256; 384] -> static_pair _ (esch_type hs) (esch_static_type hs)
| pair_blake hs : In hs [224; 256; 384; 512] -> static_pair _ (blake_type hs) (blake_static_type hs)
| pair_groestl hs : bits_up_to 512 hs -> static_pair _ (groestl_type hs) (groestl_static_type hs)
| pair_jh hs : bits_up_to 512 hs -> static_pair _ (jh_type hs) (jh_static_type hs)
| pair_lsh256 hs : bits_up_to 256 hs -> static_pair _ (lsh_type 32 hs) (lsh_static_type 32 hs)
| pair_lsh512 hs : bits_up_to 512 hs -> static_pair _ (lsh_type 64 hs) (lsh_static_type 64 hs)
| pair_skein nw hs : In nw [4; 8; 16]%nat -> bits_up_to (2 ^ 64 - 1) hs -> static_pair _ (skein_type nw hs) (skein_static_type nw hs)
| pair_echo hs : bits_up_to 512 hs -> static_pair _ (echo_type hs) (echo_static_type hs)
| pair_kupyna hs : In hs [256; 512] -> static_pair _ (kupyna_type hs) (kupyna_static_type hs)
| pair_streebog hs : In hs [256; 512] -> static_pair _ (streebog_type hs) (streebog_static_type hs)
| pair_blake2b hs : bits_up_to 512 hs -> static_pair _ (blake2_type 64 BHash hs) (blake2_static_type 64 BHash hs)
| pair_blake2s hs : bits_up_to 256 hs -> static_pair _ (blake2_type 32 BHash hs) (blake2_static_type 32 BHash hs)
| pair_blake2xb hs : bits_up_to 16368 hs -> static_pair _ (blake2_type 64 BXhash hs) (blake2_static_type 64 BXhash hs)
| pair_blake2xs hs : bits_up_to 4080 hs -> static_pair _ (blake2_type 32 BXhash hs) (blake2_static_type 32 BXhash hs)
| pair_blake2bp hs : bits_up_to 512 hs -> static_pair _ (blake2p_type 64 hs) (blake2p_static_type 64 hs)
| pair_blake2sp hs : bits_up_to 256 hs -> static_pair _ (blake2p_type 32 hs) (blake2p_static_type 32 hs).
Arguments static_pair {P}.
