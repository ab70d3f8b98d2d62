(** * Model of algorithm/detail/sha2_provider.hpp (sha2_provider<T, O>). *)
From Verif Require Import Base Absorb Hasher MdState Validate ConstSha2.

(** [T] is uint32_t or uint64_t. sha2_provider.hpp:92. *)
Inductive sha2_word := W32 | W64.
(** width in bits. 8 * sizeof(T), sha2_provider.hpp:92. *)
Definition wbits (T : sha2_word) : N := match T with W32 => 32 | W64 => 64 end.
(** sizeof(T). sha2_provider.hpp:193. *)
Definition wbytes (T : sha2_word) : nat := match T with W32 => 4 | W64 => 8 end.
(** sha2_provider.hpp:267, 269: block size N / 4 in bytes *)
Definition sha2_bs (T : sha2_word) : nat := match T with W32 => 64 | W64 => 128 end.

(** detail/functions.hpp:22-41: the overload for T, called at sha2_provider.hpp:204, 223. *)
Definition sha2_byteswap (T : sha2_word) : N -> N :=
  match T with W32 => byteswap32 | W64 => byteswap64 end.

(** sha2_provider.hpp:22-26 *)
Definition sha2_Ch (w x y z : N) : N := N.lxor (N.land x y) (N.land (notw w x) z).
(** sha2_provider.hpp:28-32 *)
Definition sha2_Maj (x y z : N) : N := N.lxor (N.lxor (N.land x y) (N.land x z)) (N.land y z).
(** sha2_provider.hpp:34-47 *)
Definition getK (T : sha2_word) (t : nat) : N :=
  match T with W32 => nthN t sha256_K | W64 => nthN t sha512_K end.
(** sha2_provider.hpp:49-87 *)
Definition sum0 (T : sha2_word) (x : N) : N :=
  match T with
  | W64 => N.lxor (N.lxor (rotr 64 x 28) (rotr 64 x 34)) (rotr 64 x 39)
  | W32 => N.lxor (N.lxor (rotr 32 x 2) (rotr 32 x 13)) (rotr 32 x 22)
  end.
(** sha2_provider.hpp:54-57, 74-77 *)
Definition sum1 (T : sha2_word) (x : N) : N :=
  match T with
  | W64 => N.lxor (N.lxor (rotr 64 x 14) (rotr 64 x 18)) (rotr 64 x 41)
  | W32 => N.lxor (N.lxor (rotr 32 x 6) (rotr 32 x 11)) (rotr 32 x 25)
  end.
(** sha2_provider.hpp:59-62, 79-82 *)
Definition sigma0 (T : sha2_word) (x : N) : N :=
  match T with
  | W64 => N.lxor (N.lxor (rotr 64 x 1) (rotr 64 x 8)) (shrw x 7)
  | W32 => N.lxor (N.lxor (rotr 32 x 7) (rotr 32 x 18)) (shrw x 3)
  end.
(** sha2_provider.hpp:64-67, 84-87 *)
Definition sigma1 (T : sha2_word) (x : N) : N :=
  match T with
  | W64 => N.lxor (N.lxor (rotr 64 x 19) (rotr 64 x 61)) (shrw x 6)
  | W32 => N.lxor (N.lxor (rotr 32 x 17) (rotr 32 x 19)) (shrw x 10)
  end.

(** sha2_provider.hpp:229-230: [n] more schedule words. *)
Fixpoint sha2_expand (T : sha2_word) (n : nat) (W : list N) : list N :=
  match n with
  | O => W
  | S n' =>
    let t := length W in
    let w := wbits T in
    sha2_expand T n' (W ++ [addw w (addw w (addw w (sigma1 T (nthN (t - 2) W)) (nthN (t - 7) W))
                              (sigma0 T (nthN (t - 15) W))) (nthN (t - 16) W)])
  end.

(** sha2_provider.hpp:225 *)
Definition sha2_rounds (T : sha2_word) : nat := match T with W64 => 80 | W32 => 64 end.

(** sha2_provider.hpp:241-254: one round. *)
Definition sha2_iter (T : sha2_word) (W : list N)
  (s : N * N * N * N * N * N * N * N) (t : nat) : N * N * N * N * N * N * N * N :=
  let '(a, b, c, d, e, f, g, h) := s in
  let w := wbits T in
  let T1 := addw w (addw w (addw w (addw w h (sum1 T e)) (sha2_Ch w e f g)) (getK T t)) (nthN t W) in
  let T2 := addw w (sum0 T a) (sha2_Maj a b c) in
  (addw w T1 T2, a, b, c, addw w d T1, e, f, g).

(** sha2_provider.hpp:217-265: loop body of transform. *)
Definition sha2_block (T : sha2_word) (H : list N) (_ : N) (data : list N) : list N :=
  let w := wbits T in
  let M := map (sha2_byteswap T) (le_words (wbytes T) 16 data) in
  let W := sha2_expand T (sha2_rounds T - 16) M in
  let s0 := (nthN 0 H, nthN 1 H, nthN 2 H, nthN 3 H, nthN 4 H, nthN 5 H, nthN 6 H, nthN 7 H) in
  let '(a, b, c, d, e, f, g, h) := fold_left (sha2_iter T W) (seq 0 (sha2_rounds T)) s0 in
  [addw w (nthN 0 H) a; addw w (nthN 1 H) b; addw w (nthN 2 H) c; addw w (nthN 3 H) d;
   addw w (nthN 4 H) e; addw w (nthN 5 H) f; addw w (nthN 6 H) g; addw w (nthN 7 H) h].

(** The object: common part plus the digest size [hs] (sha2_provider.hpp:267-272). *)
Record sha2_st := mk2 { s2 : st; s2_hs : N }.

(** sha2_provider.hpp:183-187 update. *)
Definition sha2_update_st (T : sha2_word) : st -> list N -> res st :=
  md_update (sha2_block T) (sha2_bs T) (sha2_bs T).

(** sha2_provider.hpp:183-187, on the whole object. *)
Definition sha2_update (T : sha2_word) (s : sha2_st) (data : list N) : res sha2_st :=
  x <- sha2_update_st T (s2 s) data ;; Ok (mk2 x (s2_hs s)).

(** sha2_provider.hpp:189-206 final. *)
Definition sha2_final_st (T : sha2_word) (hs : N) (s : st) : res (st * list N) :=
  let bs := sha2_bs T in
  let total := trunc 64 (stotal s + N.of_nat (spos s * 8)) in
  m <- store (sm s) (spos s) 0x80 ;;
  let pos := (spos s + 1)%nat in
  ' (h, m, pos) <-
    (if (bs - wbytes T * 2 <? pos)%nat then
       m <- (if (pos =? bs)%nat then Ok m
             else k <- size_sub bs pos ;; memset m pos 0 k) ;;
       h <- md_transform1 (sha2_block T) bs (sh s) m total ;;
       Ok (h, m, 0%nat)
     else Ok (sh s, m, pos)) ;;
  k <- size_sub bs pos ;;
  m <- memset m pos 0 k ;;
  let mlen := byteswap64 total in
  m <- memcpy m (bs - 8) (le_bytes 8 mlen) 8 ;;
  h <- md_transform1 (sha2_block T) bs h m total ;;
  let h := map (sha2_byteswap T) h in
  w <- load (words_bytes (wbytes T) h) 0 (N.to_nat (hs / 8)) ;;
  Ok (mkst h m pos total, w).

(** sha2_provider.hpp:189-206, on the whole object. *)
Definition sha2_final (T : sha2_word) (s : sha2_st) : res (sha2_st * list N) :=
  ' (x, w) <- sha2_final_st T (s2_hs s) (s2 s) ;; Ok (mk2 x (s2_hs s), w).

(** sha2_provider.hpp:275-303: the specializations of init for sha224 and sha256. *)
Definition sha256_init (s : sha2_st) : res sha2_st :=
  let H := if s2_hs s =? 224
    then [0xc1059ed8; 0x367cd507; 0x3070dd17; 0xf70e5939; 0xffc00b31; 0x68581511; 0x64f98fa7; 0xbefa4fa4]
    else [0x6a09e667; 0xbb67ae85; 0x3c6ef372; 0xa54ff53a; 0x510e527f; 0x9b05688c; 0x1f83d9ab; 0x5be0cd19] in
  Ok (mk2 (mkst H (sm (s2 s)) 0 0) (s2_hs s)).

(** [std::to_string] of a size_t, as character codes.
    Standard library, called at sha2_provider.hpp:172. *)
Fixpoint dec_digits (fuel : nat) (v : N) (acc : list N) : list N :=
  match fuel with
  | O => acc
  | S f => if v <? 10 then (48 + v) :: acc
           else dec_digits f (v / 10) ((48 + v mod 10) :: acc)
  end.
(** sha2_provider.hpp:172; 20 digits suffice for 64 bits. *)
Definition to_string (v : N) : list N := dec_digits 20 v [].

(** "SHA-512/". sha2_provider.hpp:172. *)
Definition sha512t_prefix : list N := [83; 72; 65; 45; 53; 49; 50; 47].

(** sha2_provider.hpp:156-164 *)
Definition sha512_iv : list N :=
  [0x6a09e667f3bcc908; 0xbb67ae8584caa73b; 0x3c6ef372fe94f82b; 0xa54ff53a5f1d36f1;
   0x510e527fade682d1; 0x9b05688c2b3e6c1f; 0x1f83d9abfb41bd6b; 0x5be0cd19137e2179].

(** sha2_provider.hpp:118-181 init (64-bit words). *)
Definition sha512_init (s : sha2_st) : res sha2_st :=
  let hs := s2_hs s in
  let m := sm (s2 s) in
  if hs =? 224 then
    Ok (mk2 (mkst [0x8C3D37C819544DA2; 0x73E1996689DCD4D6; 0x1DFAB7AE32FF9C82; 0x679DD514582F9FCF;
                   0x0F6D2B697BD44DA8; 0x77E36F7304C48942; 0x3F9D85A86A1D36C8; 0x1112E6AD91D692A1] m 0 0) hs)
  else if hs =? 256 then
    Ok (mk2 (mkst [0x22312194FC2BF72C; 0x9F555FA3C84C64C2; 0x2393B86B6F53B151; 0x963877195940EABD;
                   0x96283EE2A88EFFE3; 0xBE5E1E2553863992; 0x2B0199FC2C85B8AA; 0x0EB72DDC81C52CA2] m 0 0) hs)
  else if hs =? 384 then
    Ok (mk2 (mkst [0xcbbb9d5dc1059ed8; 0x629a292a367cd507; 0x9159015a3070dd17; 0x152fecd8f70e5939;
                   0x67332667ffc00b31; 0x8eb44a8768581511; 0xdb0c2e0d64f98fa7; 0x47b5481dbefa4fa4] m 0 0) hs)
  else if hs =? 512 then Ok (mk2 (mkst sha512_iv m 0 0) hs)
  else
    let H := map (fun x => N.lxor x 0xa5a5a5a5a5a5a5a5) sha512_iv in
    let tmp := sha512t_prefix ++ to_string hs in
    s1 <- sha2_update_st W64 (mkst H m 0 0) tmp ;;
    ' (s1, w) <- sha2_final_st W64 hs s1 ;;
    _ <- memcpy (zeros 64) 0 w (length w) ;;
    Ok (mk2 (mkst (map byteswap64 (sh s1)) (sm s1) 0 0) hs).

(** sha2_provider.hpp:208-212 clear. *)
Definition sha2_clear (s : sha2_st) : res sha2_st :=
  Ok (mk2 (mkst (zero_memory (sh (s2 s))) (zero_memory (sm (s2 s))) (spos (s2 s)) (stotal (s2 s)))
          (s2_hs s)).

(** algorithm/sha2.hpp: sha224, sha256 (sha2_provider<uint32_t, O>). *)
Definition sha256_family : hash_provider :=
  {| hp := {| pst := sha2_st; p_init := sha256_init; p_update := sha2_update W32;
              p_clear := sha2_clear; p_param := Empty_set; p_set := no_set |};
     hp_final := sha2_final W32; hp_size := s2_hs |}.

(** algorithm/sha2.hpp: sha384, sha512 (sha2_provider<uint64_t, O>). *)
Definition sha512_family : hash_provider :=
  {| hp := {| pst := sha2_st; p_init := sha512_init; p_update := sha2_update W64;
              p_clear := sha2_clear; p_param := Empty_set; p_set := no_set |};
     hp_final := sha2_final W64; hp_size := s2_hs |}.

(** sha2_provider.hpp:98-104 constructor of the fixed-size variants; [g] is the memory
    the object is constructed in. *)
Definition sha2_ctor_fixed (O : N) (g : st) : res sha2_st := Ok (mk2 g O).

(** sha2_provider.hpp:106-111 constructor with a run-time size (sha512). *)
Definition sha512_ctor (hashsize : N) (g : st) : res sha2_st :=
  _ <- validate_max hashsize 512 ;; Ok (mk2 g hashsize).
