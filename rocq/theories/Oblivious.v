(** * The block functions over words of any kind.

    The block functions of the providers, once more, but over an
    arbitrary type [W] of words that can only be combined by the operations of [alg]. Loop
    counters, round constants, table indices of constant tables, shift counts, the hash
    size and the number of bytes absorbed are of the types [nat], [N] and [bool], as in the
    other models; the words of the chaining value and of the message are of the type [W].
    As there is no way from [W] to these types, no branch, no array index and no shift
    count can depend on the data. At [W] = [N] the functions are those of the other models
    (ObliviousProof.v). Every definition has the lines of the definition of the same name
    without the g. *)
From Verif Require Import Base Absorb Hasher MdState.
From Verif Require Import ConstMd5 ConstSha1 ConstSha2 ConstSha3 ConstAscon ConstEsch ConstBlake ConstBlake2
  ConstJh ConstSkein ConstLsh ConstWhirlpool ConstStreebog ConstGroestl ConstKupyna ConstEcho.
From Verif Require Import Md5 Sha1 Sha2 Sm3 Keccak Ascon Esch Blake Blake2 Jh Skein Lsh Whirlpool Streebog
  TTable Groestl Kupyna Echo.

(** The operations of the C++ code on words: constants, ^, &, |, ~, +, <<, >> and * with
    a constant, of an unsigned type of the given number of bits. Language rules; no code of /repo. *)
Record alg (W : Type) := mkalg {
  cst : N -> W;
  axor : W -> W -> W;
  aand : W -> W -> W;
  aor : W -> W -> W;
  anot : N -> W -> W;
  aadd : N -> W -> W -> W;
  ashl : N -> W -> N -> W;
  ashr : W -> N -> W;
  amul : N -> W -> N -> W
}.
Arguments cst {W}. Arguments axor {W}. Arguments aand {W}. Arguments aor {W}.
Arguments anot {W}. Arguments aadd {W}. Arguments ashl {W}. Arguments ashr {W}. Arguments amul {W}.

(** Machine words. Language rules; no code of /repo. *)
Definition nalg : alg N := mkalg N (fun n => n) N.lxor N.land N.lor notw addw shlw shrw (fun w x n => trunc w (x * n)).

Section Words.
Context {W : Type} (A : alg W).

Local Notation cst := (cst A).
Local Notation gxor := (axor A).
Local Notation gand := (aand A).
Local Notation gor := (aor A).
Local Notation gnot := (anot A).
Local Notation gadd := (aadd A).
Local Notation gshl := (ashl A).
Local Notation gshr := (ashr A).

(** Elements of local arrays; the index is a loop counter or comes from a constant table.
    Language rules; no code of /repo. *)
Definition gget (i : nat) (l : list W) : W := nth i l (cst 0).
(** Language rules; no code of /repo. *)
Definition gtbl (l : list W) (i : N) : W := nth (N.to_nat i) l (cst 0).

(** detail/functions.hpp:61-82 *)
Definition grotr (w : N) (x : W) (n : N) : W := gor (gshr x n) (gshl w x (w - n)).
(** detail/functions.hpp:67-71, 79-82. *)
Definition grotl (w : N) (x : W) (n : N) : W := gor (gshl w x n) (gshr x (w - n)).

(** The same with a run-time count. detail/functions.hpp:61-82. *)
Definition gshl_c (sem : shift_sem) (w : N) (x : W) (n : N) : res W :=
  if n <? w then Ok (gshl w x n)
  else match sem with Strict => UB BadShift | Masked => Ok (gshl w x (n mod w)) end.
(** detail/functions.hpp:61-82. *)
Definition gshr_c (sem : shift_sem) (w : N) (x : W) (n : N) : res W :=
  if n <? w then Ok (gshr x n)
  else match sem with Strict => UB BadShift | Masked => Ok (gshr x (n mod w)) end.
(** detail/functions.hpp:67-71, 79-82. *)
Definition grotl_c (sem : shift_sem) (w : N) (x : W) (n : N) : res W :=
  a <- gshl_c sem w x n ;;
  b <- gshr_c sem w x (subw 32 w n) ;;
  Ok (gor a b).

(** detail/functions.hpp:22-28 *)
Definition gswap32 (v : W) : W :=
  gor (gor (gor
    (gshr (gand v (cst 0xff000000)) 24)
    (gshr (gand v (cst 0x00ff0000)) 8))
    (gshl 32 (gand v (cst 0x0000ff00)) 8))
    (gshl 32 (gand v (cst 0x000000ff)) 24).

(** detail/functions.hpp:31-41 *)
Definition gswap64 (v : W) : W :=
  gor (gor (gor (gor (gor (gor (gor
    (gshr (gand v (cst 0xff00000000000000)) 56)
    (gshr (gand v (cst 0x00ff000000000000)) 40))
    (gshr (gand v (cst 0x0000ff0000000000)) 24))
    (gshr (gand v (cst 0x000000ff00000000)) 8))
    (gshl 64 (gand v (cst 0x00000000ff000000)) 8))
    (gshl 64 (gand v (cst 0x0000000000ff0000)) 24))
    (gshl 64 (gand v (cst 0x000000000000ff00)) 40))
    (gshl 64 (gand v (cst 0x00000000000000ff)) 56).

(** ** MD5 *)

(** md5_provider.hpp:21-25 roundf; [M] are the message words. Returns the new [a]. *)
Definition groundf (r : nat) (a b c d : W) (M : list W) : W :=
  gadd 32 b (grotl 32 (gadd 32 (gadd 32 (gadd 32 a
    (gxor d (gand b (gxor c d)))) (cst (nthN r md5_K))) (gget r M)) (nthN r md5_S)).

(** md5_provider.hpp:27-31 roundg. *)
Definition groundg (r : nat) (a b c d : W) (M : list W) : W :=
  gadd 32 b (grotl 32 (gadd 32 (gadd 32 (gadd 32 a
    (gxor c (gand d (gxor b c)))) (cst (nthN r md5_K))) (gget ((5 * r + 1) mod 16) M)) (nthN r md5_S)).

(** md5_provider.hpp:33-37 roundh. *)
Definition groundh (r : nat) (a b c d : W) (M : list W) : W :=
  gadd 32 b (grotl 32 (gadd 32 (gadd 32 (gadd 32 a
    (gxor (gxor b c) d)) (cst (nthN r md5_K))) (gget ((3 * r + 5) mod 16) M)) (nthN r md5_S)).

(** md5_provider.hpp:39-43 roundi. *)
Definition groundi (r : nat) (a b c d : W) (M : list W) : W :=
  gadd 32 b (grotl 32 (gadd 32 (gadd 32 (gadd 32 a
    (gxor c (gor b (gnot 32 d)))) (cst (nthN r md5_K))) (gget ((7 * r) mod 16) M)) (nthN r md5_S)).

(** The four calls [f(r,a,b,c,d); f(r+1,d,a,b,c); f(r+2,c,d,a,b); f(r+3,b,c,d,a)]
    that the unrolled body consists of. md5_provider.hpp:103-186. *)
Definition gfour (f : nat -> W -> W -> W -> W -> list W -> W) (M : list W)
  (s : W * W * W * W) (r : nat) : W * W * W * W :=
  let '(a, b, c, d) := s in
  let a := f r a b c d M in
  let d := f (r + 1)%nat d a b c M in
  let c := f (r + 2)%nat c d a b M in
  let b := f (r + 3)%nat b c d a M in
  (a, b, c, d).

(** md5_provider.hpp:103-186: body of the transform loop for one block. *)
Definition gmd5_block (H M : list W) : list W :=
  let s := (gget 0 H, gget 1 H, gget 2 H, gget 3 H) in
  let s := fold_left (gfour groundf M) [0; 4; 8; 12]%nat s in
  let s := fold_left (gfour groundg M) [16; 20; 24; 28]%nat s in
  let s := fold_left (gfour groundh M) [32; 36; 40; 44]%nat s in
  let s := fold_left (gfour groundi M) [48; 52; 56; 60]%nat s in
  let '(a, b, c, d) := s in
  [gadd 32 (gget 0 H) a; gadd 32 (gget 1 H) b; gadd 32 (gget 2 H) c; gadd 32 (gget 3 H) d].

(** ** SHA-1 *)

(** sha1_provider.hpp:21-24 *)
Definition gsha1_Ch (x y z : W) : W := gxor (gand x y) (gand (gnot 32 x) z).

(** sha1_provider.hpp:26-29 *)
Definition gsha1_Parity (x y z : W) : W := gxor (gxor x y) z.

(** sha1_provider.hpp:31-34 *)
Definition gsha1_Maj (x y z : W) : W := gxor (gxor (gand x y) (gand x z)) (gand y z).

(** sha1_provider.hpp:104-108: [X[t] = rotate_left(X[t-3]^X[t-8]^X[t-14]^X[t-16], 1)],
    [n] more words appended to [X]. *)
Fixpoint gsha1_expand (n : nat) (X : list W) : list W :=
  match n with
  | O => X
  | S n' =>
    let t := length X in
    gsha1_expand n' (X ++ [grotl 32 (gxor (gxor (gxor (gget (t - 3) X) (gget (t - 8) X))
                                  (gget (t - 14) X)) (gget (t - 16) X)) 1])
  end.

(** sha1_provider.hpp:118-143: one iteration; [f] and [K] are the variables changed at
    t = 19, 39, 59. *)
Definition gsha1_iter (X : list W)
  (s : (W * W * W * W * W) * (W -> W -> W -> W) * W) (t : nat)
  : (W * W * W * W * W) * (W -> W -> W -> W) * W :=
  let '((a, b, c, d, e), f, K) := s in
  let T := gadd 32 (gadd 32 (gadd 32 (gadd 32 (grotl 32 a 5) (f b c d)) e) K) (gget t X) in
  let s' := (T, a, grotl 32 b 30, c, d) in
  if (t =? 19)%nat then (s', gsha1_Parity, cst (nthN 1 sha1_K))
  else if (t =? 39)%nat then (s', gsha1_Maj, cst (nthN 2 sha1_K))
  else if (t =? 59)%nat then (s', gsha1_Parity, cst (nthN 3 sha1_K))
  else (s', f, K).

(** sha1_provider.hpp:96-150: loop body of transform. *)
Definition gsha1_block (H M : list W) : list W :=
  let X := gsha1_expand 64 (map gswap32 M) in
  let s0 := ((gget 0 H, gget 1 H, gget 2 H, gget 3 H, gget 4 H), gsha1_Ch, cst (nthN 0 sha1_K)) in
  let '((a, b, c, d, e), _, _) := fold_left (gsha1_iter X) (seq 0 80) s0 in
  [gadd 32 (gget 0 H) a; gadd 32 (gget 1 H) b; gadd 32 (gget 2 H) c;
   gadd 32 (gget 3 H) d; gadd 32 (gget 4 H) e].

(** ** SHA-2 *)

(** detail/functions.hpp:22-41 *)
Definition gsha2_byteswap (T : sha2_word) : W -> W :=
  match T with W32 => gswap32 | W64 => gswap64 end.

(** sha2_provider.hpp:22-26 *)
Definition gsha2_Ch (w : N) (x y z : W) : W := gxor (gand x y) (gand (gnot w x) z).

(** sha2_provider.hpp:28-32 *)
Definition gsha2_Maj (x y z : W) : W := gxor (gxor (gand x y) (gand x z)) (gand y z).

(** sha2_provider.hpp:34-47 *)
Definition ggetK (T : sha2_word) (t : nat) : W :=
  match T with W32 => cst (nthN t sha256_K) | W64 => cst (nthN t sha512_K) end.

(** sha2_provider.hpp:49-87 *)
Definition gsum0 (T : sha2_word) (x : W) : W :=
  match T with
  | W64 => gxor (gxor (grotr 64 x 28) (grotr 64 x 34)) (grotr 64 x 39)
  | W32 => gxor (gxor (grotr 32 x 2) (grotr 32 x 13)) (grotr 32 x 22)
  end.

(** sha2_provider.hpp:49-87 *)
Definition gsum1 (T : sha2_word) (x : W) : W :=
  match T with
  | W64 => gxor (gxor (grotr 64 x 14) (grotr 64 x 18)) (grotr 64 x 41)
  | W32 => gxor (gxor (grotr 32 x 6) (grotr 32 x 11)) (grotr 32 x 25)
  end.

(** sha2_provider.hpp:49-87 *)
Definition gsigma0 (T : sha2_word) (x : W) : W :=
  match T with
  | W64 => gxor (gxor (grotr 64 x 1) (grotr 64 x 8)) (gshr x 7)
  | W32 => gxor (gxor (grotr 32 x 7) (grotr 32 x 18)) (gshr x 3)
  end.

(** sha2_provider.hpp:49-87 *)
Definition gsigma1 (T : sha2_word) (x : W) : W :=
  match T with
  | W64 => gxor (gxor (grotr 64 x 19) (grotr 64 x 61)) (gshr x 6)
  | W32 => gxor (gxor (grotr 32 x 17) (grotr 32 x 19)) (gshr x 10)
  end.

(** sha2_provider.hpp:229-230: [n] more schedule words. *)
Fixpoint gsha2_expand (T : sha2_word) (n : nat) (X : list W) : list W :=
  match n with
  | O => X
  | S n' =>
    let t := length X in
    let w := wbits T in
    gsha2_expand T n' (X ++ [gadd w (gadd w (gadd w (gsigma1 T (gget (t - 2) X)) (gget (t - 7) X))
                              (gsigma0 T (gget (t - 15) X))) (gget (t - 16) X)])
  end.

(** sha2_provider.hpp:241-254: one round. *)
Definition gsha2_iter (T : sha2_word) (X : list W)
  (s : W * W * W * W * W * W * W * W) (t : nat) : W * W * W * W * W * W * W * W :=
  let '(a, b, c, d, e, f, g, h) := s in
  let w := wbits T in
  let T1 := gadd w (gadd w (gadd w (gadd w h (gsum1 T e)) (gsha2_Ch w e f g)) (ggetK T t)) (gget t X) in
  let T2 := gadd w (gsum0 T a) (gsha2_Maj a b c) in
  (gadd w T1 T2, a, b, c, gadd w d T1, e, f, g).

(** sha2_provider.hpp:217-265: loop body of transform. *)
Definition gsha2_block (T : sha2_word) (H M : list W) : list W :=
  let w := wbits T in
  let X := gsha2_expand T (sha2_rounds T - 16) (map (gsha2_byteswap T) M) in
  let s0 := (gget 0 H, gget 1 H, gget 2 H, gget 3 H, gget 4 H, gget 5 H, gget 6 H, gget 7 H) in
  let '(a, b, c, d, e, f, g, h) := fold_left (gsha2_iter T X) (seq 0 (sha2_rounds T)) s0 in
  [gadd w (gget 0 H) a; gadd w (gget 1 H) b; gadd w (gget 2 H) c; gadd w (gget 3 H) d;
   gadd w (gget 4 H) e; gadd w (gget 5 H) f; gadd w (gget 6 H) g; gadd w (gget 7 H) h].

(** ** SM3 *)

(** sm3_provider.hpp:20-23 *)
Definition gsm3_xorf (x y z : W) : W := gxor (gxor x y) z.

(** sm3_provider.hpp:25-28 *)
Definition gsm3_ff1 (x y z : W) : W := gxor (gxor (gand x y) (gand x z)) (gand y z).

(** sm3_provider.hpp:30-33 *)
Definition gsm3_gg1 (x y z : W) : W := gxor (gand x y) (gand (gnot 32 x) z).

(** sm3_provider.hpp:35-38 *)
Definition gsm3_p0 (x : W) : W := gxor (gxor x (grotl 32 x 9)) (grotl 32 x 17).

(** sm3_provider.hpp:40-43 *)
Definition gsm3_p1 (x : W) : W := gxor (gxor x (grotl 32 x 15)) (grotl 32 x 23).

(** sm3_provider.hpp:121-122: [n] more schedule words. *)
Fixpoint gsm3_expand (n : nat) (X : list W) : list W :=
  match n with
  | O => X
  | S n' =>
    let t := length X in
    gsm3_expand n' (X ++ [gxor (gxor
      (gsm3_p1 (gxor (gxor (gget (t - 16) X) (gget (t - 9) X)) (grotl 32 (gget (t - 3) X) 15)))
      (grotl 32 (gget (t - 13) X) 7)) (gget (t - 6) X)])
  end.

(** sm3_provider.hpp:135-149 ([C] = 0x79cc4519, [ff] = [gg] = xorf) and 151-165
    ([C] = 0x7a879d8a, ff1, gg1): one iteration. *)
Definition gsm3_iter (sem : shift_sem) (C : N) (ff gg : W -> W -> W -> W) (X X2 : list W)
  (s : W * W * W * W * W * W * W * W) (t : nat) : res (W * W * W * W * W * W * W * W) :=
  let '(a, b, c, d, e, f, g, h) := s in
  k <- rotl_c sem 32 C (N.of_nat t) ;;
  let ss1 := grotl 32 (gadd 32 (gadd 32 (grotl 32 a 12) e) (cst k)) 7 in
  let ss2 := gxor ss1 (grotl 32 a 12) in
  let tt1 := gadd 32 (gadd 32 (gadd 32 (ff a b c) d) ss2) (gget t X2) in
  let tt2 := gadd 32 (gadd 32 (gadd 32 (gg e f g) h) ss1) (gget t X) in
  Ok (tt1, a, grotl 32 b 9, c, gsm3_p0 tt2, e, grotl 32 f 19, g).

(** sm3_provider.hpp:109-176: loop body of transform. *)
Definition gsm3_block (sem : shift_sem) (H M : list W) : res (list W) :=
  let X := gsm3_expand 52 (map gswap32 M) in
  let X2 := map (fun t => gxor (gget t X) (gget (t + 4) X)) (seq 0 64) in
  let s := (gget 0 H, gget 1 H, gget 2 H, gget 3 H, gget 4 H, gget 5 H, gget 6 H, gget 7 H) in
  s <- fold_res (gsm3_iter sem 0x79cc4519 gsm3_xorf gsm3_xorf X X2) (seq 0 16) s ;;
  ' (a, b, c, d, e, f, g, h) <-
    fold_res (gsm3_iter sem 0x7a879d8a gsm3_ff1 gsm3_gg1 X X2) (seq 16 48) s ;;
  Ok [gxor (gget 0 H) a; gxor (gget 1 H) b; gxor (gget 2 H) c; gxor (gget 3 H) d;
      gxor (gget 4 H) e; gxor (gget 5 H) f; gxor (gget 6 H) g; gxor (gget 7 H) h].

(** ** Keccak (SHA-3, SHAKE, K12) *)

(** sha3_provider.hpp:27-100: one round on the 25 lanes. *)
Definition gkc_round (S : list W) (round : nat) : list W :=
  let a i := gget i S in
  let C0 := gxor (gxor (gxor (gxor (a 0%nat) (a 5%nat)) (a 10%nat)) (a 15%nat)) (a 20%nat) in
  let C1 := gxor (gxor (gxor (gxor (a 1%nat) (a 6%nat)) (a 11%nat)) (a 16%nat)) (a 21%nat) in
  let C2 := gxor (gxor (gxor (gxor (a 2%nat) (a 7%nat)) (a 12%nat)) (a 17%nat)) (a 22%nat) in
  let C3 := gxor (gxor (gxor (gxor (a 3%nat) (a 8%nat)) (a 13%nat)) (a 18%nat)) (a 23%nat) in
  let C4 := gxor (gxor (gxor (gxor (a 4%nat) (a 9%nat)) (a 14%nat)) (a 19%nat)) (a 24%nat) in
  let D0 := gxor C4 (grotl 64 C1 1) in
  let D1 := gxor C0 (grotl 64 C2 1) in
  let D2 := gxor C1 (grotl 64 C3 1) in
  let D3 := gxor C2 (grotl 64 C4 1) in
  let D4 := gxor C3 (grotl 64 C0 1) in
  let B00 := gxor (a 0%nat) D0 in
  let B10 := grotl 64 (gxor (a 1%nat) D1) 1 in
  let B20 := grotl 64 (gxor (a 2%nat) D2) 62 in
  let B5 := grotl 64 (gxor (a 3%nat) D3) 28 in
  let B15 := grotl 64 (gxor (a 4%nat) D4) 27 in
  let B16 := grotl 64 (gxor (a 5%nat) D0) 36 in
  let B1 := grotl 64 (gxor (a 6%nat) D1) 44 in
  let B11 := grotl 64 (gxor (a 7%nat) D2) 6 in
  let B21 := grotl 64 (gxor (a 8%nat) D3) 55 in
  let B6 := grotl 64 (gxor (a 9%nat) D4) 20 in
  let B7 := grotl 64 (gxor (a 10%nat) D0) 3 in
  let B17 := grotl 64 (gxor (a 11%nat) D1) 10 in
  let B2 := grotl 64 (gxor (a 12%nat) D2) 43 in
  let B12 := grotl 64 (gxor (a 13%nat) D3) 25 in
  let B22 := grotl 64 (gxor (a 14%nat) D4) 39 in
  let B23 := grotl 64 (gxor (a 15%nat) D0) 41 in
  let B8 := grotl 64 (gxor (a 16%nat) D1) 45 in
  let B18 := grotl 64 (gxor (a 17%nat) D2) 15 in
  let B3 := grotl 64 (gxor (a 18%nat) D3) 21 in
  let B13 := grotl 64 (gxor (a 19%nat) D4) 8 in
  let B14 := grotl 64 (gxor (a 20%nat) D0) 18 in
  let B24 := grotl 64 (gxor (a 21%nat) D1) 2 in
  let B9 := grotl 64 (gxor (a 22%nat) D2) 61 in
  let B19 := grotl 64 (gxor (a 23%nat) D3) 56 in
  let B4 := grotl 64 (gxor (a 24%nat) D4) 14 in
  let chi x y z := gxor x (gand (gnot 64 y) z) in
  [gxor (chi B00 B1 B2) (cst (nthN round sha3_RC));
   chi B1 B2 B3; chi B2 B3 B4; chi B3 B4 B00; chi B4 B00 B1;
   chi B5 B6 B7; chi B6 B7 B8; chi B7 B8 B9; chi B8 B9 B5; chi B9 B5 B6;
   chi B10 B11 B12; chi B11 B12 B13; chi B12 B13 B14; chi B13 B14 B10; chi B14 B10 B11;
   chi B15 B16 B17; chi B16 B17 B18; chi B17 B18 B19; chi B18 B19 B15; chi B19 B15 B16;
   chi B20 B21 B22; chi B21 B22 B23; chi B22 B23 B24; chi B23 B24 B20; chi B24 B20 B21].

(** sha3_provider.hpp:22-102: transform<R>(A), rounds 24-R .. 23. *)
Definition gkc_perm (R : nat) (S : list W) : list W := fold_left gkc_round (seq (24 - R) R) S.

(** sha3_provider.hpp:104-116: loop body of transform<R>(data, num_blks, A, rate), with
    r64 = rate / 64; A has 25 elements. *)
Definition gkc_block (R r64 : nat) (S M : list W) : res (list W) :=
  if (r64 <=? 25)%nat then
    Ok (gkc_perm R (map2 gxor (firstn r64 S) M ++ skipn r64 S))
  else UB OutOfBounds.

(** ** Ascon *)

(** ascon_provider.hpp:149-164: constant and S-box, bit-sliced. *)
Definition gascon_sub (H : list W) (rc : W) : list W :=
  let h i := gget i H in
  let h2 := gxor (h 2%nat) rc in
  let h0 := gxor (h 0%nat) (h 4%nat) in
  let h4 := gxor (h 4%nat) (h 3%nat) in
  let h2 := gxor h2 (h 1%nat) in
  let h1 := h 1%nat in
  let h3 := h 3%nat in
  let t0 := gxor h0 (gand (gnot 64 h1) h2) in
  let t1 := gxor h1 (gand (gnot 64 h2) h3) in
  let t2 := gxor h2 (gand (gnot 64 h3) h4) in
  let t3 := gxor h3 (gand (gnot 64 h4) h0) in
  let t4 := gxor h4 (gand (gnot 64 h0) h1) in
  let t1 := gxor t1 t0 in
  let t0 := gxor t0 t4 in
  let t3 := gxor t3 t2 in
  let t2 := gnot 64 t2 in
  [t0; t1; t2; t3; t4].

(** ascon_provider.hpp:166-170 *)
Definition gascon_lin (t : list W) : list W :=
  let l x a b := gxor (gxor x (grotr 64 x a)) (grotr 64 x b) in
  [l (gget 0 t) 19 28; l (gget 1 t) 61 39; l (gget 2 t) 1 6; l (gget 3 t) 10 17; l (gget 4 t) 7 41].

(** ascon_provider.hpp:147-171: rounds i = 0 .. 11. *)
Definition gascon_perm (H : list W) : list W :=
  fold_left (fun H i => gascon_lin (gascon_sub H (cst (nthN i ascon_RC)))) (seq 0 12) H.

(** ascon_provider.hpp:143-172: loop body of transform. *)
Definition gascon_block (H M : list W) : list W :=
  gascon_perm (gxor (gget 0 H) (gget 0 M) :: tl H).

(** ** Esch *)

(** esch_provider.hpp:32-43: one Alzette instance with constant [c]. *)
Definition gesch_alz (c : W) (x y : W) : W * W :=
  let x := gadd 32 x (grotr 32 y 31) in
  let y := gxor y (grotr 32 x 24) in
  let x := gxor x c in
  let x := gadd 32 x (grotr 32 y 17) in
  let y := gxor y (grotr 32 x 17) in
  let x := gxor x c in
  let x := gadd 32 x y in
  let y := gxor y (grotr 32 x 31) in
  let x := gxor x c in
  let x := gadd 32 x (grotr 32 y 24) in
  let y := gxor y (grotr 32 x 16) in
  let x := gxor x c in
  (x, y).

(** esch_provider.hpp:52-53, 186-187 *)
Definition gesch_ell (x : W) : W := grotr 32 (gxor x (gshl 32 x 16)) 16.

(** Word [i] of the array H. E.g. esch_provider.hpp:28. *)
Definition gxor_at (i : nat) (v : W) (H : list W) : list W := upd i (gxor (gget i H) v) H.

(** esch_provider.hpp:26-71: step [s] of sparkle, [rounds] is 6 or 8. *)
Definition gesch_step (rounds : nat) (H : list W) (s : nat) : list W :=
  let H := gxor_at 1 (cst (nthN (s mod 8) esch_C)) H in
  let H := gxor_at 3 (cst (N.of_nat s)) H in
  let H := fold_left (fun H j =>
    let xy := gesch_alz (cst (nthN j esch_C)) (gget (2 * j) H) (gget (2 * j + 1) H) in
    upd (2 * j + 1) (snd xy) (upd (2 * j) (fst xy) H)) (seq 0 rounds) H in
  let x := gxor (gxor (gget 0 H) (gget 2 H)) (gget 4 H) in
  let y := gxor (gxor (gget 1 H) (gget 3 H)) (gget 5 H) in
  let x := if (6 <? rounds)%nat then gxor x (gget 6 H) else x in
  let y := if (6 <? rounds)%nat then gxor y (gget 7 H) else y in
  let x := gesch_ell x in
  let y := gesch_ell y in
  let H := fold_left (fun H k =>
    let i := (2 * k)%nat in
    let j := (rounds + 2 * k)%nat in
    let H := gxor_at j (gxor (gget i H) y) H in
    gxor_at (j + 1) (gxor (gget (i + 1) H) x) H) (seq 0 (rounds / 2)) H in
  let x := gget rounds H in
  let y := gget (rounds + 1) H in
  let H := fold_left (fun H i =>
    let H := upd (i + rounds) (gget i H) H in
    upd i (gget (i + rounds + 2) H) H) (seq 0 (rounds - 2)) H in
  let H := upd (rounds * 2 - 2) (gget (rounds - 2) H) H in
  let H := upd (rounds * 2 - 1) (gget (rounds - 1) H) H in
  let H := upd (rounds - 2) x H in
  upd (rounds - 1) y H.

(** esch_provider.hpp:24-72: sparkle(H, rounds, ns). *)
Definition gsparkle (rounds ns : nat) (H : list W) : list W := fold_left (gesch_step rounds) (seq 0 ns) H.

(** esch_provider.hpp:179-203: loop body of transform. *)
Definition gesch_block (hs : N) (lastBlock : bool) (H M : list W) : list W :=
  let x := gxor (gget 0 M) (gget 2 M) in
  let y := gxor (gget 1 M) (gget 3 M) in
  let x := gesch_ell x in
  let y := gesch_ell y in
  let H := upd 0 (gxor (gxor (gget 0 H) (gget 0 M)) y) H in
  let H := upd 1 (gxor (gxor (gget 1 H) (gget 1 M)) x) H in
  let H := upd 2 (gxor (gxor (gget 2 H) (gget 2 M)) y) H in
  let H := upd 3 (gxor (gxor (gget 3 H) (gget 3 M)) x) H in
  let H := gxor_at 4 y H in
  let H := gxor_at 5 x H in
  let H := if 256 <? hs then gxor_at 7 x (gxor_at 6 y H) else H in
  let steps := if lastBlock then 11%nat else 7%nat in
  let steps := if 256 <? hs then S steps else steps in
  gsparkle (esch_rounds hs) steps H.

(** ** BLAKE *)

(** blake_provider.hpp:63-76 *)
Definition gbl_C (w t : N) : W := cst (bl_C w t).

(** detail/functions.hpp:22-41 *)
Definition gbl_swap (w : N) (x : W) : W := if w =? 64 then gswap64 x else gswap32 x.

(** blake_provider.hpp:22-48 *)
Definition gbl_G (w : N) (r i : nat) (ia ib ic id : nat) (M v : list W) : list W :=
  let '(r1, r2, r3, r4) := bl_rots w in
  let S := nth (r mod 10) blake_S [] in
  let a := gget ia v in
  let b := gget ib v in
  let c := gget ic v in
  let d := gget id v in
  let a := gadd w (gadd w a b) (gxor (gtbl M (nthN (2 * i) S)) (gbl_C w (nthN (2 * i + 1) S))) in
  let d := grotr w (gxor d a) r1 in
  let c := gadd w c d in
  let b := grotr w (gxor b c) r2 in
  let a := gadd w (gadd w a b) (gxor (gtbl M (nthN (2 * i + 1) S)) (gbl_C w (nthN (2 * i) S))) in
  let d := grotr w (gxor d a) r3 in
  let c := gadd w c d in
  let b := grotr w (gxor b c) r4 in
  upd id d (upd ic c (upd ib b (upd ia a v))).

(** blake_provider.hpp:50-61 *)
Definition gbl_round (w : N) (M : list W) (v : list W) (r : nat) : list W :=
  let v := gbl_G w r 0 0 4 8 12 M v in
  let v := gbl_G w r 1 1 5 9 13 M v in
  let v := gbl_G w r 2 2 6 10 14 M v in
  let v := gbl_G w r 3 3 7 11 15 M v in
  let v := gbl_G w r 4 0 5 10 15 M v in
  let v := gbl_G w r 5 1 6 11 12 M v in
  let v := gbl_G w r 6 2 7 8 13 M v in
  gbl_G w r 7 3 4 9 14 M v.

(** blake_provider.hpp:81-133: one block of transform. [tb] is totalbytes. The stores to
    H[0..7] of lines 125-132 only read H[8..11] and the own element. *)
Definition gbl_block (w : N) (padding : bool) (tb : N) (H M : list W) : list W :=
  let M := map (gbl_swap w) M in
  let t0 := if padding then 0 else trunc w tb in
  let t1 := if padding then 0 else if w =? 64 then 0 else trunc w (N.shiftr tb 32) in
  let v := firstn 8 H ++
    [gxor (gget 8 H) (gbl_C w 0); gxor (gget 9 H) (gbl_C w 1);
     gxor (gget 10 H) (gbl_C w 2); gxor (gget 11 H) (gbl_C w 3);
     gxor (cst t0) (gbl_C w 4); gxor (cst t0) (gbl_C w 5); gxor (cst t1) (gbl_C w 6); gxor (cst t1) (gbl_C w 7)] in
  let v := fold_left (gbl_round w M) (seq 0 (if w =? 64 then 16 else 14)) v in
  map (fun i => gxor (gxor (gxor (gget i H) (gget (8 + i mod 4) H)) (gget i v)) (gget (i + 8) v)) (seq 0 8)
  ++ skipn 8 H.

(** ** BLAKE2 *)

(** blake2_provider.hpp:23-45 *)
Definition gb2_G (w : N) (r i : nat) (ia ib ic id : nat) (M v : list W) : list W :=
  let '(r1, r2, r3, r4) := b2_rots w in
  let S := nth r blake2_S [] in
  let a := gget ia v in
  let b := gget ib v in
  let c := gget ic v in
  let d := gget id v in
  let a := gadd w (gadd w a b) (gtbl M (nthN (2 * i) S)) in
  let d := grotr w (gxor d a) r1 in
  let c := gadd w c d in
  let b := grotr w (gxor b c) r2 in
  let a := gadd w (gadd w a b) (gtbl M (nthN (2 * i + 1) S)) in
  let d := grotr w (gxor d a) r3 in
  let c := gadd w c d in
  let b := grotr w (gxor b c) r4 in
  upd id d (upd ic c (upd ib b (upd ia a v))).

(** blake2_provider.hpp:47-58 *)
Definition gb2_round (w : N) (M : list W) (v : list W) (r : nat) : list W :=
  let v := gb2_G w r 0 0 4 8 12 M v in
  let v := gb2_G w r 1 1 5 9 13 M v in
  let v := gb2_G w r 2 2 6 10 14 M v in
  let v := gb2_G w r 3 3 7 11 15 M v in
  let v := gb2_G w r 4 0 5 10 15 M v in
  let v := gb2_G w r 5 1 6 11 12 M v in
  let v := gb2_G w r 6 2 7 8 13 M v in
  gb2_G w r 7 3 4 9 14 M v.

(** blake2_provider.hpp:319-370: one block of transform. [tb] is totalbytes, [last] is
    the flag padding, [lastn] the condition of line 332. The counter words are those of
    lines 325-326. *)
Definition gb2_block (w : N) (tb : N) (last lastn : bool) (H M : list W) : list W :=
  let IV := b2_IV w in
  let t0 := trunc w tb in
  let t1 := if w =? 64 then 0 else trunc w (N.shiftr tb 32) in
  let f0 := if last then N.ones w else 0 in
  let f1 := if last && lastn then N.ones w else 0 in
  let v := H ++ [cst (nthN 0 IV); cst (nthN 1 IV); cst (nthN 2 IV); cst (nthN 3 IV);
                 gxor (cst t0) (cst (nthN 4 IV)); gxor (cst t1) (cst (nthN 5 IV));
                 gxor (cst f0) (cst (nthN 6 IV)); gxor (cst f1) (cst (nthN 7 IV))] in
  let v := fold_left (gb2_round w M) (seq 0 (if w =? 64 then 12 else 10)) v in
  map (fun i => gxor (gxor (gget i H) (gget i v)) (gget (i + 8) v)) (seq 0 8).

(** ** JH *)

(** jh_provider.hpp:22-25 *)
Definition gjh_bitswap1 (x : W) (mask shift : N) : W :=
  gor (gshl 64 (gand x (cst mask)) shift) (gshr (gand x (gnot 64 (cst mask))) shift).

(** jh_provider.hpp:27-37 *)
Definition gjh_bitswap (H : list W) (mask shift : N) : list W :=
  let h i := gget i H in
  let b i := gjh_bitswap1 (h i) mask shift in
  [h 0; h 1; b 2; b 3; h 4; h 5; b 6; b 7; h 8; h 9; b 10; b 11; h 12; h 13; b 14; b 15]%nat.

(** jh_provider.hpp:39-64, the statements for the words ...a; those for the words ...b
    are the same and do not interact with them. *)
Definition gjh_sbitsli (x0 x1 x2 x3 c : W) : W * W * W * W :=
  let x3 := gnot 64 x3 in
  let x0 := gxor x0 (gand c (gnot 64 x2)) in
  let t := gxor c (gand x0 x1) in
  let x0 := gxor x0 (gand x2 x3) in
  let x3 := gxor x3 (gand (gnot 64 x1) x2) in
  let x1 := gxor x1 (gand x0 x2) in
  let x2 := gxor x2 (gand x0 (gnot 64 x3)) in
  let x0 := gxor x0 (gor x1 x3) in
  let x3 := gxor x3 (gand x1 x2) in
  let x1 := gxor x1 (gand t x0) in
  let x2 := gxor x2 t in
  (x0, x1, x2, x3).

(** jh_provider.hpp:66-84 *)
Definition gjh_lbitsli (H : list W) : list W :=
  let h i := gget i H in
  let h2 := gxor (h 2%nat) (h 4%nat) in
  let h3 := gxor (h 3%nat) (h 5%nat) in
  let h6 := gxor (h 6%nat) (h 8%nat) in
  let h7 := gxor (h 7%nat) (h 9%nat) in
  let h10 := gxor (h 10%nat) (gxor (h 12%nat) (h 0%nat)) in
  let h11 := gxor (h 11%nat) (gxor (h 13%nat) (h 1%nat)) in
  let h14 := gxor (h 14%nat) (h 0%nat) in
  let h15 := gxor (h 15%nat) (h 1%nat) in
  let h0 := gxor (h 0%nat) h6 in
  let h1 := gxor (h 1%nat) h7 in
  let h4 := gxor (h 4%nat) h10 in
  let h5 := gxor (h 5%nat) h11 in
  let h8 := gxor (h 8%nat) (gxor h14 h2) in
  let h9 := gxor (h 9%nat) (gxor h15 h3) in
  let h12 := gxor (h 12%nat) h2 in
  let h13 := gxor (h 13%nat) h3 in
  [h0; h1; h2; h3; h4; h5; h6; h7; h8; h9; h10; h11; h12; h13; h14; h15].

(** jh_provider.hpp:88-91 *)
Definition gjh_slayer (H : list W) (r : nat) : list W :=
  let h i := gget i H in
  let c i := cst (nthN (r * 4 + i) jh_C) in
  let '(h0, h4, h8, h12) := gjh_sbitsli (h 0%nat) (h 4%nat) (h 8%nat) (h 12%nat) (c 0%nat) in
  let '(h1, h5, h9, h13) := gjh_sbitsli (h 1%nat) (h 5%nat) (h 9%nat) (h 13%nat) (c 1%nat) in
  let '(h2, h6, h10, h14) := gjh_sbitsli (h 2%nat) (h 6%nat) (h 10%nat) (h 14%nat) (c 2%nat) in
  let '(h3, h7, h11, h15) := gjh_sbitsli (h 3%nat) (h 7%nat) (h 11%nat) (h 15%nat) (c 3%nat) in
  [h0; h1; h2; h3; h4; h5; h6; h7; h8; h9; h10; h11; h12; h13; h14; h15].

(** jh_provider.hpp:86-95 *)
Definition gjh_round (H : list W) (r : nat) (mask shift : N) : list W :=
  let H := gjh_lbitsli (gjh_slayer H r) in
  if shift =? 0 then H else gjh_bitswap H mask shift.

(** jh_provider.hpp:195-198 *)
Definition gjh_swap (H : list W) : list W :=
  let h i := gget i H in
  [h 0; h 1; h 3; h 2; h 4; h 5; h 7; h 6; h 8; h 9; h 11; h 10; h 12; h 13; h 15; h 14]%nat.

(** jh_provider.hpp:187-198: the body of the loop over r *)
Definition gjh_rounds7 (H : list W) (r : nat) : list W :=
  let H := gjh_round H r 0x5555555555555555 1 in
  let H := gjh_round H (r + 1) 0x3333333333333333 2 in
  let H := gjh_round H (r + 2) 0x0f0f0f0f0f0f0f0f 4 in
  let H := gjh_round H (r + 3) 0x00ff00ff00ff00ff 8 in
  let H := gjh_round H (r + 4) 0x0000ffff0000ffff 16 in
  let H := gjh_round H (r + 5) 0x00000000ffffffff 32 in
  let H := gjh_round H (r + 6) 0 0 in
  gjh_swap H.

(** jh_provider.hpp:172-209: one block of transform. The message bytes are read through a
    uint64_t pointer (little-endian; alignment and aliasing are not modelled). *)
Definition gjh_step (H M : list W) : list W :=
  let H := map2 gxor (firstn 8 H) M ++ skipn 8 H in
  let H := fold_left (fun H i => gjh_rounds7 H (7 * i)) (seq 0 6) H in
  firstn 8 H ++ map2 gxor (skipn 8 H) M.

(** ** Skein *)

(** skein_provider.hpp:28-36, 66-80, 115-141 GTv4<r>: one line pair per [j]. *)
Definition gsk_mix (nw r : nat) (G : list W) (j : nat) : list W :=
  let I := nth r (skein_I nw) [] in
  let C := nth r (skein_C nw) [] in
  let ia := N.to_nat (nthN (2 * j) I) in
  let ib := N.to_nat (nthN (2 * j + 1) I) in
  let G := upd ia (gadd 64 (gget ia G) (gget ib G)) G in
  upd ib (gxor (grotl 64 (gget ib G) (nthN j C)) (gget ia G)) G.

(** skein_provider.hpp:28-36, 66-80, 115-141 *)
Definition gsk_GT (nw : nat) (G : list W) (r : nat) : list W :=
  fold_left (gsk_mix nw r) (seq 0 (nw / 2)) G.

(** skein_provider.hpp:38-45, 82-93, 143-162 KStRv4<r> *)
Definition gsk_KSt (nw r : nat) (keys tweaks G : list W) : list W :=
  map (fun i =>
    let k := gget ((r + i + 1) mod (nw + 1)) keys in
    gadd 64 (gget i G)
      (if (i =? nw - 3)%nat then gadd 64 k (gget ((r + 1) mod 3) tweaks)
       else if (i =? nw - 2)%nat then gadd 64 k (gget ((r + 2) mod 3) tweaks)
       else if (i =? nw - 1)%nat then gadd 64 (gadd 64 k (cst (N.of_nat r))) (cst 1)
       else k)) (seq 0 nw).

(** skein_provider.hpp:47-60, 95-108, 164-177 G8<r> *)
Definition gsk_G8 (nw : nat) (keys tweaks G : list W) (r : nat) : list W :=
  let G := fold_left (gsk_GT nw) [0; 1; 2; 3]%nat G in
  let G := gsk_KSt nw r keys tweaks G in
  let G := fold_left (gsk_GT nw) [4; 5; 6; 7]%nat G in
  gsk_KSt nw (r + 1) keys tweaks G.

(** skein_provider.hpp:320-359: one block of transform. The list [h] holds
    tweak[0], tweak[1] and then H. *)
Definition gsk_block (nw : nat) (reallen : N) (h M : list W) : list W :=
  let H := skipn 2 h in
  let t0 := gadd 64 (gget 0 h) (cst reallen) in
  let t1 := gget 1 h in
  let tweaks := [t0; t1; gxor t0 t1] in
  let keys := H ++ [fold_left gxor H (cst 0x1BD11BDAA9FC1A22)] in
  let G := map2 (gadd 64) M H in
  let G := upd (nw - 3) (gadd 64 (gget (nw - 3) G) t0) G in
  let G := upd (nw - 2) (gadd 64 (gget (nw - 2) G) t1) G in
  let G := fold_left (gsk_G8 nw keys tweaks) (sk_rounds nw) G in
  [t0; gand t1 (gnot 64 (gshl 64 (cst 64) 56))] ++ map2 gxor G M.

(** ** LSH *)

(** lsh_provider.hpp:150-165: one iteration; [a] is msgexp[i - 1], [b] is msgexp[i - 2]. *)
Definition glsh_expand1 (w : N) (a b : list W) : list W :=
  map (fun p => gadd w (gget (fst p) a) (gget (snd p) b))
    [(0, 3); (1, 2); (2, 0); (3, 1); (4, 7); (5, 4); (6, 5); (7, 6);
     (8, 11); (9, 10); (10, 8); (11, 9); (12, 15); (13, 12); (14, 13); (15, 14)]%nat.

(** lsh_provider.hpp:148-166: [n] more rows, appended. *)
Fixpoint glsh_expand_rows (w : N) (n : nat) (a b : list W) : list (list W) :=
  match n with
  | O => []
  | S n' => let c := glsh_expand1 w a b in c :: glsh_expand_rows w n' c a
  end.

(** lsh_provider.hpp:145-167, msgexpand *)
Definition glsh_msgexpand (w : N) (ws : list W) : list (list W) :=
  let m0 := firstn 16 ws in
  let m1 := skipn 16 ws in
  m0 :: m1 :: glsh_expand_rows w (lsh_NS w - 1) m1 m0.

(** lsh_provider.hpp:169-177: t[l] and t[l + 8] *)
Definition glsh_addmix (sem : shift_sem) (w : N) (cv me : list W) (l : nat) (sc alpha beta gamma : N)
  : res (W * W) :=
  let x := gxor (gget l cv) (gget l me) in
  let y := gxor (gget (l + 8) cv) (gget (l + 8) me) in
  x <- grotl_c sem w (gadd w x y) alpha ;;
  let x := gxor x (cst sc) in
  y <- grotl_c sem w (gadd w x y) beta ;;
  z <- grotl_c sem w y gamma ;;
  Ok (gadd w x y, z).

(** lsh_provider.hpp:179-205: the new (cv, t). The eight calls of addmix are a loop here. *)
Definition glsh_step1 (sem : shift_sem) (w : N) (me : list (list W)) (cv : list W) (i : nat) (alpha beta : N)
  : res (list W * list W) :=
  ps <- fold_res (fun acc l =>
          p <- glsh_addmix sem w cv (nth i me []) l (lsh_sc w i l) alpha beta (lsh_gamma w l) ;;
          Ok (acc ++ [p])) (seq 0 8) [] ;;
  let t := map fst ps ++ map snd ps in
  Ok (map (fun j => gget j t) [6; 4; 5; 7; 12; 15; 14; 13; 2; 0; 1; 3; 8; 11; 10; 9]%nat, t).

(** lsh_provider.hpp:207-220: one block of transform. The state is cv, then t, then
    the rows of msgexp. *)
Definition glsh_block (sem : shift_sem) (w : N) (S M : list W) : res (list W) :=
  let me := glsh_msgexpand w M in
  ' (cv, t) <- fold_res (fun (ct : list W * list W) k =>
       ' (cv, _) <- glsh_step1 sem w me (fst ct) (2 * k) (lsh_ab w 0) (lsh_ab w 1) ;;
       glsh_step1 sem w me cv (2 * k + 1) (lsh_ab w 2) (lsh_ab w 3))
     (seq 0 (lsh_NS w / 2)) (firstn 16 S, firstn 16 (skipn 16 S)) ;;
  let cv := map (fun i => gxor (gget i cv) (gget i (nth (lsh_NS w) me []))) (seq 0 16) in
  Ok (cv ++ t ++ concat me).

End Words.

(** ** Lookup tables

    The same for the providers with lookup tables. [look] is the access to such a table at
    an index that is a byte of the data; it is the only way by which an address depends on
    the data. *)
Section Tables.
Context {W : Type} (A : alg W) (look : list N -> W -> W).

Local Notation cst := (cst A).
Local Notation gxor := (axor A).
Local Notation gget := (gget A).

(** [static_cast<unsigned char>(x >> n)]. E.g. groestl_provider.hpp:28-36. *)
Definition gbyte_at (x : W) (n : N) : W := aand A (ashr A x n) (cst 255).

(** The eight lookups of a column, for the words the bytes are taken from.
    groestl_provider.hpp:28-36 and 45-53, kupyna_provider.hpp:25-33. *)
Definition gcol (T : list (list N)) (x : nat -> W) : W :=
  let t j := look (nth j T []) (gbyte_at (x j) (N.of_nat (8 * j))) in
  gxor (gxor (gxor (gxor (gxor (gxor (gxor (t 0%nat) (t 1%nat)) (t 2%nat)) (t 3%nat))
    (t 4%nat)) (t 5%nat)) (t 6%nat)) (t 7%nat).

(** whirlpool_provider.hpp:21-32 *)
Definition gwp_G (a : nat) (ll : list W) : W := gcol whirlpool_T (fun j => gget ((a - j) mod 8) ll).
(** whirlpool_provider.hpp:99-123 *)
Definition gwp_round (ks : list W * list W) (r : nat) : list W * list W :=
  let '(K, state) := ks in
  let L := [gxor (gwp_G 8 K) (cst (nthN r whirlpool_RC)); gwp_G 9 K; gwp_G 10 K; gwp_G 11 K;
            gwp_G 12 K; gwp_G 13 K; gwp_G 14 K; gwp_G 15 K] in
  let K := L in
  let L := [gxor (gget 0 L) (gwp_G 8 state); gxor (gget 1 L) (gwp_G 9 state);
            gxor (gget 2 L) (gwp_G 10 state); gxor (gget 3 L) (gwp_G 11 state);
            gxor (gget 4 L) (gwp_G 12 state); gxor (gget 5 L) (gwp_G 13 state);
            gxor (gget 6 L) (gwp_G 14 state); gxor (gget 7 L) (gwp_G 15 state)] in
  (K, L).
(** whirlpool_provider.hpp:91-129 *)
Definition gwp_block (h M : list W) : list W :=
  let state := map2 gxor h M in
  let '(_, state) := fold_left gwp_round (seq 0 10) (h, state) in
  map2 gxor h (map2 gxor state M).

(** groestl_provider.hpp:28-36 and 45-53, kupyna_provider.hpp:25-33 *)
Definition gttable (T : list (list N)) (R : nat) (off : nat -> nat) (x : list W) : list W :=
  map (fun c => gcol T (fun j => gget ((c + off j) mod R) x)) (seq 0 R).
(** groestl_provider.hpp:22-37 *)
Definition ggr_roundP (R : nat) (x : list W) (i : N) : list W :=
  let x := map2 gxor x (map (fun idx => cst (N.lxor (shlw 64 (N.of_nat idx) 4) i)) (seq 0 R)) in
  gttable groestl_T R (fun j => if (j =? 7)%nat then (if (R =? 16)%nat then 11 else 7) else j)%nat x.
(** groestl_provider.hpp:39-54 *)
Definition ggr_roundQ (R : nat) (x : list W) (r : N) : list W :=
  let i := shlw 64 r 56 in
  let x := map2 gxor x
    (map (fun idx => cst (N.lxor (subw 64 0xffffffffffffffff (shlw 64 (N.of_nat idx) 60)) i)) (seq 0 R)) in
  gttable groestl_T R (fun j => nth j [1; 3; 5; if (R =? 16)%nat then 11 else 7; 0; 2; 4; 6] 0)%nat x.
(** kupyna_provider.hpp:22-34 *)
Definition gku_G (R : nat) (x : list W) : list W :=
  gttable kupyna_T R (fun j => R - (if (j =? 7)%nat then (if (R =? 16)%nat then 11 else 7) else j))%nat x.
(** kupyna_provider.hpp:36-43 *)
Definition gku_roundP (R : nat) (x : list W) (i : N) : list W :=
  gku_G R (map2 gxor x (map (fun idx => cst (N.lxor (shlw 64 (N.of_nat idx) 4) i)) (seq 0 R))).
(** kupyna_provider.hpp:45-53 *)
Definition gku_roundQ (R : nat) (x : list W) (i : N) : list W :=
  gku_G R (map2 (aadd A 64) x (map (fun j =>
    cst (N.lxor 0x00F0F0F0F0F0F0F3 (shlw 64 (N.lxor (N.of_nat (R - 1 - j) * 0x10) (N.land i 255)) 56))) (seq 0 R))).
(** groestl_provider.hpp:56-79, kupyna_provider.hpp:55-78 *)
Definition gcl_transform (roundP roundQ : nat -> list W -> N -> list W) (R : nat) (h m : list W) : list W :=
  let AP := map2 gxor (firstn R h) m in
  let '(AP, AQ) := fold_left (fun a i =>
      let '(AP, AQ) := a in
      let r := N.of_nat (2 * i) in
      (roundP R (roundP R AP r) (r + 1), roundQ R (roundQ R AQ r) (r + 1)))
    (seq 0 (cl_rounds R / 2)) (AP, m) in
  map2 gxor (map2 gxor AP AQ) (firstn R h) ++ skipn R h.
(** groestl_provider.hpp:81-99, kupyna_provider.hpp:80-98 *)
Definition gcl_output (roundP : nat -> list W -> N -> list W) (R : nat) (h : list W) : list W :=
  let t := fold_left (fun t i => let r := N.of_nat (2 * i) in roundP R (roundP R t r) (r + 1))
    (seq 0 (cl_rounds R / 2)) (firstn R h) in
  map2 gxor (firstn R h) t ++ skipn R h.
(** groestl_provider.hpp:188-197 *)
Definition ggr_step (hs : N) (h M : list W) : list W := gcl_transform ggr_roundP ggr_roundQ (cl_R hs) h M.
(** kupyna_provider.hpp:182-191 *)
Definition gku_step (hs : N) (h M : list W) : list W := gcl_transform gku_roundP gku_roundQ (cl_R hs) h M.

(** streebog_provider.hpp:22-33; the bytes of the block are those of its words. *)
Definition gsb_lps_block (block : list W) : list W :=
  map (fun I => let t j := look (nth j streebog_T []) (gbyte_at (gget j block) (N.of_nat (8 * I))) in
    gxor (gxor (gxor (gxor (gxor (gxor (gxor (t 0%nat) (t 1%nat)) (t 2%nat)) (t 3%nat))
      (t 4%nat)) (t 5%nat)) (t 6%nat)) (t 7%nat)) (seq 0 8).
(** streebog_provider.hpp:62-74 *)
Definition gsb_e (K : list W) (m : list W) : list W :=
  fst (fold_left (fun kt i =>
      let '(K, tmp) := kt in
      let K := gsb_lps_block K in
      let tmp := gsb_lps_block (map2 gxor tmp (map cst (nth i streebog_RC []))) in
      (map2 gxor K tmp, tmp))
    (seq 0 12) (map2 gxor K m, K)).
(** streebog_provider.hpp:76-85 *)
Definition gsb_gN (Nn : N) (h m : list W) : list W :=
  let hN := match h with x :: r => gxor x (cst Nn) :: r | [] => [] end in
  let hN := gsb_e (gsb_lps_block hN) m in
  map2 gxor (map2 gxor h hN) m.

(** echo_provider.hpp:75-117; [a] and [b] are words of the block. *)
Definition gec_T (j : nat) (x : W) (n : N) : W := look (nth j echo_T []) (gbyte_at x n).
(** echo_provider.hpp:75-117. *)
Definition gec_sub1 (salt : list W) (counter : N) (a b : W) : W * W :=
  let t0 := gxor (gxor (gxor (gxor (cst (trunc 32 counter)) (gec_T 0 a 0)) (gec_T 1 a 40)) (gec_T 2 b 16)) (gec_T 3 b 56) in
  let t1 := gxor (gxor (gxor (gxor (cst (trunc 32 (N.shiftr counter 32))) (gec_T 0 a 32)) (gec_T 1 b 8)) (gec_T 2 b 48)) (gec_T 3 a 24) in
  let t2 := gxor (gxor (gxor (gec_T 0 b 0) (gec_T 1 b 40)) (gec_T 2 a 16)) (gec_T 3 a 56) in
  let t3 := gxor (gxor (gxor (gec_T 0 b 32) (gec_T 1 a 8)) (gec_T 2 a 48)) (gec_T 3 b 24) in
  (gxor (gxor
     (gxor (gxor (gxor (gec_T 0 t0 0) (gec_T 1 t1 8)) (gec_T 2 t2 16)) (gec_T 3 t3 24))
     (ashl A 64 (gxor (gxor (gxor (gec_T 0 t1 0) (gec_T 1 t2 8)) (gec_T 2 t3 16)) (gec_T 3 t0 24)) 32))
     (gget 0 salt),
   gxor (gxor
     (gxor (gxor (gxor (gec_T 0 t2 0) (gec_T 1 t3 8)) (gec_T 2 t0 16)) (gec_T 3 t1 24))
     (ashl A 64 (gxor (gxor (gxor (gec_T 0 t3 0) (gec_T 1 t0 8)) (gec_T 2 t1 16)) (gec_T 3 t2 24)) 32))
     (gget 1 salt)).
(** echo_provider.hpp:69-119 *)
Definition gec_sub_words (salt : list W) (s : list W * N) : list W * N :=
  fold_left (fun s r =>
    let '(w, counter) := s in
    let '(x, y) := gec_sub1 salt counter (gget (r * 2) w) (gget (r * 2 + 1) w) in
    (upd (r * 2 + 1) y (upd (r * 2) x w), trunc 64 (counter + 1))) (seq 0 16) s.
(** std::swap(w[i], w[j]). echo_provider.hpp:24-39. *)
Definition gec_swap (w : list W) (ij : nat * nat) : list W :=
  let '(i, j) := ij in
  let x := gget i w in
  let y := gget j w in
  upd j x (upd i y w).
(** echo_provider.hpp:22-40 *)
Definition gec_shift_rows (w : list W) : list W :=
  fold_left gec_swap
    [(2, 10); (3, 11); (4, 20); (5, 21); (6, 30); (7, 31); (12, 28); (13, 29); (22, 14); (23, 15);
     (30, 14); (31, 15); (26, 18); (27, 19); (26, 10); (27, 11)]%nat w.
(** echo_provider.hpp:56-59 *)
Definition gec_dbl (a : W) : W :=
  gxor (aand A (ashl A 64 a 1) (cst 0xfefefefefefefefe))
       (amul A 64 (aand A (ashr A a 7) (cst 0x0101010101010101)) 0x1b).
(** echo_provider.hpp:50-64 *)
Definition gec_mix_column (w : list W) (idx : nat) : list W :=
  let a := gget idx w in
  let b := gget (idx + 2) w in
  let c := gget (idx + 4) w in
  let d := gget (idx + 6) w in
  let dblA := gec_dbl a in
  let dblB := gec_dbl b in
  let dblC := gec_dbl c in
  let dblD := gec_dbl d in
  let w := upd idx (gxor (gxor (gxor (gxor dblA dblB) b) c) d) w in
  let w := upd (idx + 2) (gxor (gxor (gxor (gxor dblB dblC) c) d) a) w in
  let w := upd (idx + 4) (gxor (gxor (gxor (gxor dblC dblD) d) a) b) w in
  upd (idx + 6) (gxor (gxor (gxor (gxor dblD dblA) a) b) c) w.
(** echo_provider.hpp:42-67 *)
Definition gec_mix_columns (w : list W) : list W :=
  fold_left (fun w i => fold_left (fun w j => gec_mix_column w (i * 4 * 2 + j)) (seq 0 2) w) (seq 0 4) w.
(** echo_provider.hpp:266-271 *)
Definition gec_round (salt : list W) (s : list W * N) : list W * N :=
  let '(w, counter) := gec_sub_words salt s in
  (gec_mix_columns (gec_shift_rows w), counter).
(** echo_provider.hpp:122-152 *)
Definition gec_final256 (h w : list W) : list W :=
  map (fun i => gxor (gxor (gxor (gxor (gxor (gxor (gxor (gget i h) (gget (i + 8) h)) (gget (i + 16) h))
    (gget (i + 24) h)) (gget i w)) (gget (i + 8) w)) (gget (i + 16) w)) (gget (i + 24) w)) (seq 0 8).
(** echo_provider.hpp:134-152. *)
Definition gec_final512 (h w : list W) : list W :=
  map (fun i => gxor (gxor (gxor (gget i h) (gget (i + 16) h)) (gget i w)) (gget (i + 16) w)) (seq 0 16).
(** echo_provider.hpp:264-276; [sV] is the salt followed by the chaining value. *)
Definition gec_block (hs counter : N) (sV m : list W) : list W :=
  let h := skipn 2 sV ++ m in
  let w := fst (Nat.iter (if 256 <? hs then 10 else 8) (gec_round (firstn 2 sV)) (h, counter)) in
  if hs <=? 256 then gec_final256 h w else gec_final512 h w.
End Tables.

(** streebog_provider.hpp:94: [t < h[i]] of the additions of addm, which decides whether
    [t < m64[i]] is evaluated. *)
Definition sb_addm_branches (m h : list N) : list bool := map2 (fun h0 m0 => addw 64 h0 m0 <? h0) h m.
