(** * The remaining shifts of the library: the length encodings of SHAKE, the parameter words
    of BLAKE2, the tweaks of Skein, byteswap of 16 bits, and all rotations of SM3 and LSH
    apart from the two undefined ones.

    Each definition [k…] is the definition of the same name in the model with the operations
    of Checked.v; the lines of the code are those cited there. *)
From Verif Require Import Base Absorb Checked Lemmas MdState Shake EncodeProof Blake2 ConstBlake2
  Skein Jh Sm3 Lsh ConstLsh CkMd.

(** ** left_encode and right_encode *)

(** shake_provider.hpp:26-27, 41-42 *)
Fixpoint kcount_bytes (fuel : nat) (tmp : K) (n : nat) : res nat :=
  match fuel with
  | O => Ok n
  | S f => tmp <- kshr 64 tmp (Ok 8) ;;
           if tmp =? 0 then Ok n else kcount_bytes f (Ok tmp) (S n)
  end.
(** shake_provider.hpp:30-32, 45-47: buf[i] for a buffer of 9 bytes; [n] is the number of bytes
    still to come, the byte goes to index [n] (left) or [n - 1] (right), at most 8. *)
Fixpoint kenc_loop (n : nat) (i : N) (num : K) (acc : list K) : list K :=
  match n with
  | O => acc
  | S n' => kenc_loop n' (i + 1) num
              ((if (n <=? 8)%nat then kbyte 64 num (Ok (8 * i)) else UB OutOfBounds) :: acc)
  end.
Definition kleft_encode (num : N) : list K :=
  match kcount_bytes 8 (Ok num) 1 with
  | Ok n => Ok (N.of_nat n) :: kenc_loop n 0 (Ok num) []
  | UB e => [UB e] | Throw => [Throw]
  end.
Definition kright_encode (num : N) (k12 : bool) : list K :=
  match kcount_bytes 8 (Ok num) (if k12 && (num =? 0) then 0%nat else 1%nat) with
  | Ok n => kenc_loop n 0 (Ok num) [] ++ [Ok (N.of_nat n)]
  | UB e => [UB e] | Throw => [Throw]
  end.

Lemma kcount_bytes_ok f x n : kcount_bytes f (Ok x) n = Ok (count_bytes f x n).
Proof.
  revert x n. induction f as [|f IH]; intros x n; cbn [kcount_bytes count_bytes]; [reflexivity|].
  rewrite kshr_ok by reflexivity. cbn [bind]. unfold shrw.
  destruct (N.shiftr x 8 =? 0); [reflexivity | apply IH].
Qed.
Lemma kenc_loop_ok n i x acc : (N.of_nat n + i <= 8) ->
  kenc_loop n i (Ok x) (kl acc) = kl (enc_loop n i x acc).
Proof.
  revert i acc. induction n as [|n IH]; intros i acc H; cbn [kenc_loop enc_loop]; [reflexivity|].
  replace (S n <=? 8)%nat with true by (symmetry; apply Nat.leb_le; lia).
  rewrite kbyte_ok by lia.
  change (Ok (byte_at x (8 * i)) :: kl acc) with (kl (byte_at x (8 * i) :: acc)).
  apply IH. lia.
Qed.
Lemma count_bytes_le f x n k : x < 256 ^ N.of_nat (S k) -> (count_bytes f x n <= n + k)%nat.
Proof.
  revert x n k. induction f as [|f IH]; intros x n k H; cbn [count_bytes]; [lia|].
  destruct (N.eqb_spec (N.shiftr x 8) 0) as [E|E]; [lia|].
  rewrite N.shiftr_div_pow2 in *. change (2 ^ 8) with 256 in *.
  destruct k as [|k].
  - change (256 ^ N.of_nat 1) with 256 in H. rewrite N.div_small in E by exact H. lia.
  - specialize (IH (x / 256) (S n) k). enough (x / 256 < 256 ^ N.of_nat (S k)) by (specialize (IH H0); lia).
    apply N.div_lt_upper_bound; [discriminate|].
    replace (N.of_nat (S (S k))) with (N.succ (N.of_nat (S k))) in H by lia.
    rewrite N.pow_succ_r' in H. exact H.
Qed.

Lemma kleft_encode_ok x : x < 2 ^ 64 -> kleft_encode x = kl (left_encode x).
Proof.
  intros H. unfold kleft_encode, left_encode. rewrite kcount_bytes_ok.
  pose proof (count_bytes_le 8 x 1 7 H).
  change (@nil K) with (kl []). rewrite kenc_loop_ok by lia. reflexivity.
Qed.
Lemma kright_encode_ok x k12 : x < 2 ^ 64 -> kright_encode x k12 = kl (right_encode x k12).
Proof.
  intros H. unfold kright_encode, right_encode. rewrite kcount_bytes_ok.
  set (n0 := if k12 && (x =? 0) then 0%nat else 1%nat).
  pose proof (count_bytes_le 8 x n0 7 H). assert (n0 <= 1)%nat by (unfold n0; destruct (_ && _); lia).
  change (@nil K) with (kl []). rewrite kenc_loop_ok by lia. rewrite kl_app. reflexivity.
Qed.

(** ** BLAKE2 parameters *)

Definition kb2_xor (i : nat) (v : K) (H : list K) : list K := kupd i (kxor (kget i H) v) H.
Lemma kb2_xor_ok i v H : (i < length H)%nat -> kb2_xor i (Ok v) (kl H) = kl (b2_xor i v H).
Proof. intros Hi. unfold kb2_xor, b2_xor. rewrite kget_ok by exact Hi. cbn [kxor bind]. now apply kupd_ok. Qed.
Lemma b2_xor_length i v H : length (b2_xor i v H) = length H.
Proof. apply upd_len. Qed.

(** blake2_provider.hpp:75-87 *)
Definition kb2_initH (w fanout : N) : list K :=
  let H := kl (b2_IV w) in
  if fanout =? 0 then kb2_xor 0 (Ok 0x01010000) H else H.
(** blake2_provider.hpp:89-107 *)
Definition kb2_initX (w : N) (left : nat) (xoffset rhs : N) : list K :=
  let H := kl (b2_IV w) in
  let len := if rhs =? N.ones w then N.of_nat (b2_hb w) else N.of_nat (Nat.min left (b2_hb w)) in
  let H := kb2_xor 0 (Ok len) H in
  if w =? 64 then
    let H := kb2_xor 0 (Ok 0x0000004000000000) H in
    let H := kb2_xor 1 (Ok xoffset) H in
    let H := kb2_xor 1 (kshl 64 (Ok rhs) (Ok 32)) H in
    kb2_xor 2 (Ok 0x4000) H
  else
    let H := kb2_xor 1 (Ok 0x20) H in
    let H := kb2_xor 2 (ktrunc 32 (Ok xoffset)) H in
    let H := kb2_xor 3 (Ok 0x20000000) H in
    kb2_xor 3 (ktrunc 16 (Ok rhs)) H.
(** blake2_provider.hpp:180-183 *)
Definition kb2_xor_sp (s p H : list K) : list K :=
  kb2_xor 7 (kget 1 p) (kb2_xor 6 (kget 0 p) (kb2_xor 5 (kget 1 s) (kb2_xor 4 (kget 0 s) H))).
(** blake2_provider.hpp:166-194: sizeof(T) * 4 = w / 2, N / 16 = 32 for 64-bit words. *)
Definition kb2_init_H (w : N) (ty : b2_type) (hs : N) (s p : list K) (klen : nat) (fo nd no : N) : list K :=
  let H := kb2_initH w fo in
  let H :=
    match ty with
    | BHash => kb2_xor 0 (ktrunc w (Ok (hs / 8))) H
    | _ =>
      let H := kb2_xor 0 (Ok w) H in
      let rhs := match ty with
                 | BXof => kshr w (Ok (N.ones w)) (Ok (w / 2))
                 | _ => ktrunc w (Ok (hs / 8)) end in
      if w =? 64 then kb2_xor 1 (kshl 64 rhs (Ok 32)) H else kb2_xor 3 rhs H
    end in
  let H := kb2_xor 0 (ktrunc w (kshl 64 (Ok (N.of_nat klen)) (Ok 8))) H in
  let H := kb2_xor_sp s p H in
  if fo =? 0 then H
  else
    let H := kb2_xor 0 (kor (kshl w (Ok fo) (Ok 16)) (kshl w (Ok 2) (Ok 24))) H in
    let H := kb2_xor (if w =? 64 then 1 else 2) (Ok no) H in
    if w =? 64 then kb2_xor 2 (kor (Ok nd) (kshl w (Ok 64) (Ok 8))) H
    else kb2_xor 3 (kor (kshl w (Ok nd) (Ok 16)) (kshl w (Ok 32) (Ok 24))) H.

Lemma b2_IV_len w : w = 32 \/ w = 64 -> length (b2_IV w) = 8%nat.
Proof. now intros [-> | ->]. Qed.

Ltac kx8 := repeat (rewrite kb2_xor_ok by (repeat rewrite b2_xor_length; lia)).

Lemma kb2_initX_ok w left xo rhs : w = 32 \/ w = 64 ->
  kb2_initX w left xo rhs = kl (b2_initX w left xo rhs).
Proof.
  intros Hw. pose proof (b2_IV_len w Hw) as HI. unfold kb2_initX, b2_initX. cbv zeta.
  set (len := if _ =? N.ones w then _ else _). clearbody len.
  revert HI. generalize (b2_IV w). intros IV HI.
  destruct Hw as [-> | ->]; cbn [N.eqb Pos.eqb]; cbn [ktrunc bind].
  - kx8. reflexivity.
  - rewrite kshl_ok by reflexivity. kx8. reflexivity.
Qed.

Lemma kb2_init_H_ok w ty hs s p klen fo nd no : w = 32 \/ w = 64 ->
  length s = 2%nat -> length p = 2%nat ->
  kb2_init_H w ty hs (kl s) (kl p) klen fo nd no = kl (b2_init_H w ty hs s p klen fo nd no).
Proof.
  intros Hw Hs Hp. pose proof (b2_IV_len w Hw) as HI.
  unfold kb2_init_H, b2_init_H, kb2_initH, b2_initH, kb2_xor_sp, b2_xor_sp. cbv zeta.
  rewrite !kget_ok by lia.
  revert HI. generalize (b2_IV w). intros IV HI.
  assert (E : forall H : list N, length H = 8%nat -> exists H',
     (if fo =? 0 then kb2_xor 0 (Ok 0x01010000) (kl H) else kl H) = kl H' /\
     (if fo =? 0 then b2_xor 0 0x01010000 H else H) = H' /\ length H' = 8%nat).
  { intros H HH. destruct (fo =? 0).
    - eexists. rewrite kb2_xor_ok by lia. split; [reflexivity|]. split; [reflexivity|].
      now rewrite b2_xor_length.
    - exists H. auto. }
  destruct (E IV HI) as (H & -> & -> & HH). clear E HI IV.
  destruct Hw as [-> | ->]; cbn [N.eqb Pos.eqb]; cbn [ktrunc bind];
    rewrite ?(kshl_ok 64 (N.of_nat klen)) by reflexivity; cbn [ktrunc bind];
    rewrite ?(kshr_ok _ (N.ones _)) by reflexivity;
    rewrite ?kshl_ok by reflexivity; cbn [kor bind]; unfold shrw;
    destruct ty; rewrite ?kshl_ok by reflexivity; destruct (fo =? 0); kx8; reflexivity.
Qed.

(** ** Skein tweaks *)

(** skein_provider.hpp:228, 241, 367, 377 (the codes are 0, 4, 8, 20, 48); 259, 369; 280; 353 *)
Definition ksk_tw1 (code : N) : K := kor (kshl 64 (Ok 1) (Ok 62)) (kshl 64 (Ok code) (Ok 56)).
Definition ksk_lastbit : K := kshl 64 (Ok 1) (Ok 63).
Definition ksk_outtw : K := kshl 64 (Ok 255) (Ok 56).
Definition ksk_first : K := knot 64 (kshl 64 (Ok 64) (Ok 56)).

Lemma ksk_tweaks_ok code : ksk_tw1 code = Ok (sk_tw1 code) /\ ksk_lastbit = Ok sk_lastbit /\
  ksk_outtw = Ok (shlw 64 255 56) /\ ksk_first = Ok (notw 64 (shlw 64 64 56)).
Proof. repeat split; reflexivity. Qed.

(** ** byteswap of a uint16_t (JH) *)
Lemma kbyteswap16_ok x : kbyteswap16 (Ok x) = Ok (byteswap16 x).
Proof.
  unfold kbyteswap16, byteswap16. cbn [kand bind].
  rewrite kshl_ok, kshr_ok by reflexivity. cbn [kor ktrunc bind]. unfold shlw, shrw.
  rewrite (trunc_small 32); [reflexivity|].
  change 0xff with (N.ones 8). rewrite N.land_ones, N.shiftl_mul_pow2.
  pose proof (N.mod_lt x (2 ^ 8)). change (2 ^ 8) with 256 in *. change (2 ^ 32) with 4294967296. lia.
Qed.

(** ** SM3 *)

Definition ksm3_xorf (x y z : K) : K := kxor (kxor x y) z.
Definition ksm3_ff1 (x y z : K) : K := kxor (kxor (kand x y) (kand x z)) (kand y z).
Definition ksm3_gg1 (x y z : K) : K := kxor (kand x y) (kand (knot 32 x) z).
Definition ksm3_p0 (x : K) : K := kxor (kxor x (krotl 32 x (Ok 9))) (krotl 32 x (Ok 17)).
Definition ksm3_p1 (x : K) : K := kxor (kxor x (krotl 32 x (Ok 15))) (krotl 32 x (Ok 23)).
Fixpoint ksm3_expand (n : nat) (W : list K) : list K :=
  match n with
  | O => W
  | S n' =>
    let t := length W in
    ksm3_expand n' (W ++ [kxor (kxor
      (ksm3_p1 (kxor (kxor (kback t 16 W) (kback t 9 W)) (krotl 32 (kback t 3 W) (Ok 15))))
      (krotl 32 (kback t 13 W) (Ok 7))) (kback t 6 W)])
  end.
(** [sem] is the meaning of the rotation of the constant in lines 137 and 153; all other
    shifts are strict. *)
Definition ksm3_iter (sem : shift_sem) (C : N) (ff gg : K -> K -> K -> K) (W W2 : list K)
  (s : K * K * K * K * K * K * K * K) (t : nat) : K * K * K * K * K * K * K * K :=
  let '(a, b, c, d, e, f, g, h) := s in
  let k := rotl_c sem 32 C (N.of_nat t) in
  let ss1 := krotl 32 (kadd 32 (kadd 32 (krotl 32 a (Ok 12)) e) k) (Ok 7) in
  let ss2 := kxor ss1 (krotl 32 a (Ok 12)) in
  let tt1 := kadd 32 (kadd 32 (kadd 32 (ff a b c) d) ss2) (kget t W2) in
  let tt2 := kadd 32 (kadd 32 (kadd 32 (gg e f g) h) ss1) (kget t W) in
  (tt1, a, krotl 32 b (Ok 9), c, ksm3_p0 tt2, e, krotl 32 f (Ok 19), g).
Definition ksm3_block (sem : shift_sem) (H : list K) (data : list N) : list K :=
  let M := map kbyteswap32 (kl (le_words 4 16 data)) in
  let W := ksm3_expand 52 M in
  let W2 := map (fun t => kxor (kget t W) (kget (t + 4) W)) (seq 0 64) in
  let s := (kget 0 H, kget 1 H, kget 2 H, kget 3 H, kget 4 H, kget 5 H, kget 6 H, kget 7 H) in
  let s := fold_left (ksm3_iter sem 0x79cc4519 ksm3_xorf ksm3_xorf W W2) (seq 0 16) s in
  let '(a, b, c, d, e, f, g, h) :=
    fold_left (ksm3_iter sem 0x7a879d8a ksm3_ff1 ksm3_gg1 W W2) (seq 16 48) s in
  [kxor (kget 0 H) a; kxor (kget 1 H) b; kxor (kget 2 H) c; kxor (kget 3 H) d;
   kxor (kget 4 H) e; kxor (kget 5 H) f; kxor (kget 6 H) g; kxor (kget 7 H) h].

Lemma ksm3_p0_ok x : ksm3_p0 (Ok x) = Ok (sm3_p0 x).
Proof. unfold ksm3_p0. rewrite !krotl_ok by reflexivity || discriminate. reflexivity. Qed.
Lemma ksm3_p1_ok x : ksm3_p1 (Ok x) = Ok (sm3_p1 x).
Proof. unfold ksm3_p1. rewrite !krotl_ok by reflexivity || discriminate. reflexivity. Qed.
Lemma ksm3_expand_ok n W : (16 <= length W)%nat -> ksm3_expand n (kl W) = kl (sm3_expand n W).
Proof.
  revert W. induction n as [|n IH]; intros W HW; cbn [ksm3_expand sm3_expand]; [reflexivity|].
  rewrite kl_length, !kback_ok by lia.
  rewrite !krotl_ok by reflexivity || discriminate. cbn [kxor bind]. rewrite ksm3_p1_ok. cbn [kxor bind].
  rewrite <- IH by (rewrite app_length; cbn [length]; lia).
  now rewrite kl_app.
Qed.
Lemma sm3_expand_len n W : length (sm3_expand n W) = (length W + n)%nat.
Proof.
  revert W. induction n as [|n IH]; intros W; cbn [sm3_expand]; [lia|].
  rewrite IH, app_length. cbn [length]. lia.
Qed.

(** The masked rotation never fails. *)
Lemma rotl_c_masked_ok w x n : 0 < w -> exists y, rotl_c Masked w x n = Ok y.
Proof.
  intros _. unfold rotl_c, shl_c, shr_c.
  destruct (n <? w); destruct (subw 32 w n <? w); cbn [bind]; eexists; reflexivity.
Qed.

Definition sm8 : Type := N * N * N * N * N * N * N * N.
Lemma ksm3_iter_ok C ffk ff ggk gg W W2 s t : fun_ok ffk ff -> fun_ok ggk gg ->
  (t < length W)%nat -> (t < length W2)%nat ->
  exists s', sm3_iter Masked C ff gg W W2 s t = Ok s' /\
             ksm3_iter Masked C ffk ggk (kl W) (kl W2) (ok8 s) t = ok8 s'.
Proof.
  intros Hf Hg H1 H2. destruct s as [[[[[[[a b] c] d] e] f] g] h].
  unfold sm3_iter, ksm3_iter, ok8. destruct (rotl_c_masked_ok 32 C (N.of_nat t)) as (k & ->); [reflexivity|].
  cbn [bind]. cbv zeta. eexists. split; [reflexivity|].
  rewrite !kget_ok by assumption. pose proof (Hf a b c) as ->. pose proof (Hg e f g) as ->.
  rewrite (krotl_ok 32 a), (krotl_ok 32 b), (krotl_ok 32 f) by reflexivity || discriminate.
  cbn [kadd bind]. rewrite krotl_ok by reflexivity || discriminate. cbn [kxor kadd bind].
  rewrite ksm3_p0_ok. reflexivity.
Qed.
Lemma ksm3_fold_ok C ffk ff ggk gg W W2 l s : fun_ok ffk ff -> fun_ok ggk gg ->
  (forall t, In t l -> t < length W /\ t < length W2)%nat ->
  exists s', fold_res (sm3_iter Masked C ff gg W W2) l s = Ok s' /\
             fold_left (ksm3_iter Masked C ffk ggk (kl W) (kl W2)) l (ok8 s) = ok8 s'.
Proof.
  intros Hf Hg. revert s. induction l as [|t l IH]; intros s Hl; cbn [fold_left fold_res].
  - exists s. auto.
  - destruct (Hl t (or_introl eq_refl)) as [L1 L2].
    destruct (ksm3_iter_ok C ffk ff ggk gg W W2 s t Hf Hg L1 L2) as (s1 & E1 & E2).
    rewrite E1, E2. cbn [bind]. apply IH. intros t' Ht'. apply Hl. now right.
Qed.

(** Apart from the rotation of the round constant, no shift of SM3 is out of range. *)
Lemma ksm3_block_ok H t data : length H = 8%nat ->
  exists H', sm3_block Masked H t data = Ok H' /\ ksm3_block Masked (kl H) data = kl H'.
Proof.
  intros HH. unfold ksm3_block, sm3_block.
  rewrite (map_kl kbyteswap32 byteswap32) by reflexivity.
  assert (HM : length (map byteswap32 (le_words 4 16 data)) = 16%nat)
    by (rewrite map_length; apply le_words_length).
  set (M := map byteswap32 (le_words 4 16 data)) in *. clearbody M.
  rewrite ksm3_expand_ok by lia.
  assert (HW : length (sm3_expand 52 M) = 68%nat) by (rewrite sm3_expand_len; lia).
  set (W := sm3_expand 52 M) in *. clearbody W.
  rewrite (map_ok _ _ (fun t => N.lxor (nthN t W) (nthN (t + 4) W)))
    by (intros i Hi; apply in_seq in Hi; rewrite !kget_ok by lia; reflexivity).
  set (W2 := map _ _).
  assert (H2 : length W2 = 64%nat) by (unfold W2; now rewrite map_length, seq_length).
  clearbody W2. cbv zeta.
  rewrite !kget_ok by (rewrite HH; lia).
  set (s0 := (nthN 0 H, nthN 1 H, nthN 2 H, nthN 3 H, nthN 4 H, nthN 5 H, nthN 6 H, nthN 7 H)).
  change (Ok (nthN 0 H), Ok (nthN 1 H), Ok (nthN 2 H), Ok (nthN 3 H),
          Ok (nthN 4 H), Ok (nthN 5 H), Ok (nthN 6 H), Ok (nthN 7 H)) with (ok8 s0).
  destruct (ksm3_fold_ok 0x79cc4519 ksm3_xorf sm3_xorf ksm3_xorf sm3_xorf W W2 (seq 0 16) s0) as (s1 & -> & ->);
    [intros x y z; reflexivity | intros x y z; reflexivity | intros t' Ht; apply in_seq in Ht; lia |].
  cbn [bind].
  destruct (ksm3_fold_ok 0x7a879d8a ksm3_ff1 sm3_ff1 ksm3_gg1 sm3_gg1 W W2 (seq 16 48) s1) as (s2 & -> & ->);
    [intros x y z; reflexivity | intros x y z; reflexivity | intros t' Ht; apply in_seq in Ht; lia |].
  destruct s2 as [[[[[[[a b] c] d] e] f] g] h]. cbn [bind].
  eexists. split; [reflexivity|]. reflexivity.
Qed.

(** The rotation of the constant is defined in exactly the rounds 1 to 31. *)
Lemma sm3_rot_defined C t : rotl_c Strict 32 C t = UB BadShift <-> (t = 0 \/ 32 <= t).
Proof.
  assert (E : forall x n, rotl_c Strict 32 x n = krotl 32 (Ok x) (Ok n)) by reflexivity.
  rewrite E. split; intros H.
  - destruct (N.eq_dec t 0); [now left|]. right.
    destruct (N.lt_ge_cases t 32) as [L|L]; [|exact L].
    rewrite krotl_ok in H by (try discriminate; lia). discriminate.
  - apply krotl_ub; [discriminate | exact H].
Qed.

(** ** LSH *)

(** lsh_provider.hpp:214-215: alpha and beta are in range. *)
Lemma lsh_ab_range w l : w = 32 \/ w = 64 -> (l < 4)%nat -> 0 < lsh_ab w l /\ lsh_ab w l < w.
Proof.
  intros Hw Hl.
  assert (E : forallb (fun l => (0 <? lsh_ab w l) && (lsh_ab w l <? w)) (seq 0 4) = true)
    by (destruct Hw as [-> | ->]; vm_compute; reflexivity).
  rewrite forallb_forall in E. specialize (E l). rewrite andb_true_iff, !N.ltb_lt in E.
  apply E, in_seq. lia.
Qed.
(** lsh_provider.hpp:181-188: gamma is below the width, and 0 exactly for the words 0 and, if
    they have 32 bits, 7. *)
Lemma lsh_gamma_range w l : w = 32 \/ w = 64 -> (l < 8)%nat -> lsh_gamma w l < w.
Proof.
  intros Hw Hl.
  assert (E : forallb (fun l => lsh_gamma w l <? w) (seq 0 8) = true)
    by (destruct Hw as [-> | ->]; vm_compute; reflexivity).
  rewrite forallb_forall in E. specialize (E l). rewrite N.ltb_lt in E.
  apply E, in_seq. lia.
Qed.
Lemma lsh_gamma_zero w l : w = 32 \/ w = 64 -> (l < 8)%nat ->
  (lsh_gamma w l = 0 <-> l = 0%nat \/ (l = 7%nat /\ w = 32)).
Proof.
  intros Hw Hl.
  assert (E : forallb (fun l => Bool.eqb (lsh_gamma w l =? 0)
                ((l =? 0)%nat || ((l =? 7)%nat && (w =? 32)))) (seq 0 8) = true)
    by (destruct Hw as [-> | ->]; vm_compute; reflexivity).
  rewrite forallb_forall in E. specialize (E l). rewrite Bool.eqb_true_iff in E.
  assert (I : In l (seq 0 8)) by (apply in_seq; lia). apply E in I.
  rewrite <- N.eqb_eq, I, orb_true_iff, andb_true_iff, !Nat.eqb_eq, N.eqb_eq. reflexivity.
Qed.

(** lsh_provider.hpp:148-166 *)
Definition klsh_expand1 (w : N) (a b : list K) : list K :=
  map (fun p => kadd w (kget (fst p) a) (kget (snd p) b))
    [(0, 3); (1, 2); (2, 0); (3, 1); (4, 7); (5, 4); (6, 5); (7, 6);
     (8, 11); (9, 10); (10, 8); (11, 9); (12, 15); (13, 12); (14, 13); (15, 14)]%nat.
Fixpoint klsh_expand_rows (w : N) (n : nat) (a b : list K) : list (list K) :=
  match n with
  | O => []
  | S n' => let c := klsh_expand1 w a b in c :: klsh_expand_rows w n' c a
  end.
Definition klsh_msgexpand (w : N) (data : list N) : list (list K) :=
  let ws := kl (le_words (lsh_wb w) 32 data) in
  let m0 := firstn 16 ws in
  let m1 := skipn 16 ws in
  m0 :: m1 :: klsh_expand_rows w (lsh_NS w - 1) m1 m0.
(** msgexp[i] *)
Definition krow (i : nat) (me : list (list K)) : list K :=
  match nth_error me i with Some r => r | None => [] end.
(** lsh_provider.hpp:169-177. [sem] is the meaning of the rotation by gamma in line 176; the
    other shifts are strict. *)
Definition krotl_c (sem : shift_sem) (w : N) (x n : K) : K := a <- x ;; k <- n ;; rotl_c sem w a k.
Definition klsh_addmix (sem : shift_sem) (w : N) (cv me : list K) (l : nat) (sc alpha beta gamma : K)
  : K * K :=
  let x := kxor (kget l cv) (kget l me) in
  let y := kxor (kget (l + 8) cv) (kget (l + 8) me) in
  let x := kxor (krotl w (kadd w x y) alpha) sc in
  let y := krotl w (kadd w x y) beta in
  (kadd w x y, krotl_c sem w y gamma).
(** lsh_provider.hpp:179-205 with the tables of 23-66 *)
Definition klsh_step1 (sem : shift_sem) (w : N) (me : list (list K)) (cv : list K) (i : nat) (alpha beta : K)
  : list K * list K :=
  let ps := map (fun l => klsh_addmix sem w cv (krow i me) l
                  (ktab2 i l (if (w =? 32)%N then lsh_SC256 else lsh_SC512)) alpha beta
                  (ktab l (if w =? 32 then lsh_G256 else lsh_G512))) (seq 0 8) in
  let t := map fst ps ++ map snd ps in
  (map (fun j => kget j t) [6; 4; 5; 7; 12; 15; 14; 13; 2; 0; 1; 3; 8; 11; 10; 9]%nat, t).
(** lsh_provider.hpp:207-220 *)
Definition klsh_block (sem : shift_sem) (w : N) (S : list K) (data : list N) : list K :=
  let me := klsh_msgexpand w data in
  let ab := if w =? 32 then lsh_AB256 else lsh_AB512 in
  let '(cv, t) := fold_left (fun (ct : list K * list K) k =>
       let '(cv, _) := klsh_step1 sem w me (fst ct) (2 * k) (ktab 0 ab) (ktab 1 ab) in
       klsh_step1 sem w me cv (2 * k + 1) (ktab 2 ab) (ktab 3 ab))
     (seq 0 (lsh_NS w / 2)) (firstn 16 S, firstn 16 (skipn 16 S)) in
  let cv := map (fun i => kxor (kget i cv) (kget i (krow (lsh_NS w) me))) (seq 0 16) in
  cv ++ t ++ concat me.

Lemma lsh_expand1_len w a b : length (lsh_expand1 w a b) = 16%nat.
Proof. reflexivity. Qed.
Lemma klsh_expand1_ok w a b : length a = 16%nat -> length b = 16%nat ->
  klsh_expand1 w (kl a) (kl b) = kl (lsh_expand1 w a b).
Proof.
  intros Ha Hb. unfold klsh_expand1, lsh_expand1. apply map_ok. intros [i j] H. cbn [fst snd].
  assert (i < 16 /\ j < 16)%nat as [Hi Hj].
  { cbn [In] in H. repeat (destruct H as [H|H]; [injection H as <- <-; lia|]). destruct H. }
  rewrite !kget_ok by lia. reflexivity.
Qed.
Lemma klsh_rows_ok w n a b : length a = 16%nat -> length b = 16%nat ->
  klsh_expand_rows w n (kl a) (kl b) = map kl (lsh_expand_rows w n a b) /\
  length (lsh_expand_rows w n a b) = n /\
  (forall r, In r (lsh_expand_rows w n a b) -> length r = 16%nat).
Proof.
  revert a b. induction n as [|n IH]; intros a b Ha Hb; cbn [klsh_expand_rows lsh_expand_rows].
  - split; [reflexivity|]. split; [reflexivity|]. intros r [].
  - rewrite klsh_expand1_ok by assumption.
    destruct (IH (lsh_expand1 w a b) a (lsh_expand1_len w a b) Ha) as (E1 & E2 & E3).
    rewrite E1. split; [reflexivity|]. split; [cbn [length]; now rewrite E2|].
    intros r [<-|Hr]; [apply lsh_expand1_len | now apply E3].
Qed.
Lemma klsh_msgexpand_ok w data :
  klsh_msgexpand w data = map kl (lsh_msgexpand w data) /\
  length (lsh_msgexpand w data) = S (S (lsh_NS w - 1)) /\
  (forall r, In r (lsh_msgexpand w data) -> length r = 16%nat).
Proof.
  unfold klsh_msgexpand, lsh_msgexpand. cbv zeta.
  pose proof (le_words_length (lsh_wb w) 32 data) as HL.
  rewrite kl_firstn, kl_skipn.
  set (a := firstn 16 _). set (b := skipn 16 _).
  assert (Ha : length a = 16%nat) by (unfold a; rewrite firstn_length; lia).
  assert (Hb : length b = 16%nat) by (unfold b; rewrite skipn_length; lia).
  destruct (klsh_rows_ok w (lsh_NS w - 1) b a Hb Ha) as (E1 & E2 & E3).
  rewrite E1. split; [reflexivity|]. split; [cbn [length]; now rewrite E2|].
  intros r [<-|[<-|Hr]]; auto.
Qed.

Lemma krow_ok i me : (i < length me)%nat -> krow i (map kl me) = kl (nth i me []).
Proof.
  intros H. unfold krow. rewrite nth_error_map.
  destruct (nth_error me i) eqn:E.
  - cbn [option_map]. now rewrite (nth_error_nth _ _ [] E).
  - apply nth_error_None in E. lia.
Qed.

Lemma rotl_c_in_range sem w x n : w <= 64 -> 0 < n -> n < w -> rotl_c sem w x n = Ok (rotl w x n).
Proof.
  intros Hw H0 H1. rewrite <- (krotl_ok w x n Hw H0 H1). unfold krotl, kshl, kshr, ksub, rotl_c, shl_c, shr_c.
  cbn [bind]. rewrite subw_count by assumption.
  replace (n <? w) with true by (symmetry; apply N.ltb_lt; lia).
  replace (w - n <? w) with true by (symmetry; apply N.ltb_lt; lia). reflexivity.
Qed.

Lemma klsh_addmix_ok w cv me l sc alpha beta gamma :
  w <= 64 -> 0 < alpha < w -> 0 < beta < w -> length cv = 16%nat -> length me = 16%nat -> (l < 8)%nat ->
  exists p, lsh_addmix Masked w cv me l sc alpha beta gamma = Ok p /\
    klsh_addmix Masked w (kl cv) (kl me) l (Ok sc) (Ok alpha) (Ok beta) (Ok gamma) = (Ok (fst p), Ok (snd p)).
Proof.
  intros Hw [A0 A1] [B0 B1] Hc Hm Hl. unfold lsh_addmix, klsh_addmix. cbv zeta.
  rewrite !kget_ok by lia. cbn [kxor kadd bind].
  rewrite krotl_ok by assumption. rewrite rotl_c_in_range by assumption. cbn [kxor kadd bind].
  rewrite krotl_ok by assumption. rewrite rotl_c_in_range by assumption. cbn [kxor kadd krotl_c bind].
  match goal with |- context [rotl_c Masked w ?x gamma] =>
    destruct (rotl_c_masked_ok w x gamma) as (z & ->); [lia|] end.
  eexists. split; reflexivity.
Qed.

Lemma fold_res_collect (A B : Type) (f : A -> res B) (g : A -> B) l acc :
  (forall x, In x l -> f x = Ok (g x)) ->
  fold_res (fun acc x => p <- f x ;; Ok (acc ++ [p])) l acc = Ok (acc ++ map g l).
Proof.
  revert acc. induction l as [|x l IH]; intros acc H; cbn [fold_res map].
  - now rewrite app_nil_r.
  - rewrite (H x (or_introl eq_refl)). cbn [bind]. rewrite IH by (intros; apply H; now right).
    now rewrite <- app_assoc.
Qed.

Lemma lsh_SC_rows w : w = 32 \/ w = 64 -> forall i l, (i < lsh_NS w)%nat -> (l < 8)%nat ->
  (i < length (if (w =? 32)%N then lsh_SC256 else lsh_SC512))%nat /\
  (l < length (nth i (if (w =? 32)%N then lsh_SC256 else lsh_SC512) []))%nat.
Proof.
  intros Hw i l Hi Hl.
  assert (E1 : (length (if (w =? 32)%N then lsh_SC256 else lsh_SC512) = lsh_NS w)%nat)
    by (destruct Hw as [-> | ->]; reflexivity).
  assert (E2 : forallb (fun r => (length r =? 8)%nat) (if (w =? 32)%N then lsh_SC256 else lsh_SC512) = true)
    by (destruct Hw as [-> | ->]; vm_compute; reflexivity).
  split; [lia|]. rewrite forallb_forall in E2.
  specialize (E2 (nth i (if (w =? 32)%N then lsh_SC256 else lsh_SC512) [])).
  rewrite Nat.eqb_eq in E2. rewrite E2; [exact Hl|]. apply nth_In. lia.
Qed.

Lemma klsh_step1_ok w me cv i alpha beta : w = 32 \/ w = 64 ->
  0 < alpha < w -> 0 < beta < w -> length cv = 16%nat -> (i < length me)%nat -> (i < lsh_NS w)%nat ->
  (forall r, In r me -> length r = 16%nat) ->
  exists cv' t, lsh_step1 Masked w me cv i alpha beta = Ok (cv', t) /\
    klsh_step1 Masked w (map kl me) (kl cv) i (Ok alpha) (Ok beta) = (kl cv', kl t) /\
    length cv' = 16%nat /\ length t = 16%nat.
Proof.
  intros Hw Ha Hb Hc Hi HN Hr. unfold lsh_step1, klsh_step1. cbv zeta.
  rewrite krow_ok by exact Hi.
  assert (Hm : length (nth i me []) = 16%nat) by (apply Hr, nth_In, Hi).
  set (m := nth i me []) in *. clearbody m.
  assert (W64 : w <= 64) by (destruct Hw as [-> | ->]; discriminate).
  set (g := fun l => match lsh_addmix Masked w cv m l (lsh_sc w i l) alpha beta (lsh_gamma w l) with
                     | Ok p => p | _ => (0, 0) end).
  assert (G : forall l, (l < 8)%nat ->
    lsh_addmix Masked w cv m l (lsh_sc w i l) alpha beta (lsh_gamma w l) = Ok (g l) /\
    klsh_addmix Masked w (kl cv) (kl m) l
      (ktab2 i l (if (w =? 32)%N then lsh_SC256 else lsh_SC512)) (Ok alpha) (Ok beta)
      (ktab l (if w =? 32 then lsh_G256 else lsh_G512)) = (Ok (fst (g l)), Ok (snd (g l)))).
  { intros l Hl. destruct (lsh_SC_rows w Hw i l HN Hl) as [R1 R2].
    rewrite ktab2_ok by assumption.
    rewrite ktab_ok by (destruct Hw as [-> | ->]; exact Hl).
    destruct (klsh_addmix_ok w cv m l (lsh_sc w i l) alpha beta (lsh_gamma w l) W64 Ha Hb Hc Hm Hl)
      as (p & E1 & E2).
    unfold g. rewrite E1. split; [reflexivity | exact E2]. }
  rewrite (fold_res_collect _ _ (fun l => lsh_addmix Masked w cv m l (lsh_sc w i l) alpha beta (lsh_gamma w l)) g)
    by (intros l Hl; apply in_seq in Hl; apply G; lia).
  cbn [bind app].
  assert (E : map (fun l => klsh_addmix Masked w (kl cv) (kl m) l
      (ktab2 i l (if (w =? 32)%N then lsh_SC256 else lsh_SC512)) (Ok alpha) (Ok beta)
      (ktab l (if w =? 32 then lsh_G256 else lsh_G512))) (seq 0 8)
    = map (fun l => (Ok (fst (g l)), Ok (snd (g l)))) (seq 0 8)).
  { apply map_ext_in. intros l Hl. apply in_seq in Hl. apply G. lia. }
  rewrite E. clear E G. clearbody g.
  do 2 eexists. split; [reflexivity|].
  split; [|split; [reflexivity | reflexivity]].
  reflexivity.
Qed.

(** Apart from the rotation by gamma, no shift of LSH is out of range. *)
Lemma klsh_block_ok w Z t data : w = 32 \/ w = 64 -> (32 <= length Z)%nat ->
  exists S', lsh_block Masked w Z t data = Ok S' /\ klsh_block Masked w (kl Z) data = kl S'.
Proof.
  intros Hw HZ. unfold klsh_block, lsh_block. cbv zeta.
  destruct (klsh_msgexpand_ok w data) as (-> & HL & HR).
  set (me := lsh_msgexpand w data) in *. clearbody me.
  assert (HN : (S (S (lsh_NS w - 1)) = 1 + lsh_NS w)%nat) by (destruct Hw as [-> | ->]; reflexivity).
  rewrite HN in HL.
  rewrite !ktab_ok by (destruct Hw as [-> | ->]; cbn; lia).
  fold (lsh_ab w 0) (lsh_ab w 1) (lsh_ab w 2) (lsh_ab w 3).
  rewrite kl_skipn, !kl_firstn.
  set (cv0 := firstn 16 Z). set (t0 := firstn 16 (skipn 16 Z)).
  assert (Hc0 : length cv0 = 16%nat) by (unfold cv0; rewrite firstn_length; lia).
  assert (Ht0 : length t0 = 16%nat) by (unfold t0; rewrite firstn_length, skipn_length; lia).
  clearbody cv0 t0.
  assert (F : forall l cv t, length cv = 16%nat -> length t = 16%nat -> (forall k, In k l -> 2 * k + 1 < lsh_NS w)%nat ->
    exists cv' t', length cv' = 16%nat /\ length t' = 16%nat /\
    fold_res (fun (ct : list N * list N) k =>
       ' (cv, _) <- lsh_step1 Masked w me (fst ct) (2 * k) (lsh_ab w 0) (lsh_ab w 1) ;;
       lsh_step1 Masked w me cv (2 * k + 1) (lsh_ab w 2) (lsh_ab w 3)) l (cv, t) = Ok (cv', t') /\
    fold_left (fun (ct : list K * list K) k =>
       let '(cv, _) := klsh_step1 Masked w (map kl me) (fst ct) (2 * k) (Ok (lsh_ab w 0)) (Ok (lsh_ab w 1)) in
       klsh_step1 Masked w (map kl me) cv (2 * k + 1) (Ok (lsh_ab w 2)) (Ok (lsh_ab w 3))) l (kl cv, kl t)
     = (kl cv', kl t')).
  { induction l as [|k l IH]; intros cv t1 Hc Ht Hk; cbn [fold_res fold_left].
    - exists cv, t1. auto.
    - specialize (Hk k (or_introl eq_refl)) as Hk0.
      destruct (klsh_step1_ok w me cv (2 * k) (lsh_ab w 0) (lsh_ab w 1)) as (cv1 & u1 & E1 & E2 & L1 & _);
        try assumption; try lia; try (apply lsh_ab_range; [exact Hw | lia]).
      destruct (klsh_step1_ok w me cv1 (2 * k + 1) (lsh_ab w 2) (lsh_ab w 3)) as (cv2 & u2 & E3 & E4 & L2 & L3);
        try assumption; try lia; try (apply lsh_ab_range; [exact Hw | lia]).
      cbn [fst]. rewrite E1, E2. cbn [bind]. rewrite E3, E4.
      apply IH; [exact L2 | exact L3 |]. intros k' Hk'. apply Hk. now right. }
  destruct (F (seq 0 (lsh_NS w / 2)) cv0 t0 Hc0 Ht0) as (cv & t1 & Lc & Lt & E1 & E2).
  { intros k Hk. apply in_seq in Hk. clear - Hw Hk.
    assert (lsh_NS w = 26 \/ lsh_NS w = 28)%nat as [E|E] by (destruct Hw as [-> | ->]; cbn; tauto);
      rewrite E in *; cbn in Hk; lia. }
  rewrite E1, E2. cbn [bind]. clear F E1 E2.
  eexists. split; [reflexivity|].
  rewrite krow_ok by lia.
  assert (Hm : length (nth (lsh_NS w) me []) = 16%nat) by (apply HR, nth_In; lia).
  rewrite (map_ok _ _ (fun i => N.lxor (nthN i cv) (nthN i (nth (lsh_NS w) me []))))
    by (intros i Hi; apply in_seq in Hi; rewrite !kget_ok by lia; reflexivity).
  assert (C : concat (map kl me) = kl (concat me)) by (unfold kl; now rewrite concat_map).
  now rewrite !kl_app, C.
Qed.
