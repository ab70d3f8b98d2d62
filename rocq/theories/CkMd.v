(** * Checked versions of the compression functions of MD5, SHA-1 and SHA-2.

    Each definition [k…] is the definition of the same name in Md5.v, Sha1.v, Sha2.v with the
    operations of Checked.v in place of the total ones; the lines of the code are those cited
    there. *)
From Verif Require Import Base Checked Lemmas MdState Md5 Sha1 Sha2 ConstMd5 ConstSha1 ConstSha2.

(** ** MD5 *)

(** md5_provider.hpp:21-43 *)
Definition kroundf (r : nat) (a b c d : K) (M : list K) : K :=
  kadd 32 b (krotl 32 (kadd 32 (kadd 32 (kadd 32 a
    (kxor d (kand b (kxor c d)))) (ktab r md5_K)) (kget r M)) (ktab r md5_S)).
Definition kroundg (r : nat) (a b c d : K) (M : list K) : K :=
  kadd 32 b (krotl 32 (kadd 32 (kadd 32 (kadd 32 a
    (kxor c (kand d (kxor b c)))) (ktab r md5_K)) (kget ((5 * r + 1) mod 16) M)) (ktab r md5_S)).
Definition kroundh (r : nat) (a b c d : K) (M : list K) : K :=
  kadd 32 b (krotl 32 (kadd 32 (kadd 32 (kadd 32 a
    (kxor (kxor b c) d)) (ktab r md5_K)) (kget ((3 * r + 5) mod 16) M)) (ktab r md5_S)).
Definition kroundi (r : nat) (a b c d : K) (M : list K) : K :=
  kadd 32 b (krotl 32 (kadd 32 (kadd 32 (kadd 32 a
    (kxor c (kor b (knot 32 d)))) (ktab r md5_K)) (kget ((7 * r) mod 16) M)) (ktab r md5_S)).

Definition kfour (f : nat -> K -> K -> K -> K -> list K -> K) (M : list K)
  (s : K * K * K * K) (r : nat) : K * K * K * K :=
  let '(a, b, c, d) := s in
  let a := f r a b c d M in
  let d := f (r + 1)%nat d a b c M in
  let c := f (r + 2)%nat c d a b M in
  let b := f (r + 3)%nat b c d a M in
  (a, b, c, d).

(** md5_provider.hpp:103-186 *)
Definition kmd5_block (H : list K) (data : list N) : list K :=
  let M := kl (le_words 4 16 data) in
  let s := (kget 0 H, kget 1 H, kget 2 H, kget 3 H) in
  let s := fold_left (kfour kroundf M) [0; 4; 8; 12]%nat s in
  let s := fold_left (kfour kroundg M) [16; 20; 24; 28]%nat s in
  let s := fold_left (kfour kroundh M) [32; 36; 40; 44]%nat s in
  let s := fold_left (kfour kroundi M) [48; 52; 56; 60]%nat s in
  let '(a, b, c, d) := s in
  [kadd 32 (kget 0 H) a; kadd 32 (kget 1 H) b; kadd 32 (kget 2 H) c; kadd 32 (kget 3 H) d].

Lemma md5_S_range r : (r < 64)%nat -> 0 < nthN r md5_S /\ nthN r md5_S < 32.
Proof.
  intros H.
  assert (E : forallb (fun r => (0 <? nthN r md5_S) && (nthN r md5_S <? 32)) (seq 0 64) = true)
    by (vm_compute; reflexivity).
  rewrite forallb_forall in E. specialize (E r). rewrite andb_true_iff, !N.ltb_lt in E.
  apply E, in_seq. lia.
Qed.

(** Rounds below [n] starting at [lo]. *)
Definition round_ok (lo : nat) (fk : nat -> K -> K -> K -> K -> list K -> K)
  (f : nat -> N -> N -> N -> N -> list N -> N) : Prop :=
  forall r a b c d M, (lo <= r < lo + 16)%nat -> length M = 16%nat ->
  fk r (Ok a) (Ok b) (Ok c) (Ok d) (kl M) = Ok (f r a b c d M).

Ltac md5_round :=
  intros r a b c d M Hr HM;
  assert (Hr' : (r < 64)%nat) by lia;
  destruct (md5_S_range r Hr') as [S0 S1];
  unfold kroundf, kroundg, kroundh, kroundi;
  rewrite (ktab_ok r md5_K) by exact Hr';
  rewrite (ktab_ok r md5_S) by exact Hr';
  rewrite kget_ok by (rewrite HM; first [lia | now apply Nat.mod_upper_bound]);
  cbn [kxor kand kor knot kadd bind];
  rewrite krotl_ok by (try assumption; discriminate);
  reflexivity.

Lemma kroundf_ok : round_ok 0 kroundf roundf. Proof. md5_round. Qed.
Lemma kroundg_ok : round_ok 16 kroundg roundg. Proof. md5_round. Qed.
Lemma kroundh_ok : round_ok 32 kroundh roundh. Proof. md5_round. Qed.
Lemma kroundi_ok : round_ok 48 kroundi roundi. Proof. md5_round. Qed.

Definition ok4 (s : N * N * N * N) : K * K * K * K :=
  let '(a, b, c, d) := s in (Ok a, Ok b, Ok c, Ok d).

Lemma kfour_ok lo fk f M s r : round_ok lo fk f -> length M = 16%nat -> (lo <= r <= lo + 12)%nat ->
  kfour fk (kl M) (ok4 s) r = ok4 (four f M s r).
Proof.
  intros Hf HM Hr. destruct s as [[[a b] c] d]. unfold kfour, four, ok4.
  rewrite !Hf by (assumption || lia). reflexivity.
Qed.

Lemma kfour_fold lo fk f M s : round_ok lo fk f -> length M = 16%nat ->
  fold_left (kfour fk (kl M)) [lo; lo + 4; lo + 8; lo + 12]%nat (ok4 s)
  = ok4 (fold_left (four f M) [lo; lo + 4; lo + 8; lo + 12]%nat s).
Proof.
  intros Hf HM. cbn [fold_left].
  rewrite !(kfour_ok lo fk f) by (assumption || lia). reflexivity.
Qed.

Lemma kmd5_block_ok H t data : length H = 4%nat -> kmd5_block (kl H) data = kl (md5_block H t data).
Proof.
  intros HH. unfold kmd5_block, md5_block.
  assert (HM : length (le_words 4 16 data) = 16%nat) by apply le_words_length.
  set (M := le_words 4 16 data) in *. clearbody M.
  rewrite !kget_ok by (rewrite HH; lia).
  change (Ok (nthN 0 H), Ok (nthN 1 H), Ok (nthN 2 H), Ok (nthN 3 H))
    with (ok4 (nthN 0 H, nthN 1 H, nthN 2 H, nthN 3 H)).
  rewrite (kfour_fold 0 _ _ M _ kroundf_ok HM), (kfour_fold 16 _ _ M _ kroundg_ok HM),
    (kfour_fold 32 _ _ M _ kroundh_ok HM), (kfour_fold 48 _ _ M _ kroundi_ok HM).
  cbn [Nat.add].
  match goal with |- context [ok4 ?s] => destruct s as [[[a b] c] d] end.
  reflexivity.
Qed.

(** ** SHA-1 *)

(** sha1_provider.hpp:21-34 *)
Definition ksha1_Ch (x y z : K) : K := kxor (kand x y) (kand (knot 32 x) z).
Definition ksha1_Parity (x y z : K) : K := kxor (kxor x y) z.
Definition ksha1_Maj (x y z : K) : K := kxor (kxor (kand x y) (kand x z)) (kand y z).

(** sha1_provider.hpp:107-108 *)
Fixpoint ksha1_expand (n : nat) (W : list K) : list K :=
  match n with
  | O => W
  | S n' =>
    let t := length W in
    ksha1_expand n' (W ++ [krotl 32 (kxor (kxor (kxor (kback t 3 W) (kback t 8 W))
                                  (kback t 14 W)) (kback t 16 W)) (Ok 1)])
  end.

(** sha1_provider.hpp:118-143 *)
Definition ksha1_iter (W : list K)
  (s : (K * K * K * K * K) * (K -> K -> K -> K) * K) (t : nat)
  : (K * K * K * K * K) * (K -> K -> K -> K) * K :=
  let '((a, b, c, d, e), f, k) := s in
  let T := kadd 32 (kadd 32 (kadd 32 (kadd 32 (krotl 32 a (Ok 5)) (f b c d)) e) k) (kget t W) in
  let s' := (T, a, krotl 32 b (Ok 30), c, d) in
  if (t =? 19)%nat then (s', ksha1_Parity, ktab 1 sha1_K)
  else if (t =? 39)%nat then (s', ksha1_Maj, ktab 2 sha1_K)
  else if (t =? 59)%nat then (s', ksha1_Parity, ktab 3 sha1_K)
  else (s', f, k).

(** sha1_provider.hpp:96-150 *)
Definition ksha1_block (H : list K) (data : list N) : list K :=
  let M := map kbyteswap32 (kl (le_words 4 16 data)) in
  let W := ksha1_expand 64 M in
  let s0 := ((kget 0 H, kget 1 H, kget 2 H, kget 3 H, kget 4 H), ksha1_Ch, ktab 0 sha1_K) in
  let '((a, b, c, d, e), _, _) := fold_left (ksha1_iter W) (seq 0 80) s0 in
  [kadd 32 (kget 0 H) a; kadd 32 (kget 1 H) b; kadd 32 (kget 2 H) c;
   kadd 32 (kget 3 H) d; kadd 32 (kget 4 H) e].

Lemma ksha1_expand_ok n W : (16 <= length W)%nat -> ksha1_expand n (kl W) = kl (sha1_expand n W).
Proof.
  revert W. induction n as [|n IH]; intros W HW; cbn [ksha1_expand sha1_expand]; [reflexivity|].
  rewrite kl_length, !kback_ok by lia.
  cbn [kxor bind]. rewrite krotl_ok by reflexivity || discriminate.
  rewrite <- IH by (rewrite app_length; cbn [length]; lia).
  now rewrite kl_app.
Qed.
Lemma sha1_expand_length n W : length (sha1_expand n W) = (length W + n)%nat.
Proof.
  revert W. induction n as [|n IH]; intros W; cbn [sha1_expand]; [lia|].
  rewrite IH, app_length. cbn [length]. lia.
Qed.

Definition ok5 (s : N * N * N * N * N) : K * K * K * K * K :=
  let '(a, b, c, d, e) := s in (Ok a, Ok b, Ok c, Ok d, Ok e).
(** The checked function that belongs to [f]. *)
Definition fun_ok (fk : K -> K -> K -> K) (f : N -> N -> N -> N) : Prop :=
  forall x y z, fk (Ok x) (Ok y) (Ok z) = Ok (f x y z).
Definition sha1_rel (sk : (K * K * K * K * K) * (K -> K -> K -> K) * K)
  (s : (N * N * N * N * N) * (N -> N -> N -> N) * N) : Prop :=
  fst (fst sk) = ok5 (fst (fst s)) /\ fun_ok (snd (fst sk)) (snd (fst s)) /\ snd sk = Ok (snd s).

Lemma fold_rel (A S T : Type) (R : T -> S -> Prop) (f : S -> A -> S) (fk : T -> A -> T) l sk s :
  (forall sk s i, In i l -> R sk s -> R (fk sk i) (f s i)) ->
  R sk s -> R (fold_left fk l sk) (fold_left f l s).
Proof.
  revert sk s. induction l as [|i l IH]; intros sk s Hf H; cbn [fold_left]; [exact H|].
  apply IH; [|now apply Hf; [left|]]. intros sk' s' j Hj. apply Hf. now right.
Qed.

Lemma ksha1_iter_ok W sk s t : (t < length W)%nat -> sha1_rel sk s ->
  sha1_rel (ksha1_iter (kl W) sk t) (sha1_iter W s t).
Proof.
  intros Ht. destruct sk as [[[[[[a' b'] c'] d'] e'] f'] k'], s as [[[[[[a b] c] d] e] f] k].
  intros (E1 & E2 & E3). cbn [fst snd] in E1, E2, E3. unfold ok5 in E1.
  injection E1 as -> -> -> -> ->. rewrite E3. unfold ksha1_iter, sha1_iter.
  rewrite kget_ok by exact Ht. pose proof (E2 b c d) as E4. cbv zeta. rewrite E4.
  rewrite !krotl_ok by reflexivity || discriminate.
  cbn [kadd bind].
  destruct (t =? 19)%nat; [|destruct (t =? 39)%nat; [|destruct (t =? 59)%nat]];
    (split; [reflexivity | split; [|reflexivity]]); cbn [fst snd];
    try exact E2; intros x y z; reflexivity.
Qed.

Lemma ksha1_block_ok H t data : length H = 5%nat -> ksha1_block (kl H) data = kl (sha1_block H t data).
Proof.
  intros HH. unfold ksha1_block, sha1_block.
  rewrite (map_kl kbyteswap32 byteswap32) by reflexivity.
  assert (HM : length (map byteswap32 (le_words 4 16 data)) = 16%nat)
    by (rewrite map_length; apply le_words_length).
  set (M := map byteswap32 (le_words 4 16 data)) in *. clearbody M.
  rewrite ksha1_expand_ok by lia.
  assert (HW : length (sha1_expand 64 M) = 80%nat) by (rewrite sha1_expand_length; lia).
  set (W := sha1_expand 64 M) in *. clearbody W.
  rewrite !kget_ok by (rewrite HH; lia).
  pose proof (fold_rel nat _ _ sha1_rel (sha1_iter W) (ksha1_iter (kl W)) (seq 0 80)
    (Ok (nthN 0 H), Ok (nthN 1 H), Ok (nthN 2 H), Ok (nthN 3 H), Ok (nthN 4 H), ksha1_Ch, ktab 0 sha1_K)
    (nthN 0 H, nthN 1 H, nthN 2 H, nthN 3 H, nthN 4 H, sha1_Ch, nthN 0 sha1_K)) as F.
  match type of F with _ -> ?P -> _ => assert (R0 : P) by (split; [reflexivity|split; [intros x y z|]; reflexivity]) end.
  specialize (F (fun sk s i Hi => ksha1_iter_ok W sk s i ltac:(apply in_seq in Hi; lia)) R0).
  revert F.
  generalize (fold_left (ksha1_iter (kl W)) (seq 0 80)
    (Ok (nthN 0 H), Ok (nthN 1 H), Ok (nthN 2 H), Ok (nthN 3 H), Ok (nthN 4 H), ksha1_Ch, ktab 0 sha1_K)).
  generalize (fold_left (sha1_iter W) (seq 0 80)
    (nthN 0 H, nthN 1 H, nthN 2 H, nthN 3 H, nthN 4 H, sha1_Ch, nthN 0 sha1_K)).
  intros [[[[[[a b] c] d] e] f] k] [[[[[[a' b'] c'] d'] e'] f'] k'] (E1 & _ & _).
  cbn [fst snd] in E1. unfold ok5 in E1. injection E1 as -> -> -> -> ->. reflexivity.
Qed.

(** ** SHA-2 *)

Definition ksha2_byteswap (T : sha2_word) : K -> K :=
  match T with W32 => kbyteswap32 | W64 => kbyteswap64 end.
(** sha2_provider.hpp:22-87 *)
Definition ksha2_Ch (w : N) (x y z : K) : K := kxor (kand x y) (kand (knot w x) z).
Definition ksha2_Maj (x y z : K) : K := kxor (kxor (kand x y) (kand x z)) (kand y z).
Definition kgetK (T : sha2_word) (t : nat) : K :=
  match T with W32 => ktab t sha256_K | W64 => ktab t sha512_K end.
Definition ksum0 (T : sha2_word) (x : K) : K :=
  match T with
  | W64 => kxor (kxor (krotr 64 x (Ok 28)) (krotr 64 x (Ok 34))) (krotr 64 x (Ok 39))
  | W32 => kxor (kxor (krotr 32 x (Ok 2)) (krotr 32 x (Ok 13))) (krotr 32 x (Ok 22))
  end.
Definition ksum1 (T : sha2_word) (x : K) : K :=
  match T with
  | W64 => kxor (kxor (krotr 64 x (Ok 14)) (krotr 64 x (Ok 18))) (krotr 64 x (Ok 41))
  | W32 => kxor (kxor (krotr 32 x (Ok 6)) (krotr 32 x (Ok 11))) (krotr 32 x (Ok 25))
  end.
Definition ksigma0 (T : sha2_word) (x : K) : K :=
  match T with
  | W64 => kxor (kxor (krotr 64 x (Ok 1)) (krotr 64 x (Ok 8))) (kshr 64 x (Ok 7))
  | W32 => kxor (kxor (krotr 32 x (Ok 7)) (krotr 32 x (Ok 18))) (kshr 32 x (Ok 3))
  end.
Definition ksigma1 (T : sha2_word) (x : K) : K :=
  match T with
  | W64 => kxor (kxor (krotr 64 x (Ok 19)) (krotr 64 x (Ok 61))) (kshr 64 x (Ok 6))
  | W32 => kxor (kxor (krotr 32 x (Ok 17)) (krotr 32 x (Ok 19))) (kshr 32 x (Ok 10))
  end.

(** sha2_provider.hpp:229-230 *)
Fixpoint ksha2_expand (T : sha2_word) (n : nat) (W : list K) : list K :=
  match n with
  | O => W
  | S n' =>
    let t := length W in
    let w := wbits T in
    ksha2_expand T n' (W ++ [kadd w (kadd w (kadd w (ksigma1 T (kback t 2 W)) (kback t 7 W))
                              (ksigma0 T (kback t 15 W))) (kback t 16 W)])
  end.

Definition ksha2_iter (T : sha2_word) (W : list K)
  (s : K * K * K * K * K * K * K * K) (t : nat) : K * K * K * K * K * K * K * K :=
  let '(a, b, c, d, e, f, g, h) := s in
  let w := wbits T in
  let T1 := kadd w (kadd w (kadd w (kadd w h (ksum1 T e)) (ksha2_Ch w e f g)) (kgetK T t)) (kget t W) in
  let T2 := kadd w (ksum0 T a) (ksha2_Maj a b c) in
  (kadd w T1 T2, a, b, c, kadd w d T1, e, f, g).

Definition ksha2_block (T : sha2_word) (H : list K) (data : list N) : list K :=
  let w := wbits T in
  let M := map (ksha2_byteswap T) (kl (le_words (wbytes T) 16 data)) in
  let W := ksha2_expand T (sha2_rounds T - 16) M in
  let s0 := (kget 0 H, kget 1 H, kget 2 H, kget 3 H, kget 4 H, kget 5 H, kget 6 H, kget 7 H) in
  let '(a, b, c, d, e, f, g, h) := fold_left (ksha2_iter T W) (seq 0 (sha2_rounds T)) s0 in
  [kadd w (kget 0 H) a; kadd w (kget 1 H) b; kadd w (kget 2 H) c; kadd w (kget 3 H) d;
   kadd w (kget 4 H) e; kadd w (kget 5 H) f; kadd w (kget 6 H) g; kadd w (kget 7 H) h].

Lemma ksum0_ok T x : ksum0 T (Ok x) = Ok (sum0 T x). Proof. destruct T; reflexivity. Qed.
Lemma ksum1_ok T x : ksum1 T (Ok x) = Ok (sum1 T x). Proof. destruct T; reflexivity. Qed.
Lemma ksigma0_ok T x : ksigma0 T (Ok x) = Ok (sigma0 T x). Proof. destruct T; reflexivity. Qed.
Lemma ksigma1_ok T x : ksigma1 T (Ok x) = Ok (sigma1 T x). Proof. destruct T; reflexivity. Qed.
Lemma kgetK_ok T t : (t < sha2_rounds T)%nat -> kgetK T t = Ok (getK T t).
Proof. destruct T; intros H; apply ktab_ok; exact H. Qed.

Lemma ksha2_expand_ok T n W : (16 <= length W)%nat -> ksha2_expand T n (kl W) = kl (sha2_expand T n W).
Proof.
  revert W. induction n as [|n IH]; intros W HW; cbn [ksha2_expand sha2_expand]; [reflexivity|].
  rewrite kl_length, !kback_ok, ksigma0_ok, ksigma1_ok by lia.
  cbn [kadd bind].
  rewrite <- IH by (rewrite app_length; cbn [length]; lia).
  now rewrite kl_app.
Qed.
Lemma sha2_expand_len T n W : length (sha2_expand T n W) = (length W + n)%nat.
Proof.
  revert W. induction n as [|n IH]; intros W; cbn [sha2_expand]; [lia|].
  rewrite IH, app_length. cbn [length]. lia.
Qed.

Definition ok8 (s : N * N * N * N * N * N * N * N) : K * K * K * K * K * K * K * K :=
  let '(a, b, c, d, e, f, g, h) := s in (Ok a, Ok b, Ok c, Ok d, Ok e, Ok f, Ok g, Ok h).

Lemma ksha2_iter_ok T W s t : (t < sha2_rounds T)%nat -> length W = sha2_rounds T ->
  ksha2_iter T (kl W) (ok8 s) t = ok8 (sha2_iter T W s t).
Proof.
  intros Ht HW. destruct s as [[[[[[[a b] c] d] e] f] g] h]. unfold ksha2_iter, sha2_iter, ok8.
  rewrite kget_ok by lia. rewrite kgetK_ok, ksum0_ok, ksum1_ok by assumption. reflexivity.
Qed.

Lemma ksha2_block_ok T H t data : length H = 8%nat -> ksha2_block T (kl H) data = kl (sha2_block T H t data).
Proof.
  intros HH. unfold ksha2_block, sha2_block.
  rewrite (map_kl (ksha2_byteswap T) (sha2_byteswap T)) by (destruct T; reflexivity).
  assert (HM : length (map (sha2_byteswap T) (le_words (wbytes T) 16 data)) = 16%nat)
    by (rewrite map_length; apply le_words_length).
  set (M := map (sha2_byteswap T) (le_words (wbytes T) 16 data)) in *. clearbody M.
  rewrite ksha2_expand_ok by lia.
  assert (HW : length (sha2_expand T (sha2_rounds T - 16) M) = sha2_rounds T)
    by (rewrite sha2_expand_len, HM; destruct T; reflexivity).
  set (W := sha2_expand T (sha2_rounds T - 16) M) in *. clearbody W.
  rewrite !kget_ok by (rewrite HH; lia).
  pose proof (fold_k nat _ _ (fun _ => True) ok8 (sha2_iter T W) (ksha2_iter T (kl W))
    (seq 0 (sha2_rounds T))
    (nthN 0 H, nthN 1 H, nthN 2 H, nthN 3 H, nthN 4 H, nthN 5 H, nthN 6 H, nthN 7 H)) as F.
  destruct F as [F _]; [|exact I|].
  - intros s i Hi _. split; [|exact I]. apply ksha2_iter_ok; [apply in_seq in Hi; lia | exact HW].
  - cbn [ok8] in F. rewrite F. clear F.
    match goal with |- context [ok8 ?s] => destruct s as [[[[[[[a b] c] d] e] f] g] h] end.
    reflexivity.
Qed.
