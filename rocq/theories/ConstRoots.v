(** * Tables that are digits of square and cube roots of primes *)
From Coq Require Import ZArith NArith List Lia Reals Lra Znumtheory FinFun.
From Verif Require Import Base RealConst Sha2Spec ConstSha1 ConstSha2 ConstBlake2 MdState Sha2 Blake.
Import ListNotations.
Local Open Scope R_scope.

(** ** Prime numbers *)
(** [p] is prime and exactly [i] primes are smaller. *)
Definition nth_prime (i : nat) (p : Z) : Prop :=
  prime p /\ exists l : list Z, NoDup l /\ length l = i /\ forall q, In q l <-> prime q /\ (q < p)%Z.

Lemma is_prime_ok n : is_prime n = true <-> prime (Z.of_N n).
Proof.
  unfold is_prime. rewrite Bool.andb_true_iff, N.leb_le, forallb_forall. rewrite <- prime_alt. unfold prime'. split.
  - intros [H1 H2]. split; [lia|]. intros m Hm Hd.
    assert (Hin : In (Z.to_nat m) (seq 2 (N.to_nat n - 2))) by (apply in_seq; lia).
    specialize (H2 _ Hin). apply Bool.negb_true_iff, N.eqb_neq in H2. apply H2.
    apply Z.mod_divide in Hd; [|lia]. apply N2Z.inj. rewrite N2Z.inj_mod.
    rewrite nat_N_Z, Z2Nat.id by lia. exact Hd.
  - intros [H1 H2]. split; [lia|]. intros d Hd. apply in_seq in Hd. apply Bool.negb_true_iff, N.eqb_neq. intros E.
    apply (H2 (Z.of_nat d)); [lia|]. apply Z.mod_divide; [lia|].
    rewrite <- nat_N_Z, <- N2Z.inj_mod, E. reflexivity.
Qed.

Lemma filter_prefix {A} (f : A -> bool) l1 l2 : filter f (l1 ++ l2) = filter f l1 ++ filter f l2.
Proof. induction l1 as [|a l IH]; cbn; [reflexivity|]. destruct (f a); cbn; rewrite IH; reflexivity. Qed.

(** Entry [i] of the list of the specification is prime number [i]. *)
Definition pcount (p : N) : nat := length (filter is_prime (map N.of_nat (seq 0 (N.to_nat p)))).
Lemma pcount_ok p : is_prime p = true -> nth_prime (pcount p) (Z.of_N p).
Proof.
  intros H. split; [apply is_prime_ok, H|].
  exists (map Z.of_N (filter is_prime (map N.of_nat (seq 0 (N.to_nat p))))). split; [|split].
  - apply Injective_map_NoDup; [intros a b; apply N2Z.inj|]. apply NoDup_filter.
    apply Injective_map_NoDup; [intros a b; apply Nat2N.inj|]. apply seq_NoDup.
  - rewrite map_length. reflexivity.
  - intros q. rewrite in_map_iff. split.
    + intros [x [<- Hx]]. apply filter_In in Hx. destruct Hx as [Hx Px]. split; [apply is_prime_ok, Px|].
      apply in_map_iff in Hx. destruct Hx as [y [<- Hy]]. apply in_seq in Hy. lia.
    + intros [Pq Hq]. assert (2 <= q)%Z by (apply prime_ge_2, Pq). exists (Z.to_N q). split; [lia|].
      apply filter_In. split.
      * apply in_map_iff. exists (Z.to_nat q). split; [lia|]. apply in_seq. lia.
      * apply is_prime_ok. rewrite Z2N.id by lia. exact Pq.
Qed.
Lemma filter_nth (f : N -> bool) n : forall a i, (i < length (filter f (map N.of_nat (seq a n))))%nat ->
  exists k, (k < n)%nat /\ nth i (filter f (map N.of_nat (seq a n))) 0%N = N.of_nat (a + k) /\ f (N.of_nat (a + k)) = true /\
    length (filter f (map N.of_nat (seq a k))) = i.
Proof.
  induction n as [|n IH]; intros a i Hi; cbn [seq map filter] in *; [cbn in Hi; lia|].
  destruct (f (N.of_nat a)) eqn:E.
  - destruct i as [|i].
    + exists 0%nat. rewrite Nat.add_0_r. cbn. auto using Nat.lt_0_succ.
    + cbn [length] in Hi. destruct (IH (S a) i ltac:(lia)) as (k & K1 & K2 & K3 & K4). exists (S k).
      replace (a + S k)%nat with (S a + k)%nat by lia. split; [lia|]. split; [exact K2|]. split; [exact K3|].
      cbn [seq map filter]. rewrite E. cbn [length]. rewrite K4. reflexivity.
  - destruct (IH (S a) i Hi) as (k & K1 & K2 & K3 & K4). exists (S k).
    replace (a + S k)%nat with (S a + k)%nat by lia. split; [lia|]. split; [exact K2|]. split; [exact K3|].
    cbn [seq map filter]. rewrite E. exact K4.
Qed.
Lemma primes_nth i : (i < 81)%nat -> nth_prime i (Z.of_N (nth i primes 0%N)).
Proof.
  intros Hi. assert (L : length primes = 81%nat) by reflexivity. rewrite <- L in Hi. clear L.
  revert Hi. rewrite primes_def. intros Hi. destruct (filter_nth is_prime 420 0 i Hi) as (k & _ & E & P & C).
  rewrite E, <- C. cbn [Nat.add] in P |- *. pose proof (pcount_ok _ P) as Q. unfold pcount in Q. rewrite Nat2N.id in Q. exact Q.
Qed.
Lemma nth_prime_unique i p q : nth_prime i p -> nth_prime i q -> p = q.
Proof.
  assert (W : forall p q, nth_prime i p -> nth_prime i q -> (p < q)%Z -> False).
  { clear. intros p q [Pp [l [Nl [Ll Hl]]]] [Pq [m [Nm [Lm Hm]]]] Hlt.
    assert (I : incl (p :: l) m).
    { intros x [<-|Hx]; apply Hm; [auto|]. apply Hl in Hx. split; [apply Hx|]. destruct Hx. lia. }
    assert (N : NoDup (p :: l)).
    { constructor; [|exact Nl]. intros Hin. apply Hl in Hin. lia. }
    pose proof (NoDup_incl_length N I). cbn [length] in H. lia. }
  intros Hp Hq. destruct (Z.lt_trichotomy p q) as [L|[E|L]]; [destruct (W p q Hp Hq L)|exact E|destruct (W q p Hq Hp L)].
Qed.

(** ** Roots *)
(** The positive real root: [x ^ k = n]. *)
Lemma root_digits (x : R) (k : nat) (n q : Z) (m : nat) : (0 < k)%nat -> 0 < x -> x ^ k = IZR n -> (0 <= q)%Z ->
  (q ^ Z.of_nat k <= n * 2 ^ Z.of_nat (k * m))%Z -> (n * 2 ^ Z.of_nat (k * m) < (q + 1) ^ Z.of_nat k)%Z ->
  IZR q <= x * 2 ^ m < IZR q + 1.
Proof.
  intros Hk Hx Hn Hq H1 H2.
  assert (T : 0 < 2 ^ m) by (apply pow_lt; lra).
  apply IZR_le in H1. apply IZR_lt in H2.
  rewrite mult_IZR, <- pow_IZR, <- pow_IZR in H1. rewrite mult_IZR, <- pow_IZR, <- pow_IZR, plus_IZR in H2.
  rewrite <- Hn in H1, H2. rewrite (Nat.mul_comm k m), pow_mult, <- Rpow_mult_distr in H1, H2.
  apply IZR_le in Hq.
  assert (Y : 0 < x * 2 ^ m) by (apply Rmult_lt_0_compat; assumption).
  split.
  - destruct (Rle_or_lt (IZR q) (x * 2 ^ m)) as [L|L]; [exact L|]. exfalso.
    assert ((x * 2 ^ m) ^ k < IZR q ^ k); [|lra].
    clear - Hk Y L. destruct k; [lia|]. clear Hk. induction k as [|k IH].
    + rewrite !pow_1. exact L.
    + change ((x * 2 ^ m) ^ S (S k)) with ((x * 2 ^ m) * (x * 2 ^ m) ^ S k). change (IZR q ^ S (S k)) with (IZR q * IZR q ^ S k).
      apply Rmult_le_0_lt_compat; try lra. apply pow_le. lra.
  - destruct (Rle_or_lt (IZR q + 1) (x * 2 ^ m)) as [L|L]; [|exact L]. exfalso.
    assert ((IZR q + 1) ^ k <= (x * 2 ^ m) ^ k); [|lra]. apply pow_incr. lra.
Qed.

Definition root_check (k m : nat) (n q : Z) : bool :=
  ((0 <=? q)%Z && (q ^ Z.of_nat k <=? n * 2 ^ Z.of_nat (k * m))%Z && (n * 2 ^ Z.of_nat (k * m) <? (q + 1) ^ Z.of_nat k)%Z)%bool.
Lemma root_check_ok x k m n q : (0 < k)%nat -> 0 < x -> x ^ k = IZR n -> root_check k m n q = true ->
  IZR q <= x * 2 ^ m < IZR q + 1.
Proof.
  unfold root_check. rewrite !Bool.andb_true_iff, Z.ltb_lt, !Z.leb_le. intros Hk Hx Hn [[C1 C2] C3].
  apply (root_digits x k n); assumption.
Qed.

(** Word [i] of [w] bits of the root, checked against the value [v]; [q] is supplied. *)
Definition rword_check (k w i : nat) (n q : Z) (v : N) : bool :=
  (root_check k (w * (i + 1)) n q && (Z.of_N v =? q mod 2 ^ Z.of_nat w)%Z)%bool.
Lemma rword_check_ok x k w i n q v : (0 < k)%nat -> 0 < x -> x ^ k = IZR n -> rword_check k w i n q v = true ->
  frac_word x w i v.
Proof.
  intros Hk Hx Hn H. unfold rword_check in H. apply Bool.andb_true_iff in H. destruct H as [H1 H2].
  exists q. split; [|apply Z.eqb_eq, H2]. apply (root_check_ok x k _ n); assumption.
Qed.

(** The integer part of the root of a small number. *)
Definition int_root (k : nat) (n : Z) : Z :=
  fold_left (fun a c => if (Z.of_nat c ^ Z.of_nat k <=? n)%Z then Z.of_nat c else a) (seq 0 24) 0%Z.
Definition first_word (k w : nat) (p : N) (v : N) : bool :=
  rword_check k w 0 (Z.of_N p) (int_root k (Z.of_N p) * 2 ^ Z.of_nat w + Z.of_N v) v.

Lemma sqrt_pow n : 0 <= n -> sqrt n ^ 2 = n.
Proof. intros H. rewrite <- Rsqr_pow2. apply Rsqr_sqrt, H. Qed.
Definition cbrtR (n : R) : R := Rpower n (/ 3).
Lemma cbrt_pow n : 0 < n -> cbrtR n ^ 3 = n.
Proof.
  intros H. unfold cbrtR. rewrite <- Rpower_pow by apply exp_pos. rewrite Rpower_mult.
  replace (/ 3 * INR 3) with 1 by (simpl; field). apply Rpower_1, H.
Qed.
Lemma cbrt_pos n : 0 < cbrtR n.
Proof. apply exp_pos. Qed.

Definition table_ok (k w off : nat) (l : list N) : bool :=
  forallb (fun i => first_word k w (nth (off + i) primes 0%N) (nth i l 0%N)) (seq 0 (length l)).
Lemma prime_pos_R i p : nth_prime i p -> 0 < IZR p.
Proof. intros [H _]. apply prime_ge_2 in H. apply IZR_lt. lia. Qed.
Lemma sqrt_table w off l : (off + length l <= 81)%nat -> table_ok 2 w off l = true ->
  forall i p, (i < length l)%nat -> nth_prime (off + i) p -> frac_word (sqrt (IZR p)) w 0 (nth i l 0%N).
Proof.
  intros Hl C i p Hi Hp. unfold table_ok in C. rewrite forallb_forall in C. specialize (C i ltac:(apply in_seq; lia)).
  pose proof (primes_nth (off + i) ltac:(lia)) as Hn. pose proof (nth_prime_unique _ _ _ Hn Hp) as E.
  unfold first_word in C. rewrite E in C. pose proof (prime_pos_R _ _ Hp).
  eapply (rword_check_ok _ 2); [lia|apply sqrt_lt_R0; assumption|apply sqrt_pow; lra|exact C].
Qed.
Lemma sqrt_table8 w off l : (off + 8 <= 81)%nat -> length l = 8%nat -> table_ok 2 w off l = true ->
  forall i p, (i < 8)%nat -> nth_prime (off + i) p -> frac_word (sqrt (IZR p)) w 0 (nth i l 0%N).
Proof. intros H L C i p Hi. apply sqrt_table; [lia|exact C|lia]. Qed.
Lemma cbrt_table w off l : (off + length l <= 81)%nat -> table_ok 3 w off l = true ->
  forall i p, (i < length l)%nat -> nth_prime (off + i) p -> frac_word (cbrtR (IZR p)) w 0 (nth i l 0%N).
Proof.
  intros Hl C i p Hi Hp. unfold table_ok in C. rewrite forallb_forall in C. specialize (C i ltac:(apply in_seq; lia)).
  pose proof (primes_nth (off + i) ltac:(lia)) as Hn. pose proof (nth_prime_unique _ _ _ Hn Hp) as E.
  unfold first_word in C. rewrite E in C. pose proof (prime_pos_R _ _ Hp).
  eapply (rword_check_ok _ 3); [lia|apply cbrt_pos|apply cbrt_pow; assumption|exact C].
Qed.

(** ** The tables *)
Lemma sha256_K_roots i p : (i < 64)%nat -> nth_prime i p -> frac_word (cbrtR (IZR p)) 32 0 (nth i sha256_K 0%N).
Proof. apply (cbrt_table 32 0 sha256_K); [cbn; lia|vm_compute; reflexivity]. Qed.
Lemma sha512_K_roots i p : (i < 80)%nat -> nth_prime i p -> frac_word (cbrtR (IZR p)) 64 0 (nth i sha512_K 0%N).
Proof. apply (cbrt_table 64 0 sha512_K); [cbn; lia|vm_compute; reflexivity]. Qed.

(** SHA-224: the second 32 bits of the square root; the whole 64 bits are those of SHA-384. *)
Definition second_word (k : nat) (p : N) (v64 : N) (v : N) : bool :=
  rword_check k 32 1 (Z.of_N p) (int_root k (Z.of_N p) * 2 ^ 64 + Z.of_N v64) v.
Definition iv384_l : list N :=
  [0xcbbb9d5dc1059ed8; 0x629a292a367cd507; 0x9159015a3070dd17; 0x152fecd8f70e5939;
   0x67332667ffc00b31; 0x8eb44a8768581511; 0xdb0c2e0d64f98fa7; 0x47b5481dbefa4fa4]%N.
Lemma second_table l : length l = 8%nat ->
  forallb (fun i => second_word 2 (nth (8 + i) primes 0%N) (nth i iv384_l 0%N) (nth i l 0%N)) (seq 0 8) = true ->
  forall i p, (i < 8)%nat -> nth_prime (8 + i) p -> frac_word (sqrt (IZR p)) 32 1 (nth i l 0%N).
Proof.
  intros Hl C i p Hi Hp. rewrite forallb_forall in C. specialize (C i ltac:(apply in_seq; lia)).
  pose proof (primes_nth (8 + i) ltac:(lia)) as Hn. pose proof (nth_prime_unique _ _ _ Hn Hp) as E.
  unfold second_word in C. rewrite E in C. pose proof (prime_pos_R _ _ Hp).
  eapply (rword_check_ok _ 2); [lia|apply sqrt_lt_R0; assumption|apply sqrt_pow; lra|exact C].
Qed.

(** Initial values, as assigned by the two [init] specializations. *)
Lemma sha256_iv_roots s i p : s2_hs s = 256%N -> (i < 8)%nat -> nth_prime i p ->
  exists s', sha256_init s = Ok s' /\ frac_word (sqrt (IZR p)) 32 0 (nth i (sh (s2 s')) 0%N).
Proof.
  intros E Hi Hp. unfold sha256_init. rewrite E. eexists. split; [reflexivity|]. cbn [s2 sh].
  revert i p Hi Hp. apply (sqrt_table8 32 0); [lia|reflexivity|vm_compute; reflexivity].
Qed.
Lemma sha224_iv_roots s i p : s2_hs s = 224%N -> (i < 8)%nat -> nth_prime (8 + i) p ->
  exists s', sha256_init s = Ok s' /\ frac_word (sqrt (IZR p)) 32 1 (nth i (sh (s2 s')) 0%N).
Proof.
  intros E Hi Hp. unfold sha256_init. rewrite E. eexists. split; [reflexivity|]. cbn [s2 sh].
  revert i p Hi Hp. apply second_table; [reflexivity|vm_compute; reflexivity].
Qed.
Lemma sha512_iv_roots s i p : s2_hs s = 512%N -> (i < 8)%nat -> nth_prime i p ->
  exists s', sha512_init s = Ok s' /\ frac_word (sqrt (IZR p)) 64 0 (nth i (sh (s2 s')) 0%N).
Proof.
  intros E Hi Hp. unfold sha512_init. rewrite E. eexists. split; [reflexivity|]. cbn [s2 sh].
  revert i p Hi Hp. apply (sqrt_table8 64 0); [lia|reflexivity|vm_compute; reflexivity].
Qed.
Lemma sha384_iv_roots s i p : s2_hs s = 384%N -> (i < 8)%nat -> nth_prime (8 + i) p ->
  exists s', sha512_init s = Ok s' /\ frac_word (sqrt (IZR p)) 64 0 (nth i (sh (s2 s')) 0%N).
Proof.
  intros E Hi Hp. unfold sha512_init. rewrite E. eexists. split; [reflexivity|]. cbn [s2 sh].
  revert i p Hi Hp. apply (sqrt_table8 64 8); [lia|reflexivity|vm_compute; reflexivity].
Qed.

(** BLAKE and BLAKE2 start from the SHA-2 values. *)
Lemma blake2_iv_roots i p : (i < 8)%nat -> nth_prime i p ->
  frac_word (sqrt (IZR p)) 64 0 (nth i blake2b_IV 0%N) /\ frac_word (sqrt (IZR p)) 32 0 (nth i blake2s_IV 0%N).
Proof.
  intros Hi Hp. split; revert i p Hi Hp.
  - apply (sqrt_table8 64 0); [lia|reflexivity|vm_compute; reflexivity].
  - apply (sqrt_table8 32 0); [lia|reflexivity|vm_compute; reflexivity].
Qed.
Lemma blake_iv_roots s i : (i < 8)%nat -> (length (sh (bls s)) = 12)%nat ->
  (blhs s = 512%N -> forall p, nth_prime i p ->
     exists s', bl_init s = Ok s' /\ frac_word (sqrt (IZR p)) 64 0 (nth i (sh (bls s')) 0%N)) /\
  (blhs s = 384%N -> forall p, nth_prime (8 + i) p ->
     exists s', bl_init s = Ok s' /\ frac_word (sqrt (IZR p)) 64 0 (nth i (sh (bls s')) 0%N)) /\
  (blhs s = 256%N -> forall p, nth_prime i p ->
     exists s', bl_init s = Ok s' /\ frac_word (sqrt (IZR p)) 32 0 (nth i (sh (bls s')) 0%N)) /\
  (blhs s = 224%N -> forall p, nth_prime (8 + i) p ->
     exists s', bl_init s = Ok s' /\ frac_word (sqrt (IZR p)) 32 1 (nth i (sh (bls s')) 0%N)).
Proof.
  intros Hi Hl.
  assert (A : forall iv, length iv = 8%nat -> nth i (iv ++ skipn 8 (sh (bls s))) 0%N = nth i iv 0%N) by (intros; apply app_nth1; lia).
  repeat split; intros E p Hp; unfold bl_init; rewrite E; (eexists; split; [reflexivity|]); cbn [bls sh]; unfold bl_iv; cbn [N.eqb Pos.eqb];
    rewrite A by reflexivity; revert i p Hi Hp A.
  - intros i p Hi Hp _. revert i p Hi Hp. apply (sqrt_table8 64 0); [lia|reflexivity|vm_compute; reflexivity].
  - intros i p Hi Hp _. revert i p Hi Hp. apply (sqrt_table8 64 8); [lia|reflexivity|vm_compute; reflexivity].
  - intros i p Hi Hp _. revert i p Hi Hp. apply (sqrt_table8 32 0); [lia|reflexivity|vm_compute; reflexivity].
  - intros i p Hi Hp _. revert i p Hi Hp. apply second_table; [reflexivity|vm_compute; reflexivity].
Qed.

(** SHA-1: [floor (2^30 sqrt n)] for n = 2, 3, 5, 10. *)
Lemma sha1_K_roots i : (i < 4)%nat ->
  IZR (Z.of_N (nth i sha1_K 0%N)) <= sqrt (IZR (nth i [2; 3; 5; 10]%Z 0%Z)) * 2 ^ 30 < IZR (Z.of_N (nth i sha1_K 0%N)) + 1.
Proof.
  intros Hi.
  assert (C : forallb (fun i => root_check 2 30 (nth i [2; 3; 5; 10]%Z 0%Z) (Z.of_N (nth i sha1_K 0%N))) (seq 0 4) = true) by (vm_compute; reflexivity).
  rewrite forallb_forall in C. specialize (C i ltac:(apply in_seq; lia)).
  assert (P : 0 < IZR (nth i [2; 3; 5; 10]%Z 0%Z)).
  { apply IZR_lt. do 4 (destruct i; [reflexivity|]). lia. }
  eapply (root_check_ok _ 2); [lia|apply sqrt_lt_R0, P|apply sqrt_pow; lra|exact C].
Qed.
