(** * C61: aligned word access. *)
From Verif Require Import Base Absorb Align AlignSpec AlignProof.
From Coq Require Import Lia.
Local Open Scope nat_scope.

(** C61 is false: after one byte, data at an aligned address is read from an address that is
    not a multiple of the word size, in each of these providers. *)
Theorem C61_refuted : forall bs extra w am a b, In (bs, extra, w) readers ->
  aligned w am -> aligned w a -> aligned w b ->
  ~ Forall (aligned w) (reads w bs (bs + extra) am 0 [(a, 1); (b, 2 * bs)]).
Proof. exact provider_misaligned. Qed.

(** C61: exactly when all reads are aligned: in each call whose data contains a whole block
    (counted from the start of the message), the address of the data and the number of bytes
    absorbed before must be the same modulo the word size. [pos] is the number of bytes in the
    buffer before the first call. *)
Theorem C61_aligned_iff_partial : forall bs extra w am pos calls, In (bs, extra, w) readers ->
  aligned w am -> pos < bs + extra ->
  (Forall (aligned w) (reads w bs (bs + extra) am pos calls) <-> in_step w bs extra pos calls).
Proof. exact provider_aligned. Qed.

(** C61: the same for every block size that is a multiple of the word size. *)
Theorem C61_any_size_partial : forall w bs extra am pos calls,
  0 < w -> 0 < bs -> extra <= 1 -> Nat.divide w bs -> aligned w am -> pos < bs + extra ->
  (Forall (aligned w) (reads w bs (bs + extra) am pos calls) <-> in_step w bs extra pos calls).
Proof. exact reads_aligned. Qed.

(** C61: so aligned data in multiples of words is safe; the last call may have any length. *)
Theorem C61_multiples_partial : forall bs extra w am calls last, In (bs, extra, w) readers -> aligned w am ->
  Forall (fun c => aligned w (fst c) /\ Nat.divide w (snd c)) calls -> aligned w (fst last) ->
  Forall (aligned w) (reads w bs (bs + extra) am 0 (calls ++ [last])).
Proof. exact provider_multiples. Qed.

(** C61: KangarooTwelve, MarsupilamiFourteen and KT256; [cs] is 8192, [rate] 168 or 136. *)
Theorem C61_k12_partial : forall cs rate abuf am pos calls,
  Nat.divide 8 cs -> 0 < rate -> rate <= cs -> Nat.divide 8 rate ->
  aligned 8 am -> (forall i, aligned 8 (abuf i)) -> pos <= cs ->
  (Forall (aligned 8) (k12_reads cs rate abuf am pos calls) <-> in_step 8 cs 1 pos calls).
Proof. exact k12_reads_aligned. Qed.

(** C61: the leaves of blake2bp/sp get their data block by block (blake2p_provider.hpp:168) and
    so read from their own buffer only, whatever the address of the data. *)
Theorem C61_blake2p : forall bs am calls pos, 0 < bs -> pos <= bs -> Forall (fun c => snd c <= bs) calls ->
  Forall (fun pn => pn = (am, 1)) (pointers bs (bs + 1) am pos calls).
Proof. exact small_calls. Qed.

(** The pointers are those with which the model of absorb_bytes calls its transform: the bytes
    at them are the arguments, in the same order. *)
Theorem C61_model : forall bs extra data c m pos total, 0 < bs -> extra <= 1 ->
  pos < bs + extra -> bs <= length m ->
  exists m' total', absorb_bytes logger bs (bs + extra) data c m pos total =
    Ok (c ++ map (content bs (firstn pos m) data) (fst (absorb_srcs bs (bs + extra) pos (length data))),
        m', snd (absorb_srcs bs (bs + extra) pos (length data)), total').
Proof. exact absorb_logged. Qed.

(** MD5: 1 byte, then 128 bytes at the address 400. *)
Example misaligned_md5 : map (fun p => p mod 4) (reads 4 64 64 200 0 [(300, 1); (400, 128)])
  = repeat 0 16 ++ repeat 3 16.
Proof. reflexivity. Qed.
(** The same data at the address 401. *)
Example in_step_md5 : Forall (aligned 4) (reads 4 64 64 200 0 [(300, 1); (401, 128)]).
Proof.
  apply (provider_aligned 64 0 4); [left; reflexivity|exists 50; reflexivity|repeat constructor|].
  rewrite !in_step_cons. split; [|split].
  - intros (k & _ & K). lia.
  - intros _. reflexivity.
  - intros [|]; discriminate.
Qed.
(** BLAKE2b keeps the last block back: two blocks, of which one is read directly. *)
Example pointers_blake2b : pointers 128 129 200 5 [(300, 400)] = [(200, 1); (423, 2)].
Proof. reflexivity. Qed.
Example leaf_blake2bp : pointers 128 129 200 0 [(333, 128); (845, 128); (1357, 17)] = [(200, 1); (200, 1)].
Proof. reflexivity. Qed.
Example log_md5 : forall data, length data = 130 ->
  exists m' t', absorb_bytes logger 64 64 data [] (repeat 7%N 64) 3 0%N =
    Ok ([(firstn 3 (repeat 7%N 64) ++ firstn 61 data, 1); (firstn 64 (skipn 61 data), 1)], m', 5, t').
Proof.
  intros data H. destruct (absorb_logged 64 0 data [] (repeat 7%N 64) 3 0%N) as (m' & t' & E);
    [repeat constructor|repeat constructor|repeat constructor|rewrite repeat_length; repeat constructor|].
  exists m', t'. rewrite H in E. exact E.
Qed.

(** KangarooTwelve with one chunk and a byte, at an odd address. *)
Example k12_misaligned : ~ Forall (aligned 8)
  (k12_reads (N.to_nat 8192) 168 (fun _ => 0) 0 0 [(1, N.to_nat 8193)]).
Proof.
  rewrite k12_reads_aligned; [|exists (N.to_nat 1024); lia|lia|lia|exists 21; reflexivity|exists 0; reflexivity
    |intros _; exists 0; reflexivity|lia].
  rewrite in_step_cons. intros [H _]. assert (E : 1 mod 8 = 0 mod 8) by (apply H; exists 0; lia). discriminate E.
Qed.

Definition C61_all := (@C61_refuted, @C61_aligned_iff_partial, @C61_any_size_partial, @C61_multiples_partial,
  @C61_k12_partial, @C61_blake2p, @C61_model).
Print Assumptions C61_all.
