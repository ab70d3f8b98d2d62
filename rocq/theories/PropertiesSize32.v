(** * C67: the width of size_t.

    [counts T u] are the types of the library whose counter of bits reaches the output; [u W] is
    their update() with a size_t of [W] bits and [type_with T (u W)] the type over it. *)
From Verif Require Import Base Absorb Hasher MdState Library LibraryTypes Md5 Sha2 Blake Blake2 Exact Size32 Size32Proof
  Shake Kmac Ascon Size32Str Size32StrProof.
From Coq Require Import NArith.

(** C67: every sequence of calls, each handing over less than 2^(W-3) bytes at once (no bound for
    streams and iterators), has the same results as with 64 bits. Missing for C67: longer
    arguments, see C67_refuted. *)
Theorem C67_calls_partial P (T : htype P) u : counts T u -> forall W, 20 <= W -> forall g pre post,
  Forall (short_call W) pre -> Forall (short_call W) post ->
  after (type_with T (u W)) g pre post = after T g pre post.
Proof. exact (fun H W HW => width_short W HW T u H). Qed.
(** A single update() of at most that length, in every state. *)
Theorem C67_update_partial P (T : htype P) u : counts T u -> forall W, 20 <= W -> forall s d,
  8 * N.of_nat (length d) < 2 ^ W -> u W s d = p_update P s d.
Proof. exact (fun H W HW s d L => counts_short W HW T u H s d (length_bits d W L)). Qed.
(** With 64 bits absorb_bytes is the one of Absorb.v, for all arguments. *)
Theorem C67_64 C (tf : C -> list N -> N -> list N -> nat -> res (C * list N)) bs bschk data c m pos total :
  absorb_bytes_sz 64 tf bs bschk data c m pos total = absorb_bytes tf bs bschk data c m pos total.
Proof. exact (absorb_sz_64 tf tf bs bschk data c m pos total (fun _ _ _ _ _ => eq_refl)). Qed.

(** In general the hash value, the buffer and its position do not depend on the width, and the
    counter is behind by 2^W bits for every 2^W bits processed in place in one call. *)
Theorem C67_counter C W (tf : C -> list N -> N -> list N -> nat -> res (C * list N)) bs bschk data c m pos total :
  N.of_nat (bs * 8) < 2 ^ W -> total < 2 ^ 64 ->
  match absorb_bytes_sz W tf bs bschk data c m pos total, absorb_bytes tf bs bschk data c m pos total with
  | Ok (c1, m1, p1, t1), Ok (c2, m2, p2, t2) =>
    c1 = c2 /\ m1 = m2 /\ p1 = p2 /\
    t2 = (t1 + 2 ^ W * (8 * N.of_nat (in_place bs bschk pos (length data)) / 2 ^ W)) mod 2 ^ 64
  | Throw, Throw => True
  | UB a, UB b => a = b
  | _, _ => False
  end.
Proof. exact (absorb_sz_counter_mod W tf bs bschk data c m pos total). Qed.
(** 512 MB given to MD5 in one call with a size_t of 32 bits are not counted. *)
Theorem C67_md5_512MB s d : spos s = 0%nat -> stotal s < 2 ^ 64 -> N.of_nat (length d) = 2 ^ 29 ->
  exists h, md5_update_sz 32 s d = Ok (mkst h (sm s) 0 (stotal s)) /\
            md5_update s d = Ok (mkst h (sm s) 0 ((stotal s + 2 ^ 32) mod 2 ^ 64)).
Proof. exact (md5_counter_32_mod s d). Qed.

(** The types that encode the lengths of strings: the same results in all histories whose setters
    get strings of less than 2^(W-3) bytes. *)
Theorem C67_cshake_partial W B (g : shake_mem) (pre post : list (xof_op cshake_param)) : 16 <= W <= 64 ->
  Forall (xshort_set W) pre -> Forall (xshort_set W) post ->
  xafter (cshake_type_sz W B) g pre post = xafter (cshake_type B) g pre post.
Proof. exact (fun HW => cshake_short W HW B g pre post). Qed.
Theorem C67_kmac_partial W B hs (g : kmac_mem) (pre post : list (hash_op kmac_param)) : 16 <= W <= 64 -> hs < 2 ^ W ->
  Forall (hshort_set W) pre -> Forall (hshort_set W) post ->
  after (kmac_type_sz W B hs) g pre post = after (kmac_type B hs) g pre post /\
  after (kmac_static_type_sz W B hs) g pre post = after (kmac_static_type B hs) g pre post.
Proof. exact (fun HW => kmac_short W HW B hs g pre post). Qed.
Theorem C67_kmacxof_partial W B (g : kmac_mem) (pre post : list (xof_op kmac_param)) : 16 <= W <= 64 ->
  Forall (xshort_set W) pre -> Forall (xshort_set W) post ->
  xafter (kmacxof_type_sz W B) g pre post = xafter (kmacxof_type B) g pre post.
Proof. exact (fun HW => kmacxof_short W HW B g pre post). Qed.
Theorem C67_ascon_cxof_partial W (g : st) (pre post : list (xof_op ascon_param)) : 16 <= W <= 64 ->
  Forall (xshort_set W) pre -> Forall (xshort_set W) post ->
  xafter (ascon_cxof_type_sz W) g pre post = xafter ascon_cxof_type g pre post.
Proof. exact (fun HW => ascon_short W HW g pre post). Qed.
(** A longer key of KMAC: with 32 bits a key of 512 MB is encoded with the length of the empty key. *)
Theorem C67_kmac_512MB B v : N.of_nat (length v) = 2 ^ 29 ->
  exists pad, kmac_bytepad_sz 32 B v = left_encode (if B =? 128 then 168 else 136) ++ left_encode 0 ++ v ++ zeros pad.
Proof. exact (bytepad_512MB B v). Qed.
(** So the string that KMAC absorbs for its key depends on the width; here 16 bits, 8192 bytes. *)
Theorem C67_kmac_refuted : ~ forall W B v, 16 <= W <= 64 -> kmac_bytepad_sz W B v = kmac_bytepad B v.
Proof. exact bytepad_width_refuted. Qed.

(** The claim is false of longer arguments: with 16 bits (8192 bytes in one call) by computation. *)
Definition c67_mem : st := mkst [] (repeat 0xA5 64) 7 99.
Definition c67_data (n : N) : list N := repeat 0x61 (N.to_nat n).
Definition c67_one : list (hash_op Empty_set) := [HBase (Absorb FPtr (c67_data 8192)); HHexDigest].
Theorem C67_refuted :
  ~ forall W g ops, 16 <= W -> after (type_with md5_type (md5_update_sz W)) g [] ops = after md5_type g [] ops.
Proof.
  intros H. specialize (H 16 c67_mem c67_one (N.le_refl 16)). revert H. vm_compute. discriminate.
Qed.

(** Examples: calls that meet the hypotheses, and what they give with 32 bits. *)
Example C67_example_counts : counts sha256_type (fun W => sha2_update_sz W W32).
Proof. exact ct_sha256. Qed.
Definition c67_ops : list (hash_op Empty_set) :=
  [HBase (Absorb FPtr (c67_data 100)); HBase (Absorb FIter [97; 98; 99]); HHexDigest; HBase (Reset true);
   HBase (Absorb FStr [97; 98; 99]); HHexDigest].
Example C67_example_short : Forall (short_call 32) c67_ops.
Proof. repeat (apply Forall_cons; [vm_compute; constructor|]). apply Forall_nil. Qed.
Definition c67_abc := Eval vm_compute in
  match after (type_with sha256_type (sha2_update_sz 32 W32)) c67_mem [] c67_ops with
  | Ok l => match last l ODone with OBytes a => firstn 8 a | _ => [] end
  | _ => []
  end.
(** "ba7816bf" *)
Example C67_example_abc : c67_abc = [98; 97; 55; 56; 49; 54; 98; 102].
Proof. reflexivity. Qed.
(** 130 bytes with 10 in a buffer of 64: 54 fill the buffer, one block of 64 in place, 12 remain;
    BLAKE2b keeps a full block in the buffer. *)
Example C67_example_in_place : in_place 64 64 10 130 = 64%nat /\ in_place 128 129 0 256 = 128%nat.
Proof. split; reflexivity. Qed.
Example C67_example_512MB : exists (d : list N) s, spos s = 0%nat /\ stotal s < 2 ^ 64 /\ N.of_nat (length d) = 2 ^ 29.
Proof. exists (repeat 0 (N.to_nat (2 ^ 29))), (mkst [1; 2; 3; 4] (zeros 64) 0 0). split; [reflexivity|]. split; [reflexivity|]. rewrite repeat_length. apply N2Nat.id. Qed.

Example C67_example_strings : 16 <= 32 <= 64 /\ 256 < 2 ^ 32 /\
  Forall (hshort_set 32) [HBase (SetParam KmKey (c67_data 100)); HBase (SetParam KmCustomization []); HBase (Absorb FPtr [1]); HHexDigest] /\
  Forall (xshort_set 32) [XBase (SetParam CsName (c67_data 100)); XBase (Reset true); XHexSqueeze 5; XSqueezeBuf 0] /\
  ~ Forall (hshort_set 16) [HBase (SetParam KmKey (c67_data 8192))].
Proof.
  split; [split; discriminate|]. split; [reflexivity|].
  split; [repeat (apply Forall_cons; [vm_compute; constructor|]); apply Forall_nil|].
  split; [repeat (apply Forall_cons; [vm_compute; constructor|]); apply Forall_nil|].
  intros H. inversion H as [|? ? H1 _]. revert H1. vm_compute. discriminate.
Qed.

Definition C67_all := (C67_calls_partial, C67_update_partial, C67_64, C67_counter, C67_md5_512MB, C67_refuted,
  C67_example_counts, C67_example_short, C67_example_abc, C67_example_in_place, C67_example_512MB,
  C67_cshake_partial, C67_kmac_partial, C67_kmacxof_partial, C67_ascon_cxof_partial, C67_kmac_512MB, C67_kmac_refuted,
  C67_example_strings).
Print Assumptions C67_all.
