(** * From which addresses the block functions read words.

    Most transforms cast the pointer they get to [uint32_t*] or [uint64_t*]. This file
    models those pointers: addresses are natural numbers. *)
From Verif Require Import Base Absorb.
Local Open Scope nat_scope.

(** Where the argument of [transform] points to: the buffer [m] of the provider, or the
    caller's data, [off] bytes from its start.
    The callers of [transform] at absorb_data.hpp:22 and 32. *)
Inductive src := Buf | Data (off : nat).

(** absorb_data.hpp:17-38: the calls of [transform(pointer, blocks)] of one [absorb_bytes]
    with [len] bytes, and the new [pos]. *)
Definition absorb_srcs (bs bschk pos len : nat) : list (src * nat) * nat :=
  let '(l1, off, len, pos) :=
    if negb (pos =? 0) && (bschk <=? pos + len)
    then ([(Buf, 1)], bs - pos, len - (bs - pos), 0)
    else ([], 0, len, pos) in
  let '(l2, len) :=
    if bschk <=? len then
      let blocks := (len + bs - bschk) / bs in ([(Data off, blocks)], len - blocks * bs)
    else ([], len) in
  (l1 ++ l2, pos + len).

(** The address, when [m] is at [am] and the data at [a]. Used in proofs; no code of /repo. *)
Definition address (am a : nat) (s : src) : nat :=
  match s with Buf => am | Data off => a + off end.

(** A sequence of [update(data, len)], given by the addresses and lengths of the data.
    absorb_data.hpp:17-38, once per call. *)
Fixpoint pointers (bs bschk am pos : nat) (calls : list (nat * nat)) : list (nat * nat) :=
  match calls with
  | [] => []
  | (a, len) :: r =>
      let '(l, pos') := absorb_srcs bs bschk pos len in
      map (fun sn => (address am a (fst sn), snd sn)) l ++ pointers bs bschk am pos' r
  end.

(** The words of [w] bytes which [transform(p, n)] reads: md5_provider.hpp:105-107,
    sha1_provider.hpp:102, sha2_provider.hpp:223, sha3_provider.hpp:112,
    blake_provider.hpp:85, blake2_provider.hpp:323, esch_provider.hpp:183,
    ascon_provider.hpp:145, groestl_provider.hpp:193-195, kupyna_provider.hpp:187-189,
    jh_provider.hpp:178-187, skein_provider.hpp:326, sm3_provider.hpp:115,
    streebog_provider.hpp:66-89, whirlpool_provider.hpp:97. *)
Definition word_reads (w bs : nat) (pn : nat * nat) : list nat :=
  flat_map (fun blk => map (fun i => fst pn + blk * bs + w * i) (seq 0 (bs / w))) (seq 0 (snd pn)).
(** absorb_data.hpp:17-38 and the casts cited at [readers]. *)
Definition reads (w bs bschk am pos : nat) (calls : list (nat * nat)) : list nat :=
  flat_map (word_reads w bs) (pointers bs bschk am pos calls).

(** k12m14_provider.hpp:95-119: [transform(p, n)] passes each chunk of [cs] = 8192 bytes to a
    shake_provider which has absorbed nothing ([main] for the first chunk, [child] for the
    others, whose buffers are at [abuf blk]). Other data that [main] absorbs is shorter than a
    block and so copied. *)
Definition k12_word_reads (cs rate : nat) (abuf : nat -> nat) (pn : nat * nat) : list nat :=
  flat_map (fun blk => reads 8 rate rate (abuf blk) 0 [(fst pn + blk * cs, cs)]) (seq 0 (snd pn)).
(** k12m14_provider.hpp:95-120. *)
Definition k12_reads (cs rate : nat) (abuf : nat -> nat) (am pos : nat) (calls : list (nat * nat)) : list nat :=
  flat_map (k12_word_reads cs rate abuf) (pointers cs (cs + 1) am pos calls).

(** The providers that read words through cast pointers: block size, 1 if the last full block
    is kept back (the argument [bschk] of absorb_bytes is larger than [bs]), word size.
    The lines are beside the entries: md5_provider.hpp:73 and so on. *)
Definition readers : list (nat * nat * nat) :=
  [ (64, 0, 4);   (* md5_provider.hpp:73, sha1_provider.hpp:64, sm3_provider.hpp:76,
                     sha2_provider.hpp:185 and blake_provider.hpp:226 with 32-bit words *)
    (128, 0, 8);  (* sha2_provider.hpp:185 and blake_provider.hpp:226 with 64-bit words,
                     groestl_provider.hpp:139 and kupyna_provider.hpp:137 above 256 bits *)
    (64, 0, 8);   (* whirlpool_provider.hpp:58, jh_provider.hpp:138, streebog_provider.hpp:137,
                     groestl and kupyna up to 256 bits *)
    (144, 0, 8); (136, 0, 8); (104, 0, 8); (72, 0, 8); (* sha3_provider.hpp:157, shake_provider.hpp:115 *)
    (168, 0, 8);  (* shake_provider.hpp:115 *)
    (8, 0, 8);    (* ascon_provider.hpp:87 *)
    (16, 1, 4);   (* esch_provider.hpp:120 *)
    (64, 1, 4); (128, 1, 8); (* blake2_provider.hpp:202 *)
    (32, 1, 8); (64, 1, 8)   (* skein_provider.hpp:249; its third block size is (128, 1, 8) *) ].
