(** * C74: the calls of transform. *)
From Verif Require Import Base Absorb MdState Md5 Blake Blake2 Blocks BlocksProof.
Local Open Scope nat_scope.

(** absorb_bytes on an empty buffer, for any pieces: the calls cover the full blocks of the message,
    each once and in order, with the number of bits before each block as the counter; the rest is in
    the buffer. [lazy]: the caller passes [bschk = bs + 1] to keep a last full block back. *)
Theorem C74_blocks bs cap lazy (pieces : list (list N)) (m : list N) : 0 < bs -> bs <= cap -> length m = cap ->
  let msg := concat pieces in
  let n := full_blocks lazy bs (length msg) in
  exists calls m' pos',
    absorbs recorder bs (if lazy then bs + 1 else bs) pieces [] m 0 0%N = Ok (calls, m', pos', ((8 * N.of_nat (n * bs)) mod 2 ^ 64)%N) /\
    covered bs calls = counted bs 0 msg n /\
    firstn pos' m' = skipn (n * bs) msg /\ pos' = length msg - n * bs /\ pos' <= bs.
Proof. intros Hb Hc Hm. exact (absorbs_blocks bs cap lazy Hb Hc pieces m Hm). Qed.
(** From any state: at most two calls per piece, each of one or more whole blocks. Any other transform
    that leaves the buffer alone is given the same calls in the same order, up to the first that does
    not return; position, buffer and counter are the same. *)
Theorem C74_calls {C} (f : C -> call -> res C) bs bschk pieces l m pos total l' m' pos' total' :
  0 < bs -> bs <= bschk -> (total < 2 ^ 64)%N ->
  absorbs recorder bs bschk pieces l m pos total = Ok (l', m', pos', total') ->
  exists new, l' = l ++ new /\ length new <= 2 * length pieces /\
    Forall (fun '(t, d, n) => 0 < n /\ length d = n * bs /\ (t < 2 ^ 64)%N) new /\
    forall c, absorbs (quiet f) bs bschk pieces c m pos total = (c' <- fold_res f new c ;; Ok (c', m', pos', total')).
Proof. intros Hb Hk Ht. exact (absorbs_calls f bs bschk pieces Hb Hk l m pos total l' m' pos' total' Ht). Qed.
(** So the blocks do not depend on how the message is cut. *)
Theorem C74_cut bs cap (lazy : bool) (p1 p2 : list (list N)) (m1 m2 : list N) : 0 < bs -> bs <= cap -> length m1 = cap -> length m2 = cap -> concat p1 = concat p2 ->
  let chk := if lazy then bs + 1 else bs in
  exists c1 c2 x1 x2 pos total, absorbs recorder bs chk p1 [] m1 0 0%N = Ok (c1, x1, pos, total) /\
    absorbs recorder bs chk p2 [] m2 0 0%N = Ok (c2, x2, pos, total) /\
    covered bs c1 = covered bs c2 /\ firstn pos x1 = firstn pos x2.
Proof. intros Hb Hc H1 H2 E. exact (absorbs_cut bs cap lazy Hb Hc p1 p2 m1 m2 H1 H2 E). Qed.

(** For the providers with a chaining value: after any updates it is the compression function [step],
    whatever that is, applied to the full blocks of the message one after the other. *)
Theorem C74_chain step bs cap (lazy : bool) h m pieces : 0 < bs -> bs <= cap -> length m = cap ->
  let msg := concat pieces in
  let n := full_blocks lazy bs (length msg) in
  exists s', md_updates step bs (if lazy then bs + 1 else bs) (mkst h m 0 0%N) pieces = Ok s' /\
    sh s' = fold_left (fun h '(t, b) => step h t b) (counted bs 0 msg n) h /\
    firstn (spos s') (sm s') = skipn (n * bs) msg /\ spos s' = length msg - n * bs /\
    stotal s' = ((8 * N.of_nat (n * bs)) mod 2 ^ 64)%N.
Proof. intros Hb Hc Hm. exact (md_updates_chain bs cap lazy Hb Hc step h m pieces Hm). Qed.

(** ** Examples *)

(** Update of MD5 and of BLAKE is of this kind. *)
Example C74_md5 s d : md5_update s d = md_updates md5_block 64 64 s [d].
Proof. cbn [md_updates]. unfold md5_update. destruct (md_update md5_block 64 64 s d); reflexivity. Qed.
Example C74_blake s d : blhs s = 256%N ->
  bl_update s d = (x <- md_updates (bl_step 32) 64 64 (bls s) [d] ;; Ok (mkbl x 256)).
Proof. intros E. unfold bl_update. rewrite E. cbn [md_updates]. change (bl_w 256) with 32%N. change (bl_bs 32) with 64. destruct (md_update _ 64 64 (bls s) d); reflexivity. Qed.
(** A chaining value that adds up the blocks and the counters. *)
Example C74_chain_case : md_updates (fun h t b => (h ++ [t + fold_right N.add 0 b])%N) 4 5 (mkst [] [0; 0; 0; 0; 0]%N 0 0%N) [[1; 2; 3]; [4; 5; 6; 7; 8]; [9]]%N =
  Ok (mkst [10; 58]%N [9; 6; 7; 8; 0]%N 1 64%N).
Proof. vm_compute. reflexivity. Qed.

(** Blocks of 4 bytes, 10 bytes in three pieces: two calls, both for the second piece. *)
Example C74_eager : absorbs recorder 4 4 [[1; 2; 3]; [4; 5; 6; 7; 8]; [9; 10]]%N [] [0; 0; 0; 0]%N 0 0%N =
  Ok ([(0, [1; 2; 3; 4], 1%nat); (32, [5; 6; 7; 8], 1%nat)]%N, [9; 10; 3; 4]%N, 2, 64%N).
Proof. vm_compute. reflexivity. Qed.
(** The same in one piece: one call of two blocks. *)
Example C74_one : absorbs recorder 4 4 [[1; 2; 3; 4; 5; 6; 7; 8; 9; 10]]%N [] [0; 0; 0; 0]%N 0 0%N =
  Ok ([(0, [1; 2; 3; 4; 5; 6; 7; 8], 2%nat)]%N, [9; 10; 0; 0]%N, 2, 64%N).
Proof. vm_compute. reflexivity. Qed.
Example C74_covered : covered 4 [(0, [1; 2; 3; 4; 5; 6; 7; 8], 2%nat)]%N = [(0, [1; 2; 3; 4]); (32, [5; 6; 7; 8])]%N /\
  full_blocks false 4 10 = 2 /\ full_blocks false 4 8 = 2 /\ full_blocks true 4 8 = 1 /\ full_blocks true 4 9 = 2 /\ full_blocks true 4 0 = 0.
Proof. vm_compute. repeat split. Qed.
(** The last full block is kept back. *)
Example C74_lazy : absorbs recorder 4 5 [[1; 2; 3; 4]; [5; 6; 7; 8]]%N [] [0; 0; 0; 0]%N 0 0%N =
  Ok ([(0, [1; 2; 3; 4], 1%nat)]%N, [5; 6; 7; 8]%N, 4, 32%N).
Proof. vm_compute. reflexivity. Qed.
(** The counter wraps. *)
Example C74_wrap : absorbs recorder 4 4 [[1; 2; 3; 4]; [5; 6; 7; 8]]%N [] [0; 0; 0; 0]%N 0 (2 ^ 64 - 32)%N =
  Ok ([(2 ^ 64 - 32, [1; 2; 3; 4], 1%nat); (0, [5; 6; 7; 8], 1%nat)]%N, [0; 0; 0; 0]%N, 0, 32%N).
Proof. vm_compute. reflexivity. Qed.

Definition blocks_all := (@C74_blocks, @C74_calls, @C74_cut, @C74_chain).
Print Assumptions blocks_all.
