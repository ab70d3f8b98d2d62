(** * C75: calls of the permutation while squeezing. *)
From Coq Require Import Lia.
From Verif Require Import Base Squeeze Hasher MdState Keccak Sha3 Shake Ascon Esch Kmac K12 Custom OutCalls OutCallsProof.
Local Open Scope nat_scope.

(** Any state, any permutation, any image of the state with at least [r] bytes: squeezes of lengths that
    are not 0 write consecutive bytes of one stream, and leave the state and the position that a single
    squeeze of the sum leaves. *)
Theorem C75_stream {C} (next : C -> C) emit r (Inv : C -> Prop) :
  0 < r -> (forall c, Inv c -> r <= length (emit c)) -> (forall c, Inv c -> Inv (next c)) ->
  forall c pos n lengths, Inv c -> 0 < n -> Forall (fun n => 0 < n) lengths ->
  let total := n + list_sum lengths in
  squeezes next emit r c pos n lengths = Ok (advanced next ((total - 1) / r) c, (total - 1) mod r + 1, output next emit r c total).
Proof. intros Hr He Hx c pos n lengths. exact (squeezes_ok next emit r Inv Hr He Hx c pos n lengths). Qed.
(** The permutation is called once for each block of [r] bytes after the first that is begun, however
    the output is cut. *)
Theorem C75_count {C} (next : C -> C) emit r (Inv : C -> Prop) :
  0 < r -> (forall c, Inv c -> r <= length (emit c)) -> (forall c, Inv c -> Inv (next c)) ->
  forall c pos n lengths, Inv c -> 0 < n -> Forall (fun n => 0 < n) lengths ->
  exists c' pos' out, squeezes (counting next) (fun ck => emit (fst ck)) r (c, 0) pos n lengths =
    Ok ((c', (n + list_sum lengths - 1) / r), pos', out) /\ squeezes next emit r c pos n lengths = Ok (c', pos', out).
Proof. exact (squeezes_count next emit r Inv). Qed.
(** SHAKE and cSHAKE: the object after any such squeezes, from the object [k] after the padding. *)
Theorem C75_shake B R s k n lengths : hsq s = false ->
  kc_pad_block R (shake_rate B) (if (hsfx s =? 0)%N then match hN s, hS s with [], [] => 0x1f | _, _ => 0x04 end else hsfx s)%N (hk s) = Ok k ->
  length (sh k) = 25 -> 0 < n -> Forall (fun n => 0 < n) lengths ->
  let r := N.to_nat (shake_rate B / 8) in
  let total := n + list_sum lengths in
  takes (cshake B R) s (n :: lengths) = takes (shake B R) s (n :: lengths) /\
  takes (shake B R) s (n :: lengths) =
    Ok (mksh (mkst (advanced (kc_perm R) ((total - 1) / r) (sh k)) (sm k) ((total - 1) mod r + 1) (stotal k)) (hN s) (hS s) true (hsfx s),
        output (kc_perm R) (words_bytes 8) r (sh k) total).
Proof. intros Q E L Hn Hl. split; [exact (cshake_takes B R s (n :: lengths))|exact (shake_takes B R s k n lengths Q E L Hn Hl)]. Qed.
(** Ascon. *)
Theorem C75_ascon s k n lengths : asq s = false -> ascon_pad (ak s) = Ok k -> length (sh k) = 5 -> 0 < n -> Forall (fun n => 0 < n) lengths ->
  let total := n + list_sum lengths in
  let next := fun H => ascon_block H 0 (firstn 8 (sm k)) in
  takes ascon_xof s (n :: lengths) =
    Ok (mkas (mkst (advanced next ((total - 1) / 8) (sh k)) (sm k) ((total - 1) mod 8 + 1) (stotal k)) (aZ s) true,
        output next (words_bytes 8) 8 (sh k) total).
Proof. exact (ascon_takes s k n lengths). Qed.
(** Esch-XOF, whose loop is another one: it asks [total] whether to call the permutation. *)
Theorem C75_esch s k n lengths : esq s = false -> esch_pad true (ehs s) (ek s) = Ok k -> 4 <= length (sh k) ->
  0 < n -> Forall (fun n => 0 < n) lengths ->
  let total := n + list_sum lengths in
  let next := sparkle (esch_rounds (ehs s)) (if (256 <? ehs s)%N then 8 else 7) in
  takes esch_xof s (n :: lengths) =
    Ok (mkes (mkst (advanced next ((total - 1) / 16) (sh k)) (sm k) ((total - 1) mod 16 + 1) 0) (ehs s) true,
        output next (words_bytes 4) 16 (sh k) total).
Proof. exact (esch_takes s k n lengths). Qed.
(** KMAC-XOF and K12, MarsupilamiFourteen, KT128, KT256: the squeezes are those of the inner SHAKE object
    after the end of the message, so C75_shake has their calls; nothing else in the object changes. *)
Theorem C75_kmac B s t n lengths : kmsq s = false -> kmac_update B s (right_encode 0 false) = Ok t ->
  takes (kmacxof B) s (n :: lengths) =
  (' (i, out) <- takes (shake B 24) (kmsh t) (n :: lengths) ;; Ok (mkkm (kmK t) (kmhs t) true i, out)).
Proof. exact (kmac_takes B s t n lengths). Qed.
Theorem C75_k12 B R s t n lengths : ksq s = false -> k12_finish B R s = Ok t ->
  takes (k12 B R) s (n :: lengths) =
  (' (i, out) <- takes (shake B R) (kmain t) (n :: lengths) ;;
   Ok (mkk12 i (kchild t) (km t) (kS t) (kpos t) (ktotal t) (kchunk t) true, out)).
Proof. exact (k12_takes B R s t n lengths). Qed.

(** ** Examples *)

(** The state is a number, the permutation doubles it, a block is 4 bytes: 9 bytes in three pieces are
    two calls. *)
Example C75_case : squeezes (counting (fun x => 2 * x)%N) (fun ck => [fst ck; fst ck + 1; fst ck + 2; fst ck + 3]%N) 4 (10%N, 0) 3 3 [1; 5] =
  Ok ((40%N, 2), 1, [10; 11; 12; 13; 20; 21; 22; 23; 40]%N).
Proof. vm_compute. reflexivity. Qed.
(** 8 bytes, a multiple of the block: one call, the next one only with the next squeeze. *)
Example C75_edge : squeezes (counting (fun x => 2 * x)%N) (fun ck => [fst ck; fst ck + 1; fst ck + 2; fst ck + 3]%N) 4 (10%N, 0) 3 8 [] =
  Ok ((20%N, 1), 4, [10; 11; 12; 13; 20; 21; 22; 23]%N).
Proof. vm_compute. reflexivity. Qed.
(** An empty squeeze is no such squeeze: after a whole block it calls the permutation (C12). *)
Example C75_empty : squeezes (counting (fun x => 2 * x)%N) (fun ck => [fst ck; fst ck + 1; fst ck + 2; fst ck + 3]%N) 4 (10%N, 0) 3 8 [0] =
  Ok ((40%N, 2), 4, [10; 11; 12; 13; 20; 21; 22; 23]%N).
Proof. vm_compute. reflexivity. Qed.
(** The state of Keccak has 25 words of 8 bytes, that of Ascon 5: the hypotheses of the theorems on
    objects hold after init() and update(). *)
Example C75_shake_case : match shake_init 128 24 (mksh (mkst (repeat 0%N 25) (repeat 0%N 168) 0 0%N) [] [] false 0) with
  | Ok s => match shake_update 128 24 s [1; 2; 3]%N with
    | Ok s => hsq s = false /\ exists k, kc_pad_block 24 (shake_rate 128) 0x1f (hk s) = Ok k /\ length (sh k) = 25
    | _ => False end
  | _ => False end.
Proof. vm_compute. split; [reflexivity|]. eexists. split; reflexivity. Qed.
Example C75_ascon_case : exists k, ascon_pad (mkst [1; 2; 3; 4; 5]%N (repeat 7%N 8) 3 0%N) = Ok k /\ length (sh k) = 5.
Proof. eexists. split; vm_compute; reflexivity. Qed.
Example C75_esch_case : exists k, esch_pad true 256 (mkst (repeat 3%N 12) (repeat 7%N 16) 5 0%N) = Ok k /\ length (sh k) = 12.
Proof. eexists. split; vm_compute; reflexivity. Qed.
Example C75_kmac_case : match kmac_init 128 (mkkm (kmac_bytepad 128 [9; 8]%N) 256 true (mksh (mkst (repeat 0%N 25) (repeat 0%N 168) 0 0%N) [] [] false 0)) with
  | Ok s => kmsq s = false /\ match kmac_update 128 s (right_encode 0 false) with
    | Ok t => hsq (kmsh t) = false /\ exists k, kc_pad_block 24 (shake_rate 128) 0x04 (hk (kmsh t)) = Ok k /\ length (sh k) = 25
    | _ => False end
  | _ => False end.
Proof. vm_compute. split; [reflexivity|]. split; [reflexivity|]. eexists. split; reflexivity. Qed.
Example C75_k12_case : let i := mksh (mkst (repeat 0%N 25) (repeat 0%N 168) 0 0%N) [] [] false 0 in
  match k12_init 128 12 (mkk12 i i (repeat 0%N (N.to_nat 8192)) [] 0 0 0 true) with
  | Ok s => ksq s = false /\ match k12_finish 128 12 s with
    | Ok t => hsq (kmain t) = false /\ hsfx (kmain t) = 0x07%N /\
      exists k, kc_pad_block 12 (shake_rate 128) 0x07 (hk (kmain t)) = Ok k /\ length (sh k) = 25
    | _ => False end
  | _ => False end.
Proof. vm_compute. split; [reflexivity|]. split; [reflexivity|]. split; [reflexivity|]. eexists. split; reflexivity. Qed.

Definition out_calls_all := (@C75_stream, @C75_count, @C75_shake, @C75_ascon, @C75_esch, @C75_kmac, @C75_k12).
Print Assumptions out_calls_all.
