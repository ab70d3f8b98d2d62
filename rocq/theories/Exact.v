(** * Counters of BLAKE, BLAKE2 and KangarooTwelve exactly as in the code (C59).

    Blake.v, Blake2.v and K12.v hand each block its counter. Here the loops of transform are as
    written: BLAKE and BLAKE2 compute the counter of a block from the member total at the start
    of the call and the number of the block in the call, K12 has a counter of 64 bits. All other
    functions are those of Blake.v, Blake2.v, Blake2p.v and K12.v. *)
From Verif Require Import Base Absorb Hasher MdState Library Keccak Squeeze Sha3 Shake K12 Blake Blake2 Blake2p LibraryTypes.

(** blake_provider.hpp:224-228 with the loop of transform as written (79-134). *)
Definition blx_update (s : bl_st) (data : list N) : res bl_st :=
  let w := bl_w (blhs s) in
  ' (h, m, pos, total) <-
    absorb_bytes (fun h m t d n => Ok (bl_transform_code w h t d n, m)) (bl_bs w) (bl_bs w) data
      (sh (bls s)) (sm (bls s)) (spos (bls s)) (stotal (bls s)) ;;
  Ok (mkbl (mkst h m pos total) (blhs s)).
(** algorithm/blake.hpp:58, 102. *)
Definition blakex : hash_provider :=
  {| hp := {| pst := bl_st; p_init := bl_init; p_update := blx_update; p_clear := bl_clear;
              p_param := bl_param; p_set := bl_set |};
     hp_final := bl_final; hp_size := blhs |}.

(** blake2_provider.hpp:200-204 with the loop of transform as written (317-372). *)
Definition b2x_update (w : N) (s : b2_st) (data : list N) : res b2_st :=
  ' (h, m, pos, total) <-
    absorb_bytes (fun h m t d n => Ok (b2_transform_code w h t d n, m)) (b2_bs w) (b2_bs w + 1) data
      (sh (b2c s)) (sm (b2c s)) (spos (b2c s)) (stotal (b2c s)) ;;
  Ok (mkb2 (mkst h m pos total) (b2s s) (b2p s) (b2k s) (b2hs s) (b2xo s) (b2sq s) (b2fo s) (b2nd s) (b2no s)).
(** blake2_provider.hpp:305-315 *)
Definition b2x_absorb_key (w : N) (s : b2_st) : res b2_st :=
  match b2k s with
  | [] => Ok s
  | k =>
    key <- memcpy (zeros (b2_bs w)) 0 k (length k) ;;
    n <- size_sub (b2_bs w) (length k) ;;
    key <- memset key (length k) 0 n ;;
    b2x_update w s key
  end.
(** blake2_provider.hpp:159-198 *)
Definition b2x_init (w : N) (ty : b2_type) (s : b2_st) : res b2_st :=
  let H := b2_init_H w ty (b2hs s) (b2s s) (b2p s) (length (b2k s)) (b2fo s) (b2nd s) (b2no s) in
  let s := mkb2 (mkst H (sm (b2c s)) 0 0) (b2s s) (b2p s) (b2k s) (b2hs s) 0 false
             (b2fo s) (b2nd s) (b2no s) in
  if (b2fo s =? 0) || (b2nd s =? 0) then b2x_absorb_key w s else Ok s.
(** blake2_provider.hpp:114-390. *)
Definition b2x_base (w : N) (ty : b2_type) : provider :=
  {| pst := b2_st; p_init := b2x_init w ty; p_update := b2x_update w; p_clear := b2_clear;
     p_param := b2_param; p_set := b2_set w |}.
(** algorithm/blake2.hpp: blake2b, blake2s, blake2xb, blake2xs. *)
Definition blake2x (w : N) (ty : b2_type) : hash_provider :=
  {| hp := b2x_base w ty; hp_final := b2_final w ty; hp_size := b2hs |}.
(** algorithm/blake2.hpp: blake2xb_xof, blake2xs_xof. *)
Definition blake2xx_xof (w : N) : xof_provider :=
  {| xp := b2x_base w BXof; xp_squeeze := b2_squeeze w BXof |}.

(** blake2p_provider.hpp:69-80, 82-86, 120-130, 144-175 over these. *)
Definition b2px_init (w : N) (s : b2p_st) : res b2p_st :=
  main <- b2x_init w BHash (bpmain s) ;;
  leaf <- each (fun _ => b2x_init w BHash) 0 (bpleaf s) ;;
  Ok (mkb2pst main leaf (bpm s) 0 0 (bphs s)).
(** blake2p_provider.hpp:170-173. *)
Definition b2px_feed (w : N) (data : list N) (i blk : nat) (leaf : b2_st) : res b2_st :=
  d <- load data (blk * 512 + i * b2_bs w) (b2_bs w) ;;
  b2x_update w leaf d.
(** blake2p_provider.hpp:170-173. *)
Definition b2px_leaf (w : N) (data : list N) (n : nat) (i : nat) (leaf : b2_st) : res b2_st :=
  fold_res (fun leaf blk => b2px_feed w data i blk leaf) (seq 0 n) leaf.
(** blake2p_provider.hpp:163-175. *)
Definition b2px_transform (w : N) (data : list N) (n : nat) (leaf : list b2_st) : res (list b2_st) :=
  each (b2px_leaf w data n) 0 leaf.
(** blake2p_provider.hpp:148-160. *)
Fixpoint b2px_leaves (w : N) (m : list N) (pos : nat) (main : b2_st) (i : nat) (leaf : list b2_st)
  : res (b2_st * list b2_st) :=
  match leaf with
  | [] => Ok (main, [])
  | l :: r =>
    l <- (if (i * b2_bs w <? pos)%nat then
            let prev := (i * b2_bs w)%nat in
            let next := (prev + b2_bs w)%nat in
            let len := (if pos <? next then pos - prev else b2_bs w)%nat in
            d <- load m (i * b2_bs w) len ;;
            b2x_update w l d
          else Ok l) ;;
    ' (l, buf) <- b2_final_over w BHash (8 * w) l ;;
    main <- b2x_update w main buf ;;
    ' (main, r) <- b2px_leaves w m pos main (S i) r ;;
    Ok (main, l :: r)
  end.
(** blake2p_provider.hpp:144-161. *)
Definition b2px_finalize (w : N) (s : b2p_st) : res b2p_st :=
  m <- (if negb (512 =? bppos s)%nat then
          n <- size_sub 512 (bppos s) ;; memset (bpm s) (bppos s) 0 n
        else Ok (bpm s)) ;;
  ' (main, leaf) <- b2px_leaves w m (bppos s) (bpmain s) 0 (bpleaf s) ;;
  Ok (mkb2pst main leaf m (bppos s) (bptotal s) (bphs s)).
(** blake2p_provider.hpp:120-130. *)
Definition b2px_final (w : N) (s : b2p_st) : res (b2p_st * list N) :=
  let s := mkb2pst (bpmain s) (bpleaf s) (bpm s) (bppos s)
             (trunc 64 (bptotal s + N.of_nat (bppos s * 8))) (bphs s) in
  s <- b2px_finalize w s ;;
  ' (main, h) <- b2_final w BHash (bpmain s) ;;
  Ok (mkb2pst main (bpleaf s) (bpm s) (bppos s) (bptotal s) (bphs s), h).
(** The loop with OpenMP, see Blake2p.v. blake2p_provider.hpp:165-174. *)
Definition b2px_run (w : N) (data : list N) (sched : list (nat * nat)) (leaf : list b2_st) : res (list b2_st) :=
  fold_res (fun leaf x =>
    let '(i, blk) := x in
    match nth_error leaf i with
    | Some l => l <- b2px_feed w data i blk l ;; Ok (upd i l leaf)
    | None => UB OutOfBounds
    end) sched leaf.
(** algorithm/blake2p.hpp:58, 96, 140, 174. *)
Definition blake2px_with (w : N) (tf : b2p_tf) : hash_provider :=
  {| hp := {| pst := b2p_st; p_init := b2px_init w; p_update := b2p_update tf;
              p_clear := b2p_clear; p_param := b2_param; p_set := b2p_set w |};
     hp_final := b2px_final w; hp_size := bphs |}.
(** blake2p_provider.hpp:165-168 without OpenMP. *)
Definition blake2px (w : N) : hash_provider := blake2px_with w (fun leaf _ d n => b2px_transform w d n leaf).
(** blake2p_provider.hpp:165-168 with OpenMP. *)
Definition blake2px_omp (w : N) (sch : b2p_schedule) : hash_provider :=
  blake2px_with w (fun leaf t d n => b2px_run w d (sch leaf t d n) leaf).

(** k12m14_provider.hpp:101-117 with the member chunk of type size_t (139). *)
Section K12.
  Variables (B : N) (R : nat).
  (** k12m14_provider.hpp:101-117: loop body of transform. *)
  Definition k12x_chunk (c : shake_st * shake_st * N) (t : N) (data : list N) : res (shake_st * shake_st * N) :=
    ' (main, child, chunk) <- k12_chunk B R c t data ;; Ok (main, child, trunc 64 chunk).
  (** k12m14_provider.hpp:55-59 *)
  Definition k12x_update (s : k12_st) (data : list N) : res k12_st :=
    ' (c, m, pos, total) <-
      absorb_bytes (fun c m t d n => c <- block_loop_res k12x_chunk k12_bs c t d n ;; Ok (c, m))
        k12_bs (k12_bs + 1) data (kmain s, kchild s, kchunk s) (km s) (kpos s) (ktotal s) ;;
    let '(main, child, chunk) := c in
    Ok (mkk12 main child m (kS s) pos total chunk (ksq s)).
  (** k12m14_provider.hpp:65-90 *)
  Definition k12x_finish (s : k12_st) : res k12_st :=
    let buf := right_encode (trunc 64 (N.of_nat (length (kS s)))) true in
    s <- (match kS s with [] => Ok s | _ => k12x_update s (kS s) end) ;;
    s <- k12x_update s buf ;;
    ' (main, child) <-
      (if negb (kpos s =? 0)%nat then
         data <- load (km s) 0 (kpos s) ;;
         if kchunk s =? 0 then
           main <- shake_update B R (kmain s) data ;;
           Ok (shake_set_suffix 0x07 main, kchild s)
         else
           child <- shake_update B R (kchild s) data ;;
           ' (child, buf) <- shake_squeeze B R child (N.to_nat (B / 4)) ;;
           main <- shake_update B R (kmain s) buf ;;
           let main := shake_set_suffix 0x06 main in
           main <- shake_update B R main (right_encode (kchunk s) true) ;;
           main <- shake_update B R main [0xFF; 0xFF] ;;
           Ok (main, child)
       else Ok (shake_set_suffix 0x07 (kmain s), kchild s)) ;;
    Ok (mkk12 main child (km s) (kS s) (kpos s) (ktotal s) (kchunk s) true).
  (** k12m14_provider.hpp:61-93 *)
  Definition k12x_squeeze (s : k12_st) (hs : nat) : res (k12_st * list N) :=
    s <- (if ksq s then Ok s else k12x_finish s) ;;
    ' (main, out) <- shake_squeeze B R (kmain s) hs ;;
    Ok (mkk12 main (kchild s) (km s) (kS s) (kpos s) (ktotal s) (kchunk s) (ksq s), out).
  (** algorithm/k12m14.hpp:56, 68, 103, 140. *)
  Definition k12x : xof_provider :=
    {| xp := {| pst := k12_st; p_init := k12_init B R; p_update := k12x_update; p_clear := k12_clear;
                p_param := k12_param; p_set := k12_set |};
       xp_squeeze := k12x_squeeze |}.
End K12.

(** The types of LibraryTypes.v over these providers. algorithm/blake.hpp:58. *)
Definition blakex_type (hs : N) :=
  plain blakex 128 (fun g => fresh_of (bl_ctor hs g) bl_init) (N.to_nat (hs / 8)) (blake_accepts hs).
(** algorithm/blake.hpp:101-102. *)
Definition blakex_static_type (hs : N) :=
  plain blakex 128 (fun g => fresh_of (bl_ctor_static hs g) bl_init) (N.to_nat (hs / 8)) (blake_accepts hs).
(** algorithm/blake2.hpp:68, 117, 161, 204. *)
Definition blake2x_type (w : N) (ty : b2_type) (hs : N) :=
  Build_htype (blake2x w ty) b2_mem (b2_mem_ok w)
    (fun g => fresh_of (b2_ctor w ty hs (fst g) (snd g)) (b2x_init w ty))
    (N.to_nat (hs / 8)) (b2_accepts w) true.
(** algorithm/blake2.hpp:317-318, 351-352, 385-386, 419-420. *)
Definition blake2x_static_type (w : N) (ty : b2_type) (hs : N) :=
  Build_htype (blake2x w ty) b2_mem (b2_mem_ok w)
    (fun g => fresh_of (b2_ctor_static w hs (fst g) (snd g)) (b2x_init w ty))
    (N.to_nat (hs / 8)) (b2_accepts w) true.
(** algorithm/blake2.hpp:239, 274. *)
Definition blake2xx_xof_type (w : N) :=
  Build_xtype (blake2xx_xof w) b2_mem (b2_mem_ok w)
    (fun g => fresh_of (b2_ctor w BXof (8 * w) (fst g) (snd g)) (b2x_init w BXof))
    (b2_accepts w) true.
(** algorithm/blake2p.hpp:58, 96. *)
Definition blake2px_type (w : N) (hs : N) :=
  Build_htype (blake2px w) b2p_mem (b2p_mem_ok w)
    (fun g => fresh_of (b2p_ctor w hs g) (b2px_init w))
    (N.to_nat (hs / 8)) (b2_accepts w) false.
(** algorithm/blake2p.hpp:140, 174. *)
Definition blake2px_static_type (w : N) (hs : N) :=
  Build_htype (blake2px w) b2p_mem (b2p_mem_ok w)
    (fun g => fresh_of (b2p_ctor_static w hs g) (b2px_init w))
    (N.to_nat (hs / 8)) (b2_accepts w) false.
(** algorithm/blake2p.hpp:58, 96. *)
Definition blake2px_omp_type (w : N) (hs : N) (sch : b2p_schedule) :=
  Build_htype (blake2px_omp w sch) b2p_mem (b2p_mem_ok w)
    (fun g => fresh_of (b2p_ctor w hs g) (b2px_init w))
    (N.to_nat (hs / 8)) (b2_accepts w) false.
(** algorithm/blake2p.hpp:140, 174. *)
Definition blake2px_omp_static_type (w : N) (hs : N) (sch : b2p_schedule) :=
  Build_htype (blake2px_omp w sch) b2p_mem (b2p_mem_ok w)
    (fun g => fresh_of (b2p_ctor_static w hs g) (b2px_init w))
    (N.to_nat (hs / 8)) (b2_accepts w) false.
(** algorithm/k12m14.hpp:56, 68, 103, 140. *)
Definition k12x_type (B : N) (R : nat) :=
  Build_xtype (k12x B R) k12_mem (fun g => shake_mem_ok (km_main g) /\ shake_mem_ok (km_child g) /\ length (km_m g) = N.to_nat 8192)
    (fun g => fresh_of (k12_ctor (inner_shake (km_main g)) (inner_shake (km_child g))
                 (km_m g) (km_pos g) (km_total g) (km_chunk g) (km_sq g)) (k12_init B R))
    always true.
