(** * Model of algorithm/detail/blake2p_provider.hpp.

    [w] is the word size: 64 (blake2bp, P = 4) or 32 (blake2sp, P = 8). Only the template
    argument blake2_type::hash is modelled: algorithm/blake2p.hpp:58, 96, 140, 174 use no
    other. The member squeezing is then never read. *)
From Verif Require Import Base Absorb Hasher MdState Validate Blake2.

(** blake2p_provider.hpp:178 *)
Definition bp_P (w : N) : nat := if w =? 64 then 4 else 8.
(** m.size(). blake2p_provider.hpp:181, 84. *)
Definition bp_bs : nat := 512.

(** blake2p_provider.hpp:179-185 *)
Record b2p_st := mkb2pst {
  bpmain : b2_st;
  bpleaf : list b2_st;   (* leaf[P] *)
  bpm : list N;          (* m[512] *)
  bppos : nat;
  bptotal : N;
  bphs : N
}.

(** blake2_provider.hpp:230-235 *)
Definition b2_tree_params (fo nd no : N) (s : b2_st) : b2_st :=
  mkb2 (b2c s) (b2s s) (b2p s) (b2k s) (b2hs s) (b2xo s) (b2sq s) fo nd no.

(** A loop over the array leaf whose body replaces element [i].
    blake2p_provider.hpp:40-44, 58-61, 76-79, 136-137. *)
Fixpoint each {A B : Type} (f : nat -> A -> res B) (i : nat) (l : list A) : res (list B) :=
  match l with
  | [] => Ok []
  | x :: r => x <- f i x ;; r <- each f (S i) r ;; Ok (x :: r)
  end.

(** Uninitialised memory of an object: main, the temporaries assigned to leaf[0..P), m,
    pos and total. blake2p_provider.hpp:179-185, 42. *)
Record b2p_mem := mkb2pm { gpmain : st * N; gpleaf : list (st * N); gpm : list N; gppos : nat; gptotal : N }.

(** blake2p_provider.hpp:27-45 *)
Definition b2p_ctor (w hs : N) (g : b2p_mem) : res b2p_st :=
  main <- b2_ctor w BHash hs (fst (gpmain g)) (snd (gpmain g)) ;;
  _ <- validate_max hs (8 * w) ;;
  let main := b2_tree_params (N.of_nat (bp_P w)) 1 0 main in
  leaf <- each (fun p x => l <- b2_ctor w BHash hs (fst x) (snd x) ;;
                           Ok (b2_tree_params (N.of_nat (bp_P w)) 0 (N.of_nat p) l)) 0 (gpleaf g) ;;
  Ok (mkb2pst main leaf (gpm g) (gppos g) (gptotal g) hs).
(** blake2p_provider.hpp:47-62 *)
Definition b2p_ctor_static (w hs : N) (g : b2p_mem) : res b2p_st :=
  main <- b2_ctor_static w hs (fst (gpmain g)) (snd (gpmain g)) ;;
  let main := b2_tree_params (N.of_nat (bp_P w)) 1 0 main in
  leaf <- each (fun p x => l <- b2_ctor_static w hs (fst x) (snd x) ;;
                           Ok (b2_tree_params (N.of_nat (bp_P w)) 0 (N.of_nat p) l)) 0 (gpleaf g) ;;
  Ok (mkb2pst main leaf (gpm g) (gppos g) (gptotal g) hs).

(** blake2p_provider.hpp:69-80 *)
Definition b2p_init (w : N) (s : b2p_st) : res b2p_st :=
  main <- b2_init w BHash (bpmain s) ;;
  leaf <- each (fun _ => b2_init w BHash) 0 (bpleaf s) ;;
  Ok (mkb2pst main leaf (bpm s) 0 0 (bphs s)).

(** blake2p_provider.hpp:170-173: the body of the parallel loop for leaf [i], and one
    iteration of its inner loop. *)
Definition b2p_feed (w : N) (data : list N) (i blk : nat) (leaf : b2_st) : res b2_st :=
  d <- load data (blk * 512 + i * b2_bs w) (b2_bs w) ;;
  b2_update w leaf d.
(** blake2p_provider.hpp:170-173 *)
Definition b2p_leaf (w : N) (data : list N) (n : nat) (i : nat) (leaf : b2_st) : res b2_st :=
  fold_res (fun leaf blk => b2p_feed w data i blk leaf) (seq 0 n) leaf.
(** blake2p_provider.hpp:163-175 without OpenMP, or with one thread. *)
Definition b2p_transform (w : N) (data : list N) (n : nat) (leaf : list b2_st) : res (list b2_st) :=
  each (b2p_leaf w data n) 0 leaf.

(** The same loop with OpenMP: the iterations of the outer loop may run in any order and
    concurrently. [sched] lists the executions of the inner loop body as pairs of leaf
    and block in the order in which they take place. The granularity is one call of
    leaf[i].update; calls for different leaves touch disjoint memory.
    blake2p_provider.hpp:165-174. *)
Definition b2p_run (w : N) (data : list N) (sched : list (nat * nat)) (leaf : list b2_st) : res (list b2_st) :=
  fold_res (fun leaf x =>
    let '(i, blk) := x in
    match nth_error leaf i with
    | Some l => l <- b2p_feed w data i blk l ;; Ok (upd i l leaf)
    | None => UB OutOfBounds
    end) sched leaf.

(** Schedules of the parallel loop over [P] leaves and [n] blocks: the blocks of each leaf
    are processed in order, nothing is known about the interleaving.
    OpenMP behind blake2p_provider.hpp:166-168. *)
Definition fair (P n : nat) (sched : list (nat * nat)) : Prop :=
  Forall (fun x => (fst x < P)%nat) sched /\
  forall i, (i < P)%nat -> map snd (filter (fun x => (fst x =? i)%nat) sched) = seq 0 n.

(** blake2p_provider.hpp:82-86; [tf leaf total data n] is the call transform(data, n). *)
Definition b2p_tf := list b2_st -> N -> list N -> nat -> res (list b2_st).
(** blake2p_provider.hpp:82-86 *)
Definition b2p_update (tf : b2p_tf) (s : b2p_st) (data : list N) : res b2p_st :=
  ' (leaf, m, pos, total) <-
    absorb_bytes (fun leaf m t d n => leaf <- tf leaf t d n ;; Ok (leaf, m))
      bp_bs bp_bs data (bpleaf s) (bpm s) (bppos s) (bptotal s) ;;
  Ok (mkb2pst (bpmain s) leaf m pos total (bphs s)).

(** blake2p_provider.hpp:88-93, 95-100, 102-107 behind mixin/blake2_mixin.hpp. The inner
    setter throws, if at all, before it stores anything; main comes first. *)
Fixpoint b2_set_all (w : N) (q : b2_param) (v : list N) (l : list b2_st) : setres (list b2_st) :=
  match l with
  | [] => Done []
  | x :: r =>
    match b2_set w q v x with
    | Done x => match b2_set_all w q v r with Done r => Done (x :: r) | Raised r => Raised (x :: r) | SetUB u => SetUB u end
    | Raised x => Raised (x :: r)
    | SetUB u => SetUB u
    end
  end.
(** blake2p_provider.hpp:88-107 *)
Definition b2p_set (w : N) (q : b2_param) (v : list N) (s : b2p_st) : setres b2p_st :=
  match b2_set w q v (bpmain s) with
  | SetUB u => SetUB u
  | Raised m => Raised (mkb2pst m (bpleaf s) (bpm s) (bppos s) (bptotal s) (bphs s))
  | Done m =>
    match b2_set_all w q v (bpleaf s) with
    | Done l => Done (mkb2pst m l (bpm s) (bppos s) (bptotal s) (bphs s))
    | SetUB u => SetUB u
    | Raised l => Raised (mkb2pst m l (bpm s) (bppos s) (bptotal s) (bphs s))
    end
  end.

(** blake2p_provider.hpp:148-160: the loop of finalize; [i] is the number of the first
    leaf of the list. *)
Fixpoint b2p_leaves (w : N) (m : list N) (pos : nat) (main : b2_st) (i : nat) (leaf : list b2_st)
  : res (b2_st * list b2_st) :=
  match leaf with
  | [] => Ok (main, [])
  | l :: r =>
    l <- (if (i * b2_bs w <? pos)%nat then
            let prev := (i * b2_bs w)%nat in
            let next := (prev + b2_bs w)%nat in
            let len := (if pos <? next then pos - prev else b2_bs w)%nat in
            d <- load m (i * b2_bs w) len ;;
            b2_update w l d
          else Ok l) ;;
    ' (l, buf) <- b2_final_over w BHash (8 * w) l ;;
    main <- b2_update w main buf ;;
    ' (main, r) <- b2p_leaves w m pos main (S i) r ;;
    Ok (main, l :: r)
  end.

(** blake2p_provider.hpp:144-161 *)
Definition b2p_finalize (w : N) (s : b2p_st) : res b2p_st :=
  m <- (if negb (512 =? bppos s)%nat then
          n <- size_sub 512 (bppos s) ;; memset (bpm s) (bppos s) 0 n
        else Ok (bpm s)) ;;
  ' (main, leaf) <- b2p_leaves w m (bppos s) (bpmain s) 0 (bpleaf s) ;;
  Ok (mkb2pst main leaf m (bppos s) (bptotal s) (bphs s)).

(** blake2p_provider.hpp:120-130 *)
Definition b2p_final (w : N) (s : b2p_st) : res (b2p_st * list N) :=
  let s := mkb2pst (bpmain s) (bpleaf s) (bpm s) (bppos s)
             (trunc 64 (bptotal s + N.of_nat (bppos s * 8))) (bphs s) in
  s <- b2p_finalize w s ;;
  ' (main, h) <- b2_final w BHash (bpmain s) ;;
  Ok (mkb2pst main (bpleaf s) (bpm s) (bppos s) (bptotal s) (bphs s), h).

(** blake2p_provider.hpp:132-138. The inner clear also zeroes fanout, nodedepth and
    nodeoffset; nothing sets them again. *)
Definition b2p_clear (s : b2p_st) : res b2p_st :=
  main <- b2_clear (bpmain s) ;;
  leaf <- each (fun _ => b2_clear) 0 (bpleaf s) ;;
  Ok (mkb2pst main leaf (zero_memory (bpm s)) (bppos s) (bptotal s) (bphs s)).

(** algorithm/blake2p.hpp:58, 96, 140, 174 over blake2p_provider.hpp:21-186. *)
Definition blake2p_with (w : N) (tf : b2p_tf) : hash_provider :=
  {| hp := {| pst := b2p_st; p_init := b2p_init w; p_update := b2p_update tf; p_clear := b2p_clear;
              p_param := b2_param; p_set := b2p_set w |};
     hp_final := b2p_final w; hp_size := bphs |}.
(** Built without OpenMP. blake2p_provider.hpp:165-168. *)
Definition blake2p (w : N) : hash_provider := blake2p_with w (fun leaf _ d n => b2p_transform w d n leaf).
(** Built with OpenMP; the schedule [sch] may differ from call to call.
    blake2p_provider.hpp:165-168. *)
Definition blake2p_omp (w : N) (sch : list b2_st -> N -> list N -> nat -> list (nat * nat)) : hash_provider :=
  blake2p_with w (fun leaf t d n => b2p_run w d (sch leaf t d n) leaf).
