(** * Model of algorithm/detail/echo_provider.hpp.

    The array h of 32 words (echo_provider.hpp:280) holds the chaining value in its first
    256 - block_bytes() bytes and the message buffer in the last block_bytes() bytes
    (lines 209, 215, 249). It is modelled as these two parts, [sh] in words and [sm] in
    bytes; an access to the buffer that leaves its part of h is already [UB]. *)
From Verif Require Import Base Absorb Hasher MdState Validate ConstEcho.

(** echo_provider.hpp:245 and the number of words of the other part of h. *)
Definition ec_bs (hs : N) : nat := if 256 <? hs then 128 else 192.
(** (256 - block_bytes()) / 8, echo_provider.hpp:245, 249 *)
Definition ec_nv (hs : N) : nat := if 256 <? hs then 16 else 8.

(** std::swap(w[i], w[j]). echo_provider.hpp:24-39. *)
Definition ec_swap (w : list N) (ij : nat * nat) : list N :=
  let '(i, j) := ij in
  let x := nthN i w in
  let y := nthN j w in
  upd j x (upd i y w).
(** echo_provider.hpp:22-40 *)
Definition ec_shift_rows (w : list N) : list N :=
  fold_left ec_swap
    [(2, 10); (3, 11); (4, 20); (5, 21); (6, 30); (7, 31); (12, 28); (13, 29); (22, 14); (23, 15);
     (30, 14); (31, 15); (26, 18); (27, 19); (26, 10); (27, 11)]%nat w.

(** echo_provider.hpp:56-59 *)
Definition ec_dbl (a : N) : N :=
  N.lxor (N.land (shlw 64 a 1) 0xfefefefefefefefe)
         (trunc 64 (N.land (shrw a 7) 0x0101010101010101 * 0x1b)).
(** echo_provider.hpp:50-64 *)
Definition ec_mix_column (w : list N) (idx : nat) : list N :=
  let a := nthN idx w in
  let b := nthN (idx + 2) w in
  let c := nthN (idx + 4) w in
  let d := nthN (idx + 6) w in
  let dblA := ec_dbl a in
  let dblB := ec_dbl b in
  let dblC := ec_dbl c in
  let dblD := ec_dbl d in
  let w := upd idx (N.lxor (N.lxor (N.lxor (N.lxor dblA dblB) b) c) d) w in
  let w := upd (idx + 2) (N.lxor (N.lxor (N.lxor (N.lxor dblB dblC) c) d) a) w in
  let w := upd (idx + 4) (N.lxor (N.lxor (N.lxor (N.lxor dblC dblD) d) a) b) w in
  upd (idx + 6) (N.lxor (N.lxor (N.lxor (N.lxor dblD dblA) a) b) c) w.
(** echo_provider.hpp:42-67 *)
Definition ec_mix_columns (w : list N) : list N :=
  fold_left (fun w i => fold_left (fun w j => ec_mix_column w (i * 4 * 2 + j)) (seq 0 2) w) (seq 0 4) w.

(** echo_constants<void>::T[j][(unsigned char)(x >> n)]. E.g. echo_provider.hpp:76-79 *)
Definition ec_T (j : nat) (x n : N) : N := tbl (nth j echo_T []) (byte_at x n).
(** echo_provider.hpp:75-117: one iteration of sub_words on w[idx], w[idx1]. *)
Definition ec_sub1 (salt : list N) (counter : N) (a b : N) : N * N :=
  let t0 := N.lxor (N.lxor (N.lxor (N.lxor (trunc 32 counter) (ec_T 0 a 0)) (ec_T 1 a 40)) (ec_T 2 b 16)) (ec_T 3 b 56) in
  let t1 := N.lxor (N.lxor (N.lxor (N.lxor (trunc 32 (N.shiftr counter 32)) (ec_T 0 a 32)) (ec_T 1 b 8)) (ec_T 2 b 48)) (ec_T 3 a 24) in
  let t2 := N.lxor (N.lxor (N.lxor (ec_T 0 b 0) (ec_T 1 b 40)) (ec_T 2 a 16)) (ec_T 3 a 56) in
  let t3 := N.lxor (N.lxor (N.lxor (ec_T 0 b 32) (ec_T 1 a 8)) (ec_T 2 a 48)) (ec_T 3 b 24) in
  (N.lxor (N.lxor
     (N.lxor (N.lxor (N.lxor (ec_T 0 t0 0) (ec_T 1 t1 8)) (ec_T 2 t2 16)) (ec_T 3 t3 24))
     (shlw 64 (N.lxor (N.lxor (N.lxor (ec_T 0 t1 0) (ec_T 1 t2 8)) (ec_T 2 t3 16)) (ec_T 3 t0 24)) 32))
     (nthN 0 salt),
   N.lxor (N.lxor
     (N.lxor (N.lxor (N.lxor (ec_T 0 t2 0) (ec_T 1 t3 8)) (ec_T 2 t0 16)) (ec_T 3 t1 24))
     (shlw 64 (N.lxor (N.lxor (N.lxor (ec_T 0 t3 0) (ec_T 1 t0 8)) (ec_T 2 t1 16)) (ec_T 3 t2 24)) 32))
     (nthN 1 salt)).
(** echo_provider.hpp:69-119 *)
Definition ec_sub_words (salt : list N) (s : list N * N) : list N * N :=
  fold_left (fun s r =>
    let '(w, counter) := s in
    let '(x, y) := ec_sub1 salt counter (nthN (r * 2) w) (nthN (r * 2 + 1) w) in
    (upd (r * 2 + 1) y (upd (r * 2) x w), trunc 64 (counter + 1))) (seq 0 16) s.

(** echo_provider.hpp:266-271 *)
Definition ec_round (salt : list N) (s : list N * N) : list N * N :=
  let '(w, counter) := ec_sub_words salt s in
  (ec_mix_columns (ec_shift_rows w), counter).

(** echo_provider.hpp:122-152: the new chaining words; the words read in an assignment
    have not been assigned before. *)
Definition ec_final256 (h w : list N) : list N :=
  map (fun i => N.lxor (N.lxor (N.lxor (N.lxor (N.lxor (N.lxor (N.lxor (nthN i h) (nthN (i + 8) h)) (nthN (i + 16) h))
    (nthN (i + 24) h)) (nthN i w)) (nthN (i + 8) w)) (nthN (i + 16) w)) (nthN (i + 24) w)) (seq 0 8).
(** echo_provider.hpp:134-152 *)
Definition ec_final512 (h w : list N) : list N :=
  map (fun i => N.lxor (N.lxor (N.lxor (nthN i h) (nthN (i + 16) h)) (nthN i w)) (nthN (i + 16) w)) (seq 0 16).

(** echo_provider.hpp:264-276: [V] and [m] are the two parts of h. *)
Definition ec_block (hs : N) (salt : list N) (counter : N) (V m : list N) : list N :=
  let h := V ++ le_words 8 (ec_bs hs / 8) m in
  let w := fst (Nat.iter (if 256 <? hs then 10 else 8) (ec_round salt) (h, counter)) in
  if hs <=? 256 then ec_final256 h w else ec_final512 h w.

(** echo_provider.hpp:247-278. [src] is [None] if mp is the buffer itself; [total] is the
    member. The result is the two parts of h. *)
Definition ec_transform (hs : N) (salt : list N) (V m : list N) (total : N) (src : option (list N))
    (num_blks : nat) (addedbits : bool) (addtototal : N) : res (list N * list N) :=
  ' (V, m, _) <- fold_res (fun s blk =>
      let '(V, m, addtototal) := s in
      ' (m, addtototal, counter) <-
        (if addedbits then
           let delta := N.min addtototal (N.of_nat (ec_bs hs)) in
           let counter := trunc 64 (total + (N.of_nat (blk * ec_bs hs) + delta) * 8) in
           m <- (match src with
                 | Some mp => memcpy m 0 (skipn (ec_bs hs * blk) mp) (N.to_nat delta)
                 | None => Ok m
                 end) ;;
           Ok (m, addtototal - delta, counter)
         else Ok (m, addtototal, 0)) ;;
      Ok (ec_block hs salt counter V m, m, addtototal)) (seq 0 num_blks) (V, m, addtototal) ;;
  Ok (V, m).

(** echo_provider.hpp:280-284 *)
Record ec_st := mkec { ecs : st; ecsalt : list N; echs : N }.

(** echo_provider.hpp:162-168; [g] is the memory of the object. *)
Definition ec_ctor (hs : N) (g : st) : res ec_st :=
  _ <- validate_max hs 512 ;;
  Ok (mkec g (zeros 2) hs).
(** echo_provider.hpp:170-176 *)
Definition ec_ctor_static (hs : N) (g : st) : res ec_st := Ok (mkec g (zeros 2) hs).

(** echo_provider.hpp:183-194: the loop assigns the whole chaining value. *)
Definition ec_init (s : ec_st) : res ec_st :=
  let hs := echs s in
  let V := flat_map (fun _ => [hs; 0]) (seq 0 (if 256 <? hs then 8 else 4)) in
  Ok (mkec (mkst V (zeros (ec_bs hs)) 0 0) (ecsalt s) hs).

(** algorithm/mixin/echo_mixin.hpp:32-54 *)
Inductive ec_param := EcSalt.
(** echo_provider.hpp:196-205 *)
Definition ec_set (q : ec_param) (v : list N) (s : ec_st) : setres ec_st :=
  let n := length v in
  if negb (n =? 0)%nat && negb (n =? 16)%nat then Raised s
  else if negb (n =? 0)%nat then Done (mkec (ecs s) (le_words 8 2 v) (echs s))
  else Done (mkec (ecs s) (zeros 2) (echs s)).

(** echo_provider.hpp:207-211. When absorb_bytes calls with the buffer itself, copying its
    contents onto it is no change. *)
Definition ec_update (s : ec_st) (data : list N) : res ec_st :=
  let hs := echs s in
  let x := ecs s in
  ' (V, m, pos, total) <-
    absorb_bytes (fun V m t d n => ec_transform hs (ecsalt s) V m t (Some d) n true (N.of_nat (ec_bs hs * n)))
      (ec_bs hs) (ec_bs hs) data (sh x) (sm x) (spos x) (stotal x) ;;
  Ok (mkec (mkst V m pos total) (ecsalt s) hs).

(** echo_provider.hpp:213-234 *)
Definition ec_final (s : ec_st) : res (ec_st * list N) :=
  let hs := echs s in
  let x := ecs s in
  let limit := ec_bs hs in
  let total := trunc 64 (stotal x + N.of_nat (8 * spos x)) in
  m <- store (sm x) (spos x) 0x80 ;;
  let pos := (spos x + 1)%nat in
  ' (V, m, pos) <-
    (if (limit - 18 <? pos)%nat then
       m <- (if negb (limit =? pos)%nat then k <- size_sub limit pos ;; memset m pos 0 k else Ok m) ;;
       ' (V, m) <- ec_transform hs (ecsalt s) (sh x) m total None 1 true 0 ;;
       Ok (V, m, 0%nat)
     else Ok (sh x, m, pos)) ;;
  k <- size_sub (limit - 18) pos ;;
  m <- memset m pos 0 k ;;
  m <- memcpy m (limit - 18) (le_bytes 2 (trunc 16 hs)) 2 ;;
  m <- memcpy m (limit - 16) (le_bytes 8 total) 8 ;;
  m <- memset m (limit - 8) 0 8 ;;
  ' (V, m) <- ec_transform hs (ecsalt s) V m total None 1 (1 <? pos)%nat 0 ;;
  h <- load (words_bytes 8 V ++ m) 0 (N.to_nat (hs / 8)) ;;
  Ok (mkec (mkst V m pos total) (ecsalt s) hs, h).

(** echo_provider.hpp:236-240 *)
Definition ec_clear (s : ec_st) : res ec_st :=
  let x := ecs s in
  Ok (mkec (mkst (zero_memory (sh x)) (zero_memory (sm x)) (spos x) (stotal x)) (zero_memory (ecsalt s)) (echs s)).

(** algorithm/echo.hpp:62 *)
Definition echo : hash_provider :=
  {| hp := {| pst := ec_st; p_init := ec_init; p_update := ec_update; p_clear := ec_clear;
              p_param := ec_param; p_set := ec_set |};
     hp_final := ec_final; hp_size := echs |}.
