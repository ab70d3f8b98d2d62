(** * Model of algorithm/detail/k12m14_provider.hpp. *)
From Verif Require Import Base Absorb Hasher MdState Keccak Squeeze Sha3 Shake.

(** k12m14_provider.hpp:133-140. The chunk counter is an unbounded number: to wrap, a
    size_t counter needs 2^77 bytes of input. *)
Record k12_st := mkk12 {
  kmain : shake_st;
  kchild : shake_st;
  km : list N;        (* m[8192] *)
  kS : list N;
  kpos : nat;
  ktotal : N;
  kchunk : N;
  ksq : bool
}.

(** k12m14_provider.hpp:103, 135 *)
Definition chunk_size : N := 8192.
(** m.size(), k12m14_provider.hpp:57 *)
Definition k12_bs : nat := N.to_nat chunk_size.

(** A new object: S is empty and the inner objects are newly constructed.
    k12m14_provider.hpp:31-34. *)
Definition k12_ctor (main child : shake_st) (m : list N) (pos : nat) (total chunk : N) (sq : bool) : res k12_st :=
  Ok (mkk12 main child m [] pos total chunk sq).

Section K12.
  Variables (B : N) (R : nat).

  (** k12m14_provider.hpp:46-53 *)
  Definition k12_init (s : k12_st) : res k12_st :=
    main <- shake_init B R (kmain s) ;;
    Ok (mkk12 main (kchild s) (km s) (kS s) 0 0 0 false).

  (** k12m14_provider.hpp:101-117: loop body of transform. *)
  Definition k12_chunk (c : shake_st * shake_st * N) (_ : N) (data : list N) : res (shake_st * shake_st * N) :=
    let '(main, child, chunk) := c in
    ' (main, child) <-
      (if chunk =? 0 then
         main <- shake_update B R main data ;;
         main <- shake_update B R main [3; 0; 0; 0; 0; 0; 0; 0] ;;
         Ok (main, child)
       else
         child <- shake_update B R child data ;;
         ' (child, buf) <- shake_squeeze B R child (N.to_nat (B / 4)) ;;
         main <- shake_update B R main buf ;;
         Ok (main, child)) ;;
    child <- shake_init B R child ;;
    let child := shake_set_suffix 0x0b child in
    Ok (main, child, chunk + 1).

  (** k12m14_provider.hpp:55-59 *)
  Definition k12_update (s : k12_st) (data : list N) : res k12_st :=
    ' (c, m, pos, total) <-
      absorb_bytes (fun c m t d n => c <- block_loop_res k12_chunk k12_bs c t d n ;; Ok (c, m))
        k12_bs (k12_bs + 1) data (kmain s, kchild s, kchunk s) (km s) (kpos s) (ktotal s) ;;
    let '(main, child, chunk) := c in
    Ok (mkk12 main child m (kS s) pos total chunk (ksq s)).

  (** k12m14_provider.hpp:65-90; buf[B/4] has at least 32 bytes, the encodings at most 9. *)
  Definition k12_finish (s : k12_st) : res k12_st :=
    let buf := right_encode (trunc 64 (N.of_nat (length (kS s)))) true in
    s <- (match kS s with [] => Ok s | _ => k12_update s (kS s) end) ;;
    s <- k12_update s buf ;;
    ' (main, child) <-
      (if negb (kpos s =? 0)%nat then
         data <- load (km s) 0 (kpos s) ;;
         if kchunk s =? 0 then
           main <- shake_update B R (kmain s) data ;;
           Ok (shake_set_suffix 0x07 main, kchild s)
         else
           child <- shake_update B R (kchild s) data ;;
           ' (child, buf) <- shake_squeeze B R child (N.to_nat (B / 4)) ;;
           main <- shake_update B R (kmain s) buf ;;
           let main := shake_set_suffix 0x06 main in
           main <- shake_update B R main (right_encode (trunc 64 (kchunk s)) true) ;;
           main <- shake_update B R main [0xFF; 0xFF] ;;
           Ok (main, child)
       else Ok (shake_set_suffix 0x07 (kmain s), kchild s)) ;;
    Ok (mkk12 main child (km s) (kS s) (kpos s) (ktotal s) (kchunk s) true).

  (** k12m14_provider.hpp:61-93 *)
  Definition k12_squeeze (s : k12_st) (hs : nat) : res (k12_st * list N) :=
    s <- (if ksq s then Ok s else k12_finish s) ;;
    ' (main, out) <- shake_squeeze B R (kmain s) hs ;;
    Ok (mkk12 main (kchild s) (km s) (kS s) (kpos s) (ktotal s) (kchunk s) (ksq s), out).

  (** k12m14_provider.hpp:124-127: the memory after the calls of zero_memory, those in the
      inner objects included. *)
  Definition k12_wipe (s : k12_st) : k12_st :=
    mkk12 (shake_wipe (kmain s)) (shake_wipe (kchild s)) (zero_memory (km s)) (zero_memory (kS s))
      (kpos s) (ktotal s) (kchunk s) (ksq s).
  (** k12m14_provider.hpp:122-129 *)
  Definition k12_clear (s : k12_st) : res k12_st :=
    main <- shake_clear (kmain s) ;;
    child <- shake_clear (kchild s) ;;
    Ok (mkk12 main child (km (k12_wipe s)) [] (kpos s) (ktotal s) (kchunk s) (ksq s)).

  (** k12m14_provider.hpp:41-44 behind mixin/k12m14_mixin.hpp. *)
  Inductive k12_param := K12Customization.
  (** k12m14_provider.hpp:41-44 *)
  Definition k12_set (_ : k12_param) (v : list N) (s : k12_st) : setres k12_st :=
    Done (mkk12 (kmain s) (kchild s) (km s) v (kpos s) (ktotal s) (kchunk s) (ksq s)).

  (** algorithm/k12m14.hpp:56 k12 = <128, k12>, 68 kt128, 103 m14 = <256, m14>, 140
      kt256 = <256, k12>; [R] is 12 for k12 and 14 for m14 (132). *)
  Definition k12 : xof_provider :=
    {| xp := {| pst := k12_st; p_init := k12_init; p_update := k12_update; p_clear := k12_clear;
                p_param := k12_param; p_set := k12_set |};
       xp_squeeze := k12_squeeze |}.
End K12.
