(** * Base: outcomes, machine words, memory.

    Everything here is total and computable. Words are [N] with explicit
    truncation, bytes are [N] below 256, memory regions are [list N]. *)
From Coq Require Export List NArith Arith Bool Lia.
Export ListNotations.
Open Scope N_scope.

(** ** Outcomes *)

(** Reasons for undefined behaviour in the C++ sense.
    Language rules, not code of /repo; e.g. functions.hpp:63, hasher.hpp:273. *)
Inductive ub_reason := OutOfBounds | BadShift | EmptyVectorRef | NullPointer.

(** Outcome of a C++ call: normal return, exception, or undefined behaviour.
    Exceptions: e.g. validate_hash_size.hpp:16-22, hasher.hpp:327. *)
Inductive res (A : Type) : Type :=
| Ok (a : A)
| Throw
| UB (why : ub_reason).
Arguments Ok {A} a.
Arguments Throw {A}.
Arguments UB {A} why.

(** Sequencing of C++ statements; no code of /repo. *)
Definition bind {A B} (r : res A) (f : A -> res B) : res B :=
  match r with Ok a => f a | Throw => Throw | UB w => UB w end.

Declare Scope res_scope.
Delimit Scope res_scope with res.
Notation "x <- e ;; k" := (bind e (fun x => k))
  (at level 61, e at next level, right associativity) : res_scope.
Notation "' p <- e ;; k" := (bind e (fun x => match x with p => k end))
  (at level 61, p pattern, e at next level, right associativity) : res_scope.
Open Scope res_scope.

(** Whether a call returned normally; no code of /repo. *)
Definition is_ok {A} (r : res A) : bool :=
  match r with Ok _ => true | _ => false end.

(** ** Machine words *)

(** Truncation to [w] bits: the value of a C++ unsigned [w]-bit expression.
    Every uint32_t and uint64_t assignment in /repo, e.g. absorb_data.hpp:25. *)
Definition trunc (w x : N) : N := N.land x (N.ones w).

(** uintW_t addition, wraps modulo 2^w. E.g. sha2_provider.hpp:230. *)
Definition addw (w x y : N) : N := trunc w (x + y).

(** uintW_t subtraction, wraps modulo 2^w. E.g. functions.hpp:63 [32 - n]. *)
Definition subw (w x y : N) : N := trunc w (x + (N.ones w + 1 - trunc w y)).

(** [x << n] on uintW_t ([n < w]). E.g. functions.hpp:69. *)
Definition shlw (w x n : N) : N := trunc w (N.shiftl x n).

(** [x >> n]. E.g. functions.hpp:63. *)
Definition shrw (x n : N) : N := N.shiftr x n.

(** [~x] on uintW_t. E.g. sha2_provider.hpp:25. *)
Definition notw (w x : N) : N := N.lxor x (N.ones w).

(** detail/functions.hpp:61-64 and 73-76 rotate_right, for [0 < n < w]. *)
Definition rotr (w x n : N) : N := N.lor (shrw x n) (shlw w x (w - n)).

(** detail/functions.hpp:67-70 and 79-82 rotate_left, for [0 < n < w]. *)
Definition rotl (w x n : N) : N := N.lor (shlw w x n) (shrw x (w - n)).

(** Shift semantics: what the hardware/compiler does for a shift count that is
    not below the width. [Strict] is the C++ standard, [Masked] is the x86
    instruction behaviour (count taken modulo the width).
    Matters for functions.hpp:61-82, e.g. as called at lsh_provider.hpp:176. *)
Inductive shift_sem := Strict | Masked.

(** [x << n] with explicit treatment of out-of-range counts;
    [n] is a 32-bit unsigned. In functions.hpp:61-82. *)
Definition shl_c (sem : shift_sem) (w x n : N) : res N :=
  if n <? w then Ok (shlw w x n)
  else match sem with Strict => UB BadShift | Masked => Ok (shlw w x (n mod w)) end.

(** [x >> n] in the same way, functions.hpp:61-82. *)
Definition shr_c (sem : shift_sem) (w x n : N) : res N :=
  if n <? w then Ok (shrw x n)
  else match sem with Strict => UB BadShift | Masked => Ok (shrw x (n mod w)) end.

(** detail/functions.hpp:67-70/79-82 rotate_left with a run-time count
    ([w - n] is computed in 32-bit unsigned arithmetic). *)
Definition rotl_c (sem : shift_sem) (w x n : N) : res N :=
  a <- shl_c sem w x n ;;
  b <- shr_c sem w x (subw 32 w n) ;;
  Ok (N.lor a b).

(** detail/functions.hpp:22-28 byteswap(uint32_t). *)
Definition byteswap32 (v : N) : N :=
  N.lor (N.lor (N.lor
    (N.shiftr (N.land v 0xff000000) 24)
    (N.shiftr (N.land v 0x00ff0000) 8))
    (shlw 32 (N.land v 0x0000ff00) 8))
    (shlw 32 (N.land v 0x000000ff) 24).

(** detail/functions.hpp:31-41 byteswap(uint64_t). *)
Definition byteswap64 (v : N) : N :=
  N.lor (N.lor (N.lor (N.lor (N.lor (N.lor (N.lor
    (N.shiftr (N.land v 0xff00000000000000) 56)
    (N.shiftr (N.land v 0x00ff000000000000) 40))
    (N.shiftr (N.land v 0x0000ff0000000000) 24))
    (N.shiftr (N.land v 0x000000ff00000000) 8))
    (shlw 64 (N.land v 0x00000000ff000000) 8))
    (shlw 64 (N.land v 0x0000000000ff0000) 24))
    (shlw 64 (N.land v 0x000000000000ff00) 40))
    (shlw 64 (N.land v 0x00000000000000ff) 56).

(** ** Byte representation (little-endian machine) *)

(** The [k] bytes of [x] in increasing address order.
    What reinterpret_cast and memcpy on words see, e.g. md5_provider.hpp:89, 91. *)
Fixpoint le_bytes (k : nat) (x : N) : list N :=
  match k with
  | O => []
  | S k' => N.land x 255 :: le_bytes k' (N.shiftr x 8)
  end.

(** The word stored in the given bytes. E.g. ascon_provider.hpp:145. *)
Fixpoint le_word (bs : list N) : N :=
  match bs with
  | [] => 0
  | b :: r => b + 256 * le_word r
  end.

(** Big-endian counterparts, used by specifications.
    Not in /repo: the code uses byteswap, functions.hpp:22-41. *)
Definition be_bytes (k : nat) (x : N) : list N := rev (le_bytes k x).
(** The word stored in the given bytes, most significant byte first; no code of /repo. *)
Definition be_word (bs : list N) : N := le_word (rev bs).

(** [n] consecutive little-endian words of [k] bytes each. E.g. skein_provider.hpp:326. *)
Fixpoint le_words (k n : nat) (data : list N) : list N :=
  match n with
  | O => []
  | S n' => le_word (firstn k data) :: le_words k n' (skipn k data)
  end.

(** [n] consecutive big-endian words; no code of /repo. *)
Fixpoint be_words (k n : nat) (data : list N) : list N :=
  match n with
  | O => []
  | S n' => be_word (firstn k data) :: be_words k n' (skipn k data)
  end.

(** Memory image of an array of words.
    What memcpy from an array of words copies, e.g. sha2_provider.hpp:205. *)
Definition words_bytes (k : nat) (ws : list N) : list N := flat_map (le_bytes k) ws.

(** ** Memory regions *)

(** [n] zero elements, e.g. the vector of hasher.hpp:272. *)
Definition zeros (n : nat) : list N := repeat 0 n.

(** Overwrite [src] at offset [pos] (in bounds).
    Effect of memcpy, memset and assignments to array elements, e.g. absorb_data.hpp:37. *)
Definition overlay (dst : list N) (pos : nat) (src : list N) : list N :=
  firstn pos dst ++ src ++ skipn (pos + length src) dst.

(** [memcpy(dst + pos, src, n)] where [dst] is the destination array and [src] the
    readable bytes from the source pointer on. E.g. absorb_data.hpp:21. *)
Definition memcpy (dst : list N) (pos : nat) (src : list N) (n : nat) : res (list N) :=
  if (pos + n <=? length dst)%nat && (n <=? length src)%nat
  then Ok (overlay dst pos (firstn n src))
  else UB OutOfBounds.

(** [memset(dst + pos, v, n)]. E.g. sha2_provider.hpp:199. *)
Definition memset (dst : list N) (pos : nat) (v : N) (n : nat) : res (list N) :=
  if (pos + n <=? length dst)%nat
  then Ok (overlay dst pos (repeat v n))
  else UB OutOfBounds.

(** [dst[pos] = v]. E.g. sha2_provider.hpp:192. *)
Definition store (dst : list N) (pos : nat) (v : N) : res (list N) :=
  if (pos <? length dst)%nat
  then Ok (overlay dst pos [v])
  else UB OutOfBounds.

(** Read [n] bytes from offset [pos].
    E.g. the bytes read by transform(m, 1), absorb_data.hpp:22. *)
Definition load (src : list N) (pos n : nat) : res (list N) :=
  if (pos + n <=? length src)%nat
  then Ok (firstn n (skipn pos src))
  else UB OutOfBounds.

(** [a - b] on size_t used as a length: underflow makes the following memory
    operation out of bounds. E.g. absorb_data.hpp:21. *)
Definition size_sub (a b : nat) : res nat :=
  if (b <=? a)%nat then Ok (a - b)%nat else UB OutOfBounds.

(** Element access to fixed-size local arrays and constant tables at indices that
    are loop counters or bytes. E.g. sha2_provider.hpp:40, 230. *)
Definition nthN (i : nat) (l : list N) : N := nth i l 0.
(** The same with a number as index, e.g. echo_provider.hpp:76. *)
Definition tbl (l : list N) (i : N) : N := nth (N.to_nat i) l 0.

(** [static_cast<unsigned char>(x >> n)]. E.g. echo_provider.hpp:77. *)
Definition byte_at (x n : N) : N := N.land (N.shiftr x n) 255.

(** List update at an index (used for local arrays with in-range indices).
    E.g. skein_provider.hpp:338. *)
Fixpoint upd {A} (i : nat) (v : A) (l : list A) : list A :=
  match l, i with
  | [], _ => []
  | _ :: r, O => v :: r
  | x :: r, S i' => x :: upd i' v r
  end.

(** Pointwise combination. E.g. the loop skein_provider.hpp:357-358. *)
Fixpoint map2 {A B C} (f : A -> B -> C) (l : list A) (l' : list B) : list C :=
  match l, l' with
  | x :: r, y :: r' => f x y :: map2 f r r'
  | _, _ => []
  end.

(** Byte strings. What an unsigned char array holds (hasher.hpp:88); used by the proofs. *)
Definition bytes_ok (l : list N) : Prop := Forall (fun b => b < 256) l.
(** What an array of [w]-bit words holds; used by the proofs, no code of /repo. *)
Definition words_ok (w : N) (l : list N) : Prop := Forall (fun x => x < 2 ^ w) l.
