(** * Empty data behind a null pointer: absorb(nullptr, 0) and the setters with (nullptr, 0).

    The data() of an empty vector, string_view or array may be a null pointer, and hasher.hpp:86
    passes pointer and length on. The other files identify such a call with one that has an
    empty array. Here the pointer is null.

    [strict]: what the language says of memcpy with a null pointer and 0 bytes. It is
    undefined up to C23 and C++23 (C11 7.24.1p2: pointer arguments shall be valid even if n is
    zero); allowed by the later wording. *)
From Verif Require Import Base Absorb Hasher MdState Library Md5 Sha1 Sha2 Sm3 Whirlpool Keccak Sha3 Shake Kmac K12 Ascon Esch
  TTable Groestl Kupyna Streebog Jh Lsh Skein Blake Blake2 Blake2p Echo LibraryTypes.

(** [memcpy(dst + pos, nullptr, n)] at absorb_data.hpp:21, 37 and blake2_provider.hpp:219, 227. *)
Definition memcpy_null (strict : bool) (dst : list N) (pos n : nat) : res (list N) :=
  if strict then UB NullPointer
  else if (n =? 0)%nat then if (pos <=? length dst)%nat then Ok dst else UB OutOfBounds
  else UB NullPointer.
(** The blocks that transform(data, blocks) reads, absorb_data.hpp:32. *)
Definition load_null (n : nat) : res (list N) := if (n =? 0)%nat then Ok [] else UB NullPointer.

(** absorb_data.hpp:14-39 with [data = nullptr] and [len = 0]. In the first branch [len -= bs - pos]
    is reached only with [bs = pos]. *)
Definition absorb_null (strict : bool) {C : Type}
  (tf : C -> list N -> N -> list N -> nat -> res (C * list N))
  (bs bschk : nat) (c : C) (m : list N) (pos : nat) (total : N)
  : res (C * list N * nat * N) :=
  ' (c, m, pos, total) <-
    (if negb (pos =? 0)%nat && (bschk <=? pos)%nat then
       k <- size_sub bs pos ;;
       m <- memcpy_null strict m pos k ;;
       blk <- load m 0 bs ;;
       ' (c, m) <- tf c m total blk 1%nat ;;
       Ok (c, m, 0%nat, trunc 64 (total + N.of_nat (bs * 8)))
     else Ok (c, m, pos, total)) ;;
  ' (c, m, total) <-
    (if (bschk <=? 0)%nat then
       let blocks := ((bs - bschk) / bs)%nat in
       let bytes := (blocks * bs)%nat in
       blk <- load_null bytes ;;
       ' (c, m) <- tf c m total blk blocks ;;
       Ok (c, m, trunc 64 (total + N.of_nat (bytes * 8)))
     else Ok (c, m, total)) ;;
  m <- memcpy_null strict m pos 0 ;;
  Ok (c, m, pos, total).

Section Updates.
Variable strict : bool.

(** [update(nullptr, 0)], e.g. sha2_provider.hpp:183-187. *)
Definition md_null (step : list N -> N -> list N -> list N) (bs bschk : nat) (s : st) : res st :=
  ' (h, m, pos, total) <-
    absorb_null strict (fun h m t d n => Ok (block_loop step bs h t d n, m))
      bs bschk (sh s) (sm s) (spos s) (stotal s) ;;
  Ok (mkst h m pos total).
(** E.g. sm3_provider.hpp:74-78. *)
Definition md_null_res (step : list N -> N -> list N -> res (list N)) (bs bschk : nat) (s : st) : res st :=
  ' (h, m, pos, total) <-
    absorb_null strict (fun h m t d n => h <- block_loop_res step bs h t d n ;; Ok (h, m))
      bs bschk (sh s) (sm s) (spos s) (stotal s) ;;
  Ok (mkst h m pos total).

(** md5_provider.hpp:71-75 *)
Definition md5_null : st -> res st := md_null md5_block 64 64.
(** sha1_provider.hpp:62-66 *)
Definition sha1_null : st -> res st := md_null sha1_block 64 64.
(** sha2_provider.hpp:183-187 *)
Definition sha2_null (T : sha2_word) (s : sha2_st) : res sha2_st :=
  x <- md_null (sha2_block T) (sha2_bs T) (sha2_bs T) (s2 s) ;; Ok (mk2 x (s2_hs s)).
(** sm3_provider.hpp:74-78 *)
Definition sm3_null (sem : shift_sem) : st -> res st := md_null_res (sm3_block sem) 64 64.
(** whirlpool_provider.hpp:56-60 *)
Definition wp_null : st -> res st := md_null wp_block 64 64.
(** sha3_provider.hpp:155-159 *)
Definition sha3_null (s : sha3_st) : res sha3_st :=
  let r := N.to_nat (k3_rate s / 8) in
  s' <- md_null_res (kc_block 24 (N.to_nat (k3_rate s / 64))) r r (k3 s) ;;
  Ok (mk3 s' (k3_hs s) (k3_rate s)).
(** shake_provider.hpp:113-117 *)
Definition shake_null (B : N) (R : nat) (s : shake_st) : res shake_st :=
  k <- md_null_res (kc_block R (N.to_nat (shake_rate B / 64))) (N.to_nat (shake_rate B / 8)) (N.to_nat (shake_rate B / 8)) (hk s) ;;
  Ok (mksh k (hN s) (hS s) (hsq s) (hsfx s)).
(** kmac_provider.hpp:89-92 *)
Definition kmac_null (B : N) (s : kmac_st) : res kmac_st :=
  sh <- shake_null B 24 (kmsh s) ;;
  Ok (mkkm (kmK s) (kmhs s) (kmsq s) sh).
(** k12m14_provider.hpp:55-59 *)
Definition k12_null (B : N) (R : nat) (s : k12_st) : res k12_st :=
  ' (c, m, pos, total) <-
    absorb_null strict (fun c m t d n => c <- block_loop_res (k12_chunk B R) k12_bs c t d n ;; Ok (c, m))
      k12_bs (k12_bs + 1) (kmain s, kchild s, kchunk s) (km s) (kpos s) (ktotal s) ;;
  let '(main, child, chunk) := c in
  Ok (mkk12 main child m (kS s) pos total chunk (ksq s)).
(** ascon_provider.hpp:85-89 *)
Definition ascon_null (s : ascon_st) : res ascon_st :=
  k <- md_null ascon_block 8 8 (ak s) ;;
  Ok (mkas k (aZ s) (asq s)).
(** esch_provider.hpp:118-122 *)
Definition esch_null (s : esch_st) : res esch_st :=
  k <- md_null (esch_block (ehs s) false) 16 17 (ek s) ;;
  Ok (mkes k (ehs s) (esq s)).
(** groestl_provider.hpp:137-141 *)
Definition gr_null (s : cl_st) : res cl_st :=
  let bs := cl_bs (clhs s) in
  x <- md_null (gr_step (clhs s)) bs bs (cls s) ;; Ok (mkcl x (clhs s)).
(** kupyna_provider.hpp:135-139 *)
Definition ku_null (s : cl_st) : res cl_st :=
  let bs := cl_bs (clhs s) in
  x <- md_null (ku_step (clhs s)) bs bs (cls s) ;; Ok (mkcl x (clhs s)).
(** streebog_provider.hpp:135-139 *)
Definition sb_null (s : sb_st) : res sb_st :=
  x <- md_null sb_step 64 64 (sbs s) ;; Ok (mksb x (sbhs s)).
(** jh_provider.hpp:136-140 *)
Definition jh_null (s : jh_st) : res jh_st :=
  x <- md_null jh_step 64 64 (jhs s) ;; Ok (mkjh x (jhhs s)).
(** lsh_provider.hpp:112-116 *)
Definition lsh_null (sem : shift_sem) (w : N) (s : lsh_st) : res lsh_st :=
  x <- md_null_res (lsh_block sem w) (lsh_bs w) (lsh_bs w) (lss s) ;; Ok (mklsh x (lshs s)).
(** skein_provider.hpp:247-251 *)
Definition sk_null (nw : nat) (s : sk_st) : res sk_st :=
  c <- md_null (sk_step nw (N.of_nat (8 * nw))) (8 * nw) (8 * nw + 1) (skc s) ;;
  Ok (mksk c (skhb s) (skhs s) (sksq s) (skp s) (skn s) (skk s)).
(** echo_provider.hpp:207-211 *)
Definition ec_null (s : ec_st) : res ec_st :=
  let hs := echs s in
  let x := ecs s in
  ' (V, m, pos, total) <-
    absorb_null strict (fun V m t d n => ec_transform hs (ecsalt s) V m t (Some d) n true (N.of_nat (ec_bs hs * n)))
      (ec_bs hs) (ec_bs hs) (sh x) (sm x) (spos x) (stotal x) ;;
  Ok (mkec (mkst V m pos total) (ecsalt s) hs).
(** blake_provider.hpp:224-228 *)
Definition bl_null (s : bl_st) : res bl_st :=
  let w := bl_w (blhs s) in
  x <- md_null (bl_step w) (bl_bs w) (bl_bs w) (bls s) ;; Ok (mkbl x (blhs s)).
(** blake2_provider.hpp:200-204 *)
Definition b2_null (w : N) (s : b2_st) : res b2_st :=
  c <- md_null (b2_step w) (b2_bs w) (b2_bs w + 1) (b2c s) ;;
  Ok (mkb2 c (b2s s) (b2p s) (b2k s) (b2hs s) (b2xo s) (b2sq s) (b2fo s) (b2nd s) (b2no s)).
(** blake2p_provider.hpp:82-86 *)
Definition b2p_null (tf : b2p_tf) (s : b2p_st) : res b2p_st :=
  ' (leaf, m, pos, total) <-
    absorb_null strict (fun leaf m t d n => leaf <- tf leaf t d n ;; Ok (leaf, m))
      bp_bs bp_bs (bpleaf s) (bpm s) (bppos s) (bptotal s) ;;
  Ok (mkb2pst (bpmain s) leaf m pos total (bphs s)).

(** ** Setters with (nullptr, 0) *)
(** Those that build a string first, e.g. skein_mixin.hpp:44-47, kmac_mixin.hpp:44-47,
    cshake_mixin.hpp:44-47, k12m14_mixin.hpp:45-48, ascon_cxof_mixin.hpp:44-47 and set_key in
    blake2_mixin.hpp:116-119. [std::string(nullptr, 0)] is the empty string (C++14 and later; also
    what the implementations of C++11 do). *)
Definition string_set (P : provider) (q : p_param P) (s : pst P) : setres (pst P) := p_set P q [] s.
(** blake2_mixin.hpp:47-53, 80-86, blake2_provider.hpp:214-228: the length is not tested again
    before the copy. s and p (378-379) have [N / 32] bytes, so only the null pointer matters. *)
Definition b2_set_null (w : N) (q : b2_param) (s : b2_st) : setres b2_st :=
  match q with
  | B2Key => b2_set w B2Key [] s
  | B2Salt | B2Pers => if strict then SetUB NullPointer else Done s
  end.
(** blake2p_provider.hpp:88-107 *)
Fixpoint b2_set_all_null (w : N) (q : b2_param) (l : list b2_st) : setres (list b2_st) :=
  match l with
  | [] => Done []
  | x :: r =>
    match b2_set_null w q x with
    | Done x => match b2_set_all_null w q r with Done r => Done (x :: r) | Raised r => Raised (x :: r) | SetUB u => SetUB u end
    | Raised x => Raised (x :: r)
    | SetUB u => SetUB u
    end
  end.
(** blake2p_provider.hpp:88-107 *)
Definition b2p_set_null (w : N) (q : b2_param) (s : b2p_st) : setres b2p_st :=
  match b2_set_null w q (bpmain s) with
  | SetUB u => SetUB u
  | Raised m => Raised (mkb2pst m (bpleaf s) (bpm s) (bppos s) (bptotal s) (bphs s))
  | Done m =>
    match b2_set_all_null w q (bpleaf s) with
    | Done l => Done (mkb2pst m l (bpm s) (bppos s) (bptotal s) (bphs s))
    | SetUB u => SetUB u
    | Raised l => Raised (mkb2pst m l (bpm s) (bppos s) (bptotal s) (bphs s))
    end
  end.
(** echo_mixin.hpp:48-54, echo_provider.hpp:195-205: the memset is taken. *)
Definition ec_set_null (q : ec_param) (s : ec_st) : setres ec_st := Done (mkec (ecs s) (zeros 2) (echs s)).
(** blake_mixin.hpp:48-54, blake_provider.hpp:230-239, 137-144: the salt is not read. *)
Definition bl_set_null (q : bl_param) (s : bl_st) : setres bl_st :=
  let x := bls s in Done (mkbl (mkst (firstn 8 (sh x) ++ zeros 4) (sm x) (spos x) (stotal x)) (blhs s)).
End Updates.

(** ** Calls *)
(** update(nullptr, 0) and set_*(nullptr, 0) of a provider: hasher.hpp:88 and the mixins. *)
Record nulls (P : provider) := mknulls {
  n_update : bool -> pst P -> res (pst P);
  n_set : bool -> p_param P -> pst P -> setres (pst P)
}.
Arguments n_update {P} n. Arguments n_set {P} n.
(** Providers whose setters all go through strings. E.g. algorithm/mixin/skein_mixin.hpp. *)
Definition by_string (P : provider) (u : bool -> pst P -> res (pst P)) : nulls P :=
  mknulls P u (fun _ => string_set P).

(** Specification: the setters that copy from the pointer without looking at the length. *)
Definition none {param} (_ : param) : bool := false.
(** blake2_provider.hpp:219, 227; the key is a string (206-212). *)
Definition salt_or_pers (q : b2_param) : bool := match q with B2Key => false | _ => true end.

(** One line per provider, algorithm/detail/*_provider.hpp. *)
Inductive null_calls : forall P : provider, nulls P -> (p_param P -> bool) -> Prop :=
| nl_md5 : null_calls md5 (by_string md5 md5_null) none
| nl_sha1 : null_calls sha1 (by_string sha1 sha1_null) none
| nl_sha256 : null_calls sha256_family (by_string sha256_family (fun b => sha2_null b W32)) none
| nl_sha512 : null_calls sha512_family (by_string sha512_family (fun b => sha2_null b W64)) none
| nl_sm3 sem : null_calls (sm3 sem) (by_string (sm3 sem) (fun b => sm3_null b sem)) none
| nl_whirlpool : null_calls whirlpool (by_string whirlpool wp_null) none
| nl_sha3 : null_calls sha3 (by_string sha3 sha3_null) none
| nl_shake B : null_calls (shake B 24) (by_string (shake B 24) (fun b => shake_null b B 24)) none
| nl_cshake B : null_calls (cshake B 24) (by_string (cshake B 24) (fun b => shake_null b B 24)) none
| nl_kmac B : null_calls (kmac B) (by_string (kmac B) (fun b => kmac_null b B)) none
| nl_kmacxof B : null_calls (kmacxof B) (by_string (kmacxof B) (fun b => kmac_null b B)) none
| nl_k12 B R : null_calls (k12 B R) (by_string (k12 B R) (fun b => k12_null b B R)) none
| nl_ascon_hash : null_calls ascon_hash (by_string ascon_hash ascon_null) none
| nl_ascon_xof : null_calls ascon_xof (by_string ascon_xof ascon_null) none
| nl_ascon_cxof : null_calls ascon_cxof (by_string ascon_cxof ascon_null) none
| nl_esch : null_calls esch (by_string esch esch_null) none
| nl_esch_xof : null_calls esch_xof (by_string esch_xof esch_null) none
| nl_groestl : null_calls groestl (by_string groestl gr_null) none
| nl_kupyna : null_calls kupyna (by_string kupyna ku_null) none
| nl_streebog : null_calls streebog (by_string streebog sb_null) none
| nl_jh : null_calls jh (by_string jh jh_null) none
| nl_lsh sem w : null_calls (lsh sem w) (by_string (lsh sem w) (fun b => lsh_null b sem w)) none
| nl_skein nw : null_calls (skein nw) (by_string (skein nw) (fun b => sk_null b nw)) none
| nl_skein_xof nw : null_calls (skein_xof nw) (by_string (skein_xof nw) (fun b => sk_null b nw)) none
| nl_echo : null_calls echo (mknulls echo ec_null (fun _ => ec_set_null)) none
| nl_blake : null_calls blake (mknulls blake bl_null (fun _ => bl_set_null)) none
| nl_blake2 w ty : null_calls (blake2 w ty) (mknulls (blake2 w ty) (fun b => b2_null b w) (fun b => b2_set_null b w)) salt_or_pers
| nl_blake2x w : null_calls (blake2x_xof w) (mknulls (blake2x_xof w) (fun b => b2_null b w) (fun b => b2_set_null b w)) salt_or_pers
| nl_blake2p w tf : null_calls (blake2p_with w tf)
    (mknulls (blake2p_with w tf) (fun b => b2p_null b tf) (fun b => b2p_set_null b w)) salt_or_pers.

(** A call of the other files, absorb(nullptr, 0) or a setter with (nullptr, 0).
    A caller's view; no code of /repo. *)
Inductive nop (op param : Type) := Given (o : op) | NullAbsorb | NullSet (q : param).
Arguments Given {op param} o. Arguments NullAbsorb {op param}. Arguments NullSet {op param} q.

Section Runs.
  Variables (P : provider) (U : nulls P) (strict : bool) (op : Type) (step : pst P -> op -> res (pst P * out)).
  (** hasher.hpp:86-90 and, e.g., blake2_mixin.hpp:47-53: the setter, then init(). *)
  Definition nstep (s : pst P) (o : nop op (p_param P)) : res (pst P * out) :=
    match o with
    | Given o => step s o
    | NullAbsorb => s' <- n_update U strict s ;; Ok (s', ODone)
    | NullSet q =>
      match n_set U strict q s with
      | Done s' => s'' <- p_init P s' ;; Ok (s'', ODone)
      | Raised s' => Ok (s', OThrow)
      | SetUB w => UB w
      end
    end.
  (** The calls one after the other; no code of /repo. *)
  Fixpoint nrun (s : pst P) (ops : list (nop op (p_param P))) : res (pst P * list out) :=
    match ops with
    | [] => Ok (s, [])
    | o :: r =>
      ' (s, x) <- nstep s o ;;
      ' (s, xs) <- nrun s r ;;
      Ok (s, x :: xs)
    end.
End Runs.

(** What [post] returns on a new object after [pre], as [after] and [xafter] in Library.v.
    A caller's view; no code of /repo. *)
Definition nafter {P} (T : htype P) (U : nulls P) (strict : bool) (g : ht_mem T)
  (pre post : list (nop (hash_op (p_param P)) (p_param P))) : res (list out) :=
  s <- ht_new T g ;;
  ' (s, _) <- nrun P U strict _ (hash_step P) s pre ;;
  ' (_, l) <- nrun P U strict _ (hash_step P) s post ;;
  Ok l.
(** The same for extendable output. A caller's view; no code of /repo. *)
Definition nxafter {P} (T : xtype P) (U : nulls P) (strict : bool) (g : xt_mem T)
  (pre post : list (nop (xof_op (p_param P)) (p_param P))) : res (list out) :=
  s <- xt_new T g ;;
  ' (s, _) <- nrun P U strict _ (xof_step P) s pre ;;
  ' (_, l) <- nrun P U strict _ (xof_step P) s post ;;
  Ok l.

(** ** Specification *)
(** The same call with an empty array instead. Specification; no code of /repo. *)
Definition as_empty {param} (o : nop (hash_op param) param) : hash_op param :=
  match o with Given o => o | NullAbsorb => HBase (Absorb FPtr []) | NullSet q => HBase (SetParam q []) end.
(** Specification; no code of /repo. *)
Definition xas_empty {param} (o : nop (xof_op param) param) : xof_op param :=
  match o with Given o => o | NullAbsorb => XBase (Absorb FPtr []) | NullSet q => XBase (SetParam q []) end.
(** Calls that reach memcpy with a null pointer; [d] names the setters.
    Specification; no code of /repo. *)
Definition copies_null {op param} (d : param -> bool) (o : nop op param) : bool :=
  match o with Given _ => false | NullAbsorb => true | NullSet q => d q end.
