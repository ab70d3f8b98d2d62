(** * What is presented to the compression functions and permutations (C43, C47).

    For every hash function the sequence of inputs of the compression function or
    permutation while a message is processed: blocks together with the counters, tweaks or
    domain constants that go with them. Written with the vocabulary of the specifications,
    independent of the model. *)
From Verif Require Import Base SpecCommon Hasher HasherSpec Library LibraryProof Blake2Spec BlakeSpec Blake2pSpec EchoSpec
  GroestlSpec KupynaSpec JhSpec StreebogSpec LshSpec SkeinSpec KeccakSpec Sha3Spec AsconSpec EschSpec K12Spec.

(** ** The absorbed message *)

(** Bytes absorbed since the last restart (construction, reset or successful set_* call). *)
Fixpoint since_from {P} (T : htype P) (m : list N) (ops : list (hash_op (p_param P))) : list N :=
  match ops with
  | [] => m
  | HBase (Absorb f d) :: r => since_from T (m ++ absorbed f d) r
  | HBase (Reset _) :: r => since_from T [] r
  | HBase (SetParam q v) :: r => since_from T (if ht_accepts T q v then [] else m) r
  | _ :: r => since_from T m r
  end.
Definition since {P} (T : htype P) ops : list N := since_from T [] ops.
Fixpoint xsince_from {P} (T : xtype P) (m : list N) (ops : list (xof_op (p_param P))) : list N :=
  match ops with
  | [] => m
  | XBase (Absorb f d) :: r => xsince_from T (m ++ absorbed f d) r
  | XBase (Reset _) :: r => xsince_from T [] r
  | XBase (SetParam q v) :: r => xsince_from T (if xt_accepts T q v then [] else m) r
  | _ :: r => xsince_from T m r
  end.
Definition xsince {P} (T : xtype P) ops : list N := xsince_from T [] ops.

(** The parameters in force. *)
Definition params_after {param} (S : hash_spec param) ops : sp_params S := fst (fst (arun S (afresh S) ops)).
Definition xparams_after {param} (S : xof_spec param) ops : xs_params S := fst (fst (fst (xrun S (xfresh S) ops))).

(** After any calls, digest() of an object of type [T] returns what [out] makes of the
    result of feeding the inputs [ins] of the absorbed message to [step], starting from
    [iv]. [S] describes the parameters only. *)
Definition processes {P} (T : htype P) (S : hash_spec (p_param P)) {A B}
  (ins : sp_params S -> list N -> list B) (step : sp_params S -> A -> B -> A) (iv : sp_params S -> A)
  (out : sp_params S -> A -> list N) : Prop :=
  forall g ops, ht_mem_ok T g -> hcalls T ops ->
  after T g ops [HDigestIter] =
    Ok [OBytes (let p := params_after S ops in out p (fold_left (step p) (ins p (since T ops)) (iv p)))].
(** For extendable output: squeezing [n] bytes when nothing has been squeezed yet. *)
Definition xprocesses {P} (T : xtype P) (S : xof_spec (p_param P)) {A B}
  (ins : xs_params S -> list N -> list B) (step : xs_params S -> A -> B -> A) (iv : xs_params S -> A)
  (out : xs_params S -> A -> nat -> list N) : Prop :=
  forall g ops n, xt_mem_ok T g -> xcalls T ops -> xflag T ops = false -> (0 < n)%nat ->
  xafter T g ops [XSqueezeIter n] =
    Ok [OBytes (let p := xparams_after S ops in out p (fold_left (step p) (ins p (xsince T ops)) (iv p)) n)].

(** Different messages have different inputs. *)
Definition separates {B} (ins : list N -> list B) : Prop :=
  forall m1 m2, is_bytes m1 -> is_bytes m2 -> ins m1 = ins m2 -> m1 = m2.
(** ... if they are shorter than 2^61 bytes. *)
Definition separates_short {B} (ins : list N -> list B) : Prop :=
  forall m1 m2, is_bytes m1 -> is_bytes m2 -> N.of_nat (length m1) < 2 ^ 61 -> N.of_nat (length m2) < 2 ^ 61 ->
  ins m1 = ins m2 -> m1 = m2.

(** ** Merkle-Damgaard strengthening with a length field [enc] *)
Definition md_inputs (bs : nat) (enc : N -> list N) (m : list N) : list (list N) :=
  blocks bs (md_pad bs (enc (bitlen m mod 2 ^ 64)) m).
Definition groestl_inputs (n : N) (m : list N) : list (list N) := blocks (8 * grs_C n) (grs_pad (8 * grs_C n) m).
Definition jh_inputs (m : list N) : list (list N) := blocks 64 (jhs_pad m).
Definition lsh_inputs (w : N) (m : list N) : list (list N) := blocks (lss_bs w) (lss_pad w m).

(** ** Blocks with counters: the block and the number of message bits hashed so far *)
Definition nth_block (bs : nat) (p : list N) (i : nat) : list N := firstn bs (skipn (i * bs) p).
Definition echo_inputs (n : N) (m : list N) : list (list N * N) :=
  map (fun i => (nth_block (echo_bs n) (echo_pad n m) i, echo_ctr n (length m) i))
    (seq 0 (length (echo_pad n m) / echo_bs n)).
Definition blake_inputs (n : N) (m : list N) : list (list N * N) :=
  let w := blake_w n in
  let p := padb w (if (n =? 256) || (n =? 512) then 1 else 0) m in
  map (fun i => (nth_block (bb w) p i, ctrb w (length m) i)) (seq 0 (length p / bb w)).
(** BLAKE2: the block, the counter of bytes and the finalization flag. *)
Definition blake2_inputs (w : N) (data : list N) : list (list N * N * bool) :=
  let dd := blocks_of w data in
  let padded := data ++ zeros (dd * bb w - length data) in
  map (fun i => (nth_block (bb w) padded i, ctr2 (i * bb w) + N.of_nat (bb w), false)) (seq 0 (dd - 1)) ++
  [(nth_block (bb w) padded (dd - 1), ctr2 (length data), true)].
(** BLAKE2bp/BLAKE2sp: the inputs of every leaf. *)
Definition blake2p_inputs (w : N) (key msg : list N) : list (list (list N * N * bool)) :=
  map (fun i => blake2_inputs w (key_pad w key ++ leaf_part w i msg)) (seq 0 (degree w)).
(** Skein: the zero-padded block and its tweak. *)
Definition skein_inputs (nw : nat) (ty : N) (M : list N) : list (list N * N) :=
  let k := ubi_count nw (length M) in
  map (fun i =>
    let block := nth_block (8 * nw) M i in
    (block ++ zeros (8 * nw - length block),
     ubi_tweak ty (N.of_nat (Nat.min (length M) ((i + 1) * (8 * nw)))) (i =? 0)%nat (i =? k - 1)%nat)) (seq 0 k).
(** Streebog: the counter and the block; the last two blocks are the length and the sum of
    the blocks, added with [addS]. *)
Section Streebog.
  Variables addN addS : N -> N -> N.
  Definition streebog_inputs (m : list N) : list (N * list N) :=
    let full := sbs_full m in
    let rest := sbs_rest m in
    let n i := fold_left addN (repeat 512 i) 0 in
    let len := addN (n (length full)) (8 * N.of_nat (length rest)) in
    let sum := fold_left addS (map le_word (full ++ [sbs_last rest])) 0 in
    map (fun i => (n i, nth i full [])) (seq 0 (length full)) ++
    [(n (length full), sbs_last rest); (0, le_bytes 64 len); (0, le_bytes 64 sum)].
End Streebog.

(** ** Sponges *)
Definition keccak_inputs (r : nat) (suffix : list bool) (m : list N) : list (list N) :=
  let M := bits_of_bytes m ++ suffix in blocks r (bytes_of_bits (M ++ pad101 (8 * r) (length M))).
Definition ascon_inputs (m : list N) : list (list N) := blocks 8 (ascon_pad_bytes m).
(** Esch: the domain constant, only with the last block, and the block. *)
Definition esch_inputs (xof : bool) (M : list N) : list (option N * list N) :=
  let l := (16 * esch_split M)%nat in
  let last := skipn l M in
  let full := (length last =? 16)%nat in
  map (fun b => (None, b)) (blocks 16 (firstn l M)) ++
  [(Some ((if full then 2 else 1) + (if xof then 4 else 0)),
    if full then last else last ++ [128] ++ zeros (15 - length last))].
(** Ascon-CXOF: the customization string first. *)
Definition ascon_cxof_inputs (Z m : list N) : list (list N) := blocks 8 (ascon_custom Z ++ ascon_pad_bytes m).

(** cSHAKE as the code computes it: the encoded strings are followed by at least one zero
    byte, where SP 800-185 has none if they already fill whole blocks (see C20). *)
Definition code_bytepad (X : list N) (w : nat) : list N :=
  let z := left_enc (N.of_nat w) ++ X in z ++ zeros (w - length z mod w).
Section Cshake.
  Variable pad : list N -> nat -> list N.
  Definition cshake_inputs (sec : nat) (p : list N * list N) (m : list N) : list (list N) :=
    let r := (200 - 2 * sec)%nat in
    match p with
    | ([], []) => keccak_inputs r [true; true; true; true] m
    | (fn, cust) => keccak_inputs r [false; false] (pad (encode_string fn ++ encode_string cust) r ++ m)
    end.
  (** KMAC with key [fst p], customization [snd p] and output length [L] bits (0: unknown). *)
  Definition kmac_inputs (sec : nat) (L : N) (p : list N * list N) (m : list N) : list (list N) :=
    cshake_inputs sec (KMAC_name, snd p) (kmac_input sec (fst p) m L).
End Cshake.

(** KangarooTwelve and relatives: the inputs of the TurboSHAKE calls, the final node last. *)
Definition turbo_inputs (r : nat) (D : N) (M : list N) : list (list N) := blocks r (turbo_pad r D M).
Definition kt_inputs (nr sec cs : nat) (cust msg : list N) : list (list (list N)) :=
  let r := (200 - 2 * sec)%nat in
  let S := msg ++ cust ++ length_encode (N.of_nat (length cust)) in
  if (length S <=? cs)%nat then [turbo_inputs r 0x07 S]
  else
    let num := ((length S + cs - 1) / cs)%nat in
    let cv i := turbo nr r 0x0B (chunk_of cs S i) (2 * sec) in
    map (fun i => turbo_inputs r 0x0B (chunk_of cs S i)) (seq 1 (num - 1)) ++
    [turbo_inputs r 0x06 (chunk_of cs S 0 ++ [3; 0; 0; 0; 0; 0; 0; 0] ++ flat_map cv (seq 1 (num - 1))
                          ++ length_encode (N.of_nat (num - 1)) ++ [0xFF; 0xFF])].

(** Different parameters and messages shorter than 2^61 bytes have different inputs. *)
Definition short (m : list N) : Prop := is_bytes m /\ N.of_nat (length m) < 2 ^ 61.
