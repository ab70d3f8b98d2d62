(** * Where collisions can come from (C56).

    Two messages with the same digest: what must have happened inside. Written with the
    vocabulary of Inputs.v, independent of the model. *)
From Verif Require Import Base SpecCommon Hasher HasherSpec Library LibraryProof Blake2Spec Blake2pSpec KeccakSpec AsconSpec EschSpec Inputs Process ProcessTypes.

(** The arguments (chaining value, input) of all calls of [step] while [l] is processed. *)
Fixpoint visits {A B} (step : A -> B -> A) (h : A) (l : list B) : list (A * B) :=
  match l with [] => [] | b :: r => (h, b) :: visits step (step h b) r end.
(** Two different calls with the same result, one of each computation. *)
Definition calls_collide {A B} (step : A -> B -> A) (v1 v2 : list (A * B)) : Prop :=
  exists h1 b1 h2 b2, In (h1, b1) v1 /\ In (h2, b2) v2 /\ (h1, b1) <> (h2, b2) /\ step h1 b1 = step h2 b2.
(** The computation comes back to its initial value. *)
Definition returns {A B} (step : A -> B -> A) (iv : A) (l1 l2 : list B) : Prop :=
  exists pre, pre <> [] /\ (l2 = pre ++ l1 \/ l1 = pre ++ l2) /\ fold_left step pre iv = iv.
(** Two different final values with the same output. *)
Definition outputs_collide {A C} (out : A -> C) (h1 h2 : A) : Prop := h1 <> h2 /\ out h1 = out h2.

(** Fewer than [n] bytes. *)
Definition below (n : N) (m : list N) : Prop := N.of_nat (length m) < n.
Definition any_length (m : list N) : Prop := True.

(** Two objects of type [T] with the same parameters, after any calls, whose absorbed bytes
    differ and have [len], but whose digests are equal: [R] relates the inputs of the two
    computations. *)
Definition equal_digests {P} (T : htype P) (S : hash_spec (p_param P)) {B} (len : list N -> Prop)
  (ins : sp_params S -> list N -> list B) (R : sp_params S -> list B -> list B -> Prop) : Prop :=
  forall g1 g2 ops1 ops2 d, ht_mem_ok T g1 -> ht_mem_ok T g2 -> hcalls T ops1 -> hcalls T ops2 ->
  params_after S ops1 = params_after S ops2 -> since T ops1 <> since T ops2 -> len (since T ops1) -> len (since T ops2) ->
  after T g1 ops1 [HDigestIter] = Ok [OBytes d] -> after T g2 ops2 [HDigestIter] = Ok [OBytes d] ->
  R (params_after S ops1) (ins (params_after S ops1) (since T ops1)) (ins (params_after S ops1) (since T ops2)).
(** ... for the run-time size and the static size variant. *)
Definition both_equal {P} (T T' : htype P) (S : hash_spec (p_param P)) {B} (len : list N -> Prop)
  (ins : sp_params S -> list N -> list B) (R : sp_params S -> list B -> list B -> Prop) : Prop :=
  equal_digests T S len ins R /\ equal_digests T' S len ins R.
(** The same for the first [n] bytes of extendable output. *)
Definition equal_streams {P} (T : xtype P) (S : xof_spec (p_param P)) {B} (len : list N -> Prop)
  (ins : xs_params S -> list N -> list B) (R : nat -> xs_params S -> list B -> list B -> Prop) : Prop :=
  forall g1 g2 ops1 ops2 n d, xt_mem_ok T g1 -> xt_mem_ok T g2 -> xcalls T ops1 -> xcalls T ops2 ->
  xflag T ops1 = false -> xflag T ops2 = false -> (0 < n)%nat ->
  xparams_after S ops1 = xparams_after S ops2 -> xsince T ops1 <> xsince T ops2 -> len (xsince T ops1) -> len (xsince T ops2) ->
  xafter T g1 ops1 [XSqueezeIter n] = Ok [OBytes d] -> xafter T g2 ops2 [XSqueezeIter n] = Ok [OBytes d] ->
  R n (xparams_after S ops1) (ins (xparams_after S ops1) (xsince T ops1)) (ins (xparams_after S ops1) (xsince T ops2)).

(** Iterated compression: the collision is one of [step] ... *)
Definition in_step {A B} (step : A -> B -> A) (iv : A) (l1 l2 : list B) : Prop :=
  calls_collide step (visits step iv l1) (visits step iv l2).
(** ... or two final values have the same output. *)
Definition in_step_or_out {A B} (step : A -> B -> A) (iv : A) (out : A -> list N) (l1 l2 : list B) : Prop :=
  in_step step iv l1 l2 \/ outputs_collide out (fold_left step l1 iv) (fold_left step l2 iv).

(** Sponges: before the last block was absorbed, two different sequences of blocks gave
    states that agree in the part [inner] that is not touched by blocks ... *)
Definition inner_collide {A B C} (step : A -> B -> A) (iv : A) (inner : A -> C) (l1 l2 : list B) : Prop :=
  removelast l1 <> removelast l2 /\
  inner (fold_left step (removelast l1) iv) = inner (fold_left step (removelast l2) iv).
(** ... or two different final states have the same output. *)
Definition inner_or_out {A B C} (step : A -> B -> A) (iv : A) (inner : A -> C) (out : A -> list N) (l1 l2 : list B) : Prop :=
  inner_collide step iv inner l1 l2 \/ outputs_collide out (fold_left step l1 iv) (fold_left step l2 iv).
(** Keccak: all lanes from the rate [r] (in bytes) on. *)
Definition keccak_inner (r : nat) (A : list N) : list N := skipn (r / 8) A.
(** KangarooTwelve and relatives: two different final calls of the sponge with the same [n]
    bytes of output, or two different calls for chunks with the same chaining value of [k] bytes. *)
Definition turbo_collide (nr r n k : nat) (l1 l2 : list (list (list N))) : Prop :=
  (last l1 [] <> last l2 [] /\
   inner_or_out (absorb_block nr r) (zeros 25) (keccak_inner r) (keccak_out nr r n) (last l1 []) (last l2 [])) \/
  exists c1 c2, In c1 l1 /\ In c2 l2 /\ c1 <> c2 /\
    inner_or_out (absorb_block nr r) (zeros 25) (keccak_inner r) (keccak_out nr r k) c1 c2.
(** Ascon: all words but the first. *)
Definition ascon_inner (A : list N) : list N := skipn 1 A.
(** Esch: two different sequences of blocks before the last gave states that are equal once
    the last blocks are injected, with the domain constants, as inputs of the permutation. *)
Definition esch_at_last (h : nat) (B : list (N * N)) (x : option N * list N) : list (N * N) :=
  match fst x with None => inject h B (snd x) | Some d => inject h (add_dom h d B) (snd x) end.
Definition esch_inner_or_out (h n : nat) (l1 l2 : list (option N * list N)) : Prop :=
  let f l := fold_left (esch_step h) l (repeat (0, 0) (2 * h)) in
  let x l := last l (None, []) in
  (removelast l1 <> removelast l2 /\ esch_at_last h (f (removelast l1)) (x l1) = esch_at_last h (f (removelast l2)) (x l2)) \/
  outputs_collide (squeeze_stream (sparkle_p (slim h)) branches_bytes 16 n) (f l1) (f l2).
(** LSH pads without a length: one computation may also come back to the initial value. *)
Definition in_step_returns_or_out {A B} (step : A -> B -> A) (iv : A) (out : A -> list N) (l1 l2 : list B) : Prop :=
  in_step step iv l1 l2 \/ returns step iv l1 l2 \/ outputs_collide out (fold_left step l1 iv) (fold_left step l2 iv).
(** BLAKE2bp/BLAKE2sp with digests of [nn] bytes: two different parts of the messages collide
    in one leaf, or the digests of the leaves differ and the root collides. *)
Definition tree_collide (w nn : N) (p : b2_params) (l1 l2 : list (list (list N * N * bool))) : Prop :=
  let iv i d := init_h w (par_tree w nn (length (pk p)) i d) (ps p) (pp p) in
  let root l := blake2_inputs w (concat (fold_left (leaf_step w nn p) l [])) in
  (exists i, (i < degree w)%nat /\ nth i l1 [] <> nth i l2 [] /\
     in_step (b2_step w (i =? degree w - 1)%nat) (iv (N.of_nat i) 0) (nth i l1 []) (nth i l2 [])) \/
  (root l1 <> root l2 /\
   in_step_or_out (b2_step w true) (iv 0 1) (fun h => firstn (N.to_nat nn) (words_bytes (wb w) h)) (root l1) (root l2)).
