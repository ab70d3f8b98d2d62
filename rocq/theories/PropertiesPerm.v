(** * The cores of the compression functions rearrange their states: nothing is lost (C54).

    [rearranges w n f] (PermSpec.v): [f] maps the sequences of [n] words of [w] bits to
    themselves, one to one and onto. The functions are those of the model; where a
    compression function adds its input to the result of the core, the input is removed
    again ([less], [xored]). *)
From Verif Require Import Base PermSpec Md5 Sha1 Sha2  Sm3 Keccak Ascon Esch Blake Blake2 Skein Lsh TTable Groestl Kupyna
  Whirlpool Streebog Echo Jh MdProof InjCode.

(** SHA-3, SHAKE, cSHAKE, KMAC ([R] = 24), TurboSHAKE and KangarooTwelve ([R] = 12). *)
Theorem C54_keccak R : (R <= 24)%nat -> rearranges 64 25 (kc_perm R).
Proof. exact (keccak_rearr R). Qed.
Theorem C54_ascon : rearranges 64 5 ascon_perm.
Proof. exact ascon_rearr. Qed.
(** Esch: the first 12 or 16 words of the array are permuted, the others are kept. *)
Theorem C54_sparkle h ns J : (h = 3 \/ h = 4)%nat -> (ns <= 12)%nat ->
  rearranges 32 (4 * h) (fun S => firstn (4 * h) (sparkle (2 * h) ns (S ++ J))) /\
  forall S, states 32 (4 * h) S -> skipn (4 * h) (sparkle (2 * h) ns (S ++ J)) = J.
Proof. exact (sparkle_rearr h ns J). Qed.
(** The rounds of BLAKE and BLAKE2, for every message block [M]. *)
Theorem C54_blake w M n : w = 64 \/ w = 32 -> rearranges w 16 (fun v => fold_left (bl_round w M) (seq 0 n) v).
Proof. exact (blake_rearr w M n). Qed.
Theorem C54_blake2 w M n : w = 64 \/ w = 32 -> (n <= 12)%nat -> rearranges w 16 (fun v => fold_left (b2_round w M) (seq 0 n) v).
Proof. exact (blake2_rearr w M n). Qed.
(** The block ciphers of MD5, SHA-1, SHA-2 and SM3, keyed by the block [b], on the chaining
    value. *)
Theorem C54_md5 t b : rearranges 32 4 (fun h => less 32 (md5_block h t b) h).
Proof. exact (md5_rearr t b). Qed.
Theorem C54_sha1 t b : block_ok 64 b -> rearranges 32 5 (fun h => less 32 (sha1_block h t b) h).
Proof. exact (sha1_rearr t b). Qed.
Theorem C54_sha2 T t b : block_ok (sha2_bs T) b -> rearranges (wbits T) 8 (fun h => less (wbits T) (sha2_block T h t b) h).
Proof. exact (sha2_rearr' T t b). Qed.
Theorem C54_sm3 t b : block_ok 64 b ->
  (forall h, exists v, sm3_block Masked h t b = Ok v) /\ rearranges 32 8 (fun h => xored (ok_or [] (sm3_block Masked h t b)) h).
Proof. exact (sm3_rearr t b). Qed.
(** Threefish, keyed by the chaining value [H] and the tweak, on the block. *)
Theorem C54_skein nw L p t1 H : nw = 4%nat \/ nw = 8%nat \/ nw = 16%nat -> length H = nw ->
  rearranges 64 nw (fun m => xored (skipn 2 (sk_block nw L ([p; t1] ++ H) (words_bytes 8 m))) m).
Proof. exact (skein_rearr nw L p t1 H). Qed.
(** The whole compression functions of JH and LSH, for a fixed block, on the chaining value. *)
Theorem C54_jh t b : block_ok 64 b -> rearranges 8 128 (fun x => words_bytes 8 (jh_step (le_words 8 16 x) t b)).
Proof. exact (jh_rearr t b). Qed.
Theorem C54_lsh w t b J : w = 32 \/ w = 64 -> bytes_ok b ->
  (forall S, exists v, lsh_block Masked w S t b = Ok v) /\
  rearranges w 16 (fun S => firstn 16 (ok_or [] (lsh_block Masked w (S ++ J) t b))).
Proof. exact (lsh_rearr w t b J). Qed.
(** Groestl and Kupyna: the permutation applied to the chaining value plus the block [b], and
    (with a chaining value equal to the block) the one applied to the block. *)
Theorem C54_groestl hs t b J : 0 < hs <= 512 /\ hs mod 8 = 0 -> block_ok (cl_bs hs) b -> length J = (16 - cl_R hs)%nat ->
  rearranges 8 (8 * cl_R hs) (fun x => xored (words_bytes 8 (firstn (cl_R hs) (gr_step hs (le_words 8 (cl_R hs) x ++ J) t b))) x).
Proof. exact (groestl_rearr hs t b J). Qed.
Theorem C54_groestl_Q hs t J : 0 < hs <= 512 /\ hs mod 8 = 0 -> length J = (16 - cl_R hs)%nat ->
  rearranges 8 (8 * cl_R hs) (fun x => xored (words_bytes 8 (firstn (cl_R hs) (gr_step hs (le_words 8 (cl_R hs) x ++ J) t x))) x).
Proof. exact (groestl_rearrQ hs t J). Qed.
Theorem C54_kupyna hs t b J : hs = 256 \/ hs = 512 -> block_ok (cl_bs hs) b -> length J = (16 - cl_R hs)%nat ->
  rearranges 8 (8 * cl_R hs) (fun x => xored (words_bytes 8 (firstn (cl_R hs) (ku_step hs (le_words 8 (cl_R hs) x ++ J) t b))) x).
Proof. exact (kupyna_rearr hs t b J). Qed.
Theorem C54_kupyna_Q hs t J : hs = 256 \/ hs = 512 -> length J = (16 - cl_R hs)%nat ->
  rearranges 8 (8 * cl_R hs) (fun x => xored (words_bytes 8 (firstn (cl_R hs) (ku_step hs (le_words 8 (cl_R hs) x ++ J) t x))) x).
Proof. exact (kupyna_rearrQ hs t J). Qed.
(** The ciphers of Whirlpool and Streebog on the block, for every key. *)
Theorem C54_whirlpool h t : length h = 8%nat ->
  rearranges 8 64 (fun m => xored (xored (words_bytes 8 (wp_block h t m)) m) (words_bytes 8 h)).
Proof. exact (whirlpool_rearr h t). Qed.
Theorem C54_streebog K : length K = 8%nat -> rearranges 8 64 (fun m => words_bytes 8 (sb_e K (le_words 8 8 m))).
Proof. exact (streebog_rearr K). Qed.
(** The rounds of ECHO on all 2048 bits, for every salt and counter. *)
Theorem C54_echo s0 s1 k n : k < 2 ^ 64 ->
  rearranges 8 256 (fun x => words_bytes 8 (fst (Nat.iter n (ec_round [s0; s1]) (le_words 8 32 x, k)))).
Proof. exact (echo_rearr s0 s1 k n). Qed.

(** The hypotheses hold for the blocks and numbers of rounds the code uses. *)
Example C54_blocks : block_ok 64 (repeat 97 64) /\ block_ok (sha2_bs W64) (repeat 97 128) /\ block_ok (cl_bs 512) (repeat 97 128) /\
  length (repeat 0 (16 - cl_R 256)) = (16 - cl_R 256)%nat /\ states 32 12 (repeat 1 12).
Proof. repeat split; try reflexivity; apply Forall_forall; intros x Hx; apply repeat_spec in Hx; subst; reflexivity. Qed.
(** The core does something: two states of MD5 and their images. *)
Example C54_md5_values : less 32 (md5_block [1; 2; 3; 4] 0 (repeat 97 64)) [1; 2; 3; 4] <> [1; 2; 3; 4] /\ states 32 4 [1; 2; 3; 4].
Proof. split; [vm_compute; discriminate|]. split; [reflexivity|]. repeat constructor. Qed.

Definition perm_theorems := (@C54_keccak, @C54_ascon, @C54_sparkle, @C54_blake, @C54_blake2, @C54_md5, @C54_sha1, @C54_sha2, @C54_sm3, @C54_skein,
  @C54_jh, @C54_lsh, @C54_groestl, @C54_groestl_Q, @C54_kupyna, @C54_kupyna_Q, @C54_whirlpool, @C54_streebog, @C54_echo).
Print Assumptions perm_theorems.
