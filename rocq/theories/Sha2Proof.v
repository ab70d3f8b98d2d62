(** * SHA-2: the providers implement FIPS 180-4. *)
From Verif Require Import Base Absorb Hasher HasherSpec Lemmas WordLemmas AbsorbProof HasherProof
  MdState SpecCommon MdProof Validate ConstSha2 Sha2 Sha2Spec.

Definition P_of (T : sha2_word) : sha2_params :=
  match T with W32 => params256 | W64 => params512 end.

Definition tuple8 (q : regs8) : list N :=
  let '(a, b, c, d, e, f, g, h) := q in [a; b; c; d; e; f; g; h].

Lemma sha256_K_eq : sha256_K = p_K params256.
Proof. vm_compute. reflexivity. Qed.
Lemma sha512_K_eq : sha512_K = p_K params512.
Proof. vm_compute. reflexivity. Qed.

Lemma getK_eq T t : getK T t = nth t (p_K (P_of T)) 0.
Proof.
  destruct T; unfold getK, nthN, P_of.
  - rewrite sha256_K_eq. reflexivity.
  - rewrite sha512_K_eq. reflexivity.
Qed.
Lemma wbits_eq T : wbits T = p_w (P_of T). Proof. destruct T; reflexivity. Qed.
Lemma rounds_eq T : sha2_rounds T = p_rounds (P_of T). Proof. destruct T; reflexivity. Qed.
Lemma wbytes_eq T : wbytes T = p_k (P_of T). Proof. destruct T; reflexivity. Qed.

Lemma sum0_eq T x : sum0 T x = Big (P_of T) (p_S0 (P_of T)) x.
Proof. destruct T; unfold sum0; rewrite !rotr_ROTR; reflexivity. Qed.
Lemma sum1_eq T x : sum1 T x = Big (P_of T) (p_S1 (P_of T)) x.
Proof. destruct T; unfold sum1; rewrite !rotr_ROTR; reflexivity. Qed.
Lemma sigma0_eq T x : sigma0 T x = Small (P_of T) (p_s0 (P_of T)) x.
Proof. destruct T; unfold sigma0; rewrite !rotr_ROTR, shrw_SHR; reflexivity. Qed.
Lemma sigma1_eq T x : sigma1 T x = Small (P_of T) (p_s1 (P_of T)) x.
Proof. destruct T; unfold sigma1; rewrite !rotr_ROTR, shrw_SHR; reflexivity. Qed.

Lemma sha2_expand_eq T n : forall W, sha2_expand T n W = fips_sched2 (P_of T) n W.
Proof.
  induction n; intros; cbn [sha2_expand fips_sched2]; [reflexivity|].
  rewrite !addw_plus, sigma0_eq, sigma1_eq, wbits_eq. apply IHn.
Qed.

Lemma sha2_iter_eq T W r t : sha2_iter T W r t = fips_round2 (P_of T) W r t.
Proof.
  destruct r as [[[[[[[a b] c] d] e] f] g] h]. unfold sha2_iter, fips_round2.
  rewrite !addw_plus, sum0_eq, sum1_eq, getK_eq, wbits_eq. reflexivity.
Qed.

Lemma be_words_swap_T T n d : bytes_ok d -> (n * wbytes T <= length d)%nat ->
  map (sha2_byteswap T) (le_words (wbytes T) n d) = be_words (wbytes T) n d.
Proof. destruct T; [apply be_words_swap32|apply be_words_swap64]. Qed.

Lemma sha2_block_eq T q t b : block_ok (sha2_bs T) b ->
  sha2_block T (tuple8 q) t b = tuple8 (fips_sha2_compress (P_of T) q b).
Proof.
  intros [Hl Hb]. unfold sha2_block, fips_sha2_compress.
  rewrite be_words_swap_T by (destruct T; cbn in *; auto; lia).
  rewrite sha2_expand_eq, wbytes_eq, rounds_eq.
  set (W := fips_sched2 _ _ _).
  rewrite (fold_left_ext _ (fips_round2 (P_of T) W)) by (intros; apply sha2_iter_eq).
  destruct q as [[[[[[[a b0] c] d] e] f] g] h]. cbn [tuple8]. unfold nthN. cbn [nth].
  destruct (fold_left _ _ _) as [[[[[[[a' b'] c'] d'] e'] f'] g'] h'].
  rewrite !addw_plus, wbits_eq. reflexivity.
Qed.

Definition sha2_f (T : sha2_word) (h b : list N) : list N := sha2_block T h 0 b.
Lemma sha2_step_f T h t b : sha2_block T h t b = sha2_f T h b.
Proof. unfold sha2_f, sha2_block. reflexivity. Qed.
Global Opaque sha2_block.

Lemma sha2_bs_eq T : sha2_bs T = (16 * p_k (P_of T))%nat.
Proof. destruct T; reflexivity. Qed.

Lemma sha2_final_tail T hs s : sha2_final_st T hs s =
    (' (h, m, pos, total) <- md_tail (sha2_bs T) (sha2_block T) (sha2_bs T - wbytes T * 2)
        (sha2_bs T) (fun t => le_bytes 8 (byteswap64 t)) s ;;
     let h := map (sha2_byteswap T) h in
     w <- load (words_bytes (wbytes T) h) 0 (N.to_nat (hs / 8)) ;; Ok (mkst h m pos total, w)).
Proof. unfold sha2_final_st, md_tail. md_tail_eq. Qed.

Lemma be_bytes_16 x : x < 2 ^ 64 -> be_bytes 16 x = zeros 8 ++ be_bytes 8 x.
Proof.
  intros Hx. unfold be_bytes.
  assert (E : le_bytes 16 x = le_bytes 8 x ++ le_bytes 8 (N.shiftr x 64)).
  { cbn [le_bytes app]. rewrite !N.shiftr_shiftr. reflexivity. }
  rewrite E, rev_app_distr. f_equal.
  rewrite N.shiftr_div_pow2, N.div_small by auto. reflexivity.
Qed.

Lemma lenf_eq T x : x < 2 ^ 64 ->
  zeros (2 * wbytes T - 8) ++ be_bytes 8 x = be_bytes (2 * p_k (P_of T)) x.
Proof. destruct T; intros; [reflexivity|]. symmetry. apply (be_bytes_16 x); auto. Qed.

Lemma words_bytes_swap_T T r :
  words_bytes (wbytes T) (map (sha2_byteswap T) (tuple8 r)) = regs_bytes (P_of T) r.
Proof.
  destruct r as [[[[[[[a b] c] d] e] f] g] h]. unfold regs_bytes. cbn [tuple8].
  destruct T; [apply words_bytes_swap32|apply words_bytes_swap64].
Qed.

Lemma regs_bytes_length P r : length (regs_bytes P r) = (p_k P * 8)%nat.
Proof.
  destruct r as [[[[[[[a b] c] d] e] f] g] h]. unfold regs_bytes. apply flat_be_bytes_length.
Qed.
Lemma regs_bytes_ok P r : bytes_ok (regs_bytes P r).
Proof. destruct r as [[[[[[[a b] c] d] e] f] g] h]. apply flat_be_bytes_ok. Qed.

(** final computes the specified registers; the object keeps them byte-swapped. *)
Lemma sha2_final_ok T hs iv s msg :
  (N.to_nat (hs / 8) <= wbytes T * 8)%nat -> bytes_ok msg ->
  md_inv (sha2_bs T) (sha2_block T) (tuple8 iv) s msg ->
  exists m pos total,
    sha2_final_st T hs s =
      Ok (mkst (map (sha2_byteswap T) (tuple8 (fips_sha2_regs (P_of T) iv msg))) m pos total,
          fips_sha2 (P_of T) iv (N.to_nat (hs / 8)) msg) /\ length m = sha2_bs T.
Proof.
  intros Hhs Hmsg H.
  assert (Hb : (0 < sha2_bs T)%nat) by (destruct T; cbn; lia).
  destruct (md_tail_ok (sha2_f T) (sha2_bs T) Hb (sha2_block T) (sha2_step_f T)
              (sha2_bs T - wbytes T * 2) (sha2_bs T)
              (fun t => le_bytes 8 (byteswap64 t)) (2 * wbytes T) (tuple8 iv) s msg)
    as (m & pos & total & E & Hm);
    [destruct T; cbn; lia|destruct T; cbn; lia|lia|lia|lia|intros; apply le_bytes_length|exact H|].
  exists m, pos, total.
  rewrite sha2_final_tail, E. cbn [bind]. cbv zeta.
  rewrite be_bytes_byteswap64, lenf_eq by apply trunc_lt. rewrite trunc_mod.
  unfold md_hash.
  rewrite (fold_left_conv tuple8 (sha2_f T) (fips_sha2_compress (P_of T)) (block_ok (sha2_bs T)));
    [|intros a x Hx; exact (sha2_block_eq T a 0 x Hx)
     |apply blocks_pad_ok; auto using be_bytes_ok].
  rewrite words_bytes_swap_T. unfold fips_sha2, fips_sha2_regs, md_hash. rewrite sha2_bs_eq.
  rewrite load_ok by (rewrite regs_bytes_length, <- wbytes_eq; lia).
  cbn [bind skipn]. split; [reflexivity|]. rewrite Hm. apply sha2_bs_eq.
Qed.

(** ** Initial values *)

Lemma byteswap64_invol v : v < 2 ^ 64 -> byteswap64 (byteswap64 v) = v.
Proof.
  intros Hv. apply (le_bytes_inj 8).
  - exact (byteswap64_lt _).
  - exact Hv.
  - rewrite !le_bytes_byteswap64, rev_involutive. reflexivity.
Qed.
Lemma byteswap32_invol v : v < 2 ^ 32 -> byteswap32 (byteswap32 v) = v.
Proof.
  intros Hv. apply (le_bytes_inj 4).
  - exact (byteswap32_lt _).
  - exact Hv.
  - rewrite !le_bytes_byteswap32, rev_involutive. reflexivity.
Qed.

Lemma md_hash_last {A} (f : A -> list N -> A) iv bs lenf msg : (0 < bs)%nat ->
  exists h b, md_hash f iv bs (md_pad bs lenf msg) = f h b.
Proof.
  intros Hb. unfold md_hash. destruct (md_pad_length bs lenf msg Hb) as (n & E).
  rewrite (blocks_mul n) by auto.
  destruct n as [|n].
  - cbn in E. unfold md_pad in E. rewrite !app_length in E. cbn in E. lia.
  - assert (E2 : length (md_pad bs lenf msg) = (n * bs + bs)%nat) by (rewrite E; cbn; lia).
    rewrite <- (firstn_skipn (n * bs) (md_pad bs lenf msg)).
    replace (S n) with (n + 1)%nat by lia.
    rewrite blocks_n_app by (rewrite firstn_length; lia).
    rewrite fold_left_app. cbn [blocks_n fold_left]. eauto.
Qed.

Lemma fips_regs_lt P iv msg : (0 < p_k P)%nat ->
  Forall (fun x => x < 2 ^ p_w P) (tuple8 (fips_sha2_regs P iv msg)).
Proof.
  intros Hk. unfold fips_sha2_regs.
  destruct (md_hash_last (fips_sha2_compress P) iv (16 * p_k P)
    (be_bytes (2 * p_k P) (bitlen msg mod 2 ^ 64)) msg ltac:(lia)) as (h & b & ->).
  unfold fips_sha2_compress. destruct h as [[[[[[[a b'] c] d] e] f] g] h].
  destruct (fold_left _ _ _) as [[[[[[[a1 b1] c1] d1] e1] f1] g1] h1].
  cbn [tuple8]. repeat constructor; apply plus_mod_lt.
Qed.

Lemma map_swap_swap l : Forall (fun x => x < 2 ^ 64) l -> map byteswap64 (map byteswap64 l) = l.
Proof.
  induction 1; cbn [map]; [reflexivity|]. rewrite byteswap64_invol by auto. f_equal. auto.
Qed.

(** std::to_string agrees with the decimal notation of the standard. *)
Lemma to_string_decimal t : t <= 512 -> to_string t = decimal t.
Proof.
  intros Ht.
  assert (F : forallb (fun n => list_eqb (to_string (N.of_nat n)) (decimal (N.of_nat n))) (seq 0 513) = true)
    by (vm_compute; reflexivity).
  rewrite forallb_forall in F. specialize (F (N.to_nat t)).
  rewrite N2Nat.id in F. apply list_eqb_eq, F. apply in_seq. lia.
Qed.

Definition iv_of (T : sha2_word) (hs : N) : regs8 :=
  match T with
  | W32 => if hs =? 224 then iv_224 else iv_256
  | W64 => if hs =? 384 then iv_384 else if hs =? 512 then iv_512 else iv_512t hs
  end.

(** Digest sizes in bits accepted for the word size. *)
Definition size_ok (T : sha2_word) (hs : N) : Prop :=
  match T with
  | W32 => hs = 224 \/ hs = 256
  | W64 => 0 < hs /\ hs <= 512 /\ hs mod 8 = 0
  end.

Definition sha2_init_T (T : sha2_word) : sha2_st -> res sha2_st :=
  match T with W32 => sha256_init | W64 => sha512_init end.

Lemma iv224_eq : [0xc1059ed8; 0x367cd507; 0x3070dd17; 0xf70e5939; 0xffc00b31; 0x68581511; 0x64f98fa7; 0xbefa4fa4]
  = tuple8 iv_224.
Proof. vm_compute. reflexivity. Qed.
Lemma iv256_eq : [0x6a09e667; 0xbb67ae85; 0x3c6ef372; 0xa54ff53a; 0x510e527f; 0x9b05688c; 0x1f83d9ab; 0x5be0cd19]
  = tuple8 iv_256.
Proof. vm_compute. reflexivity. Qed.
Lemma iv512_224_eq :
  [0x8C3D37C819544DA2; 0x73E1996689DCD4D6; 0x1DFAB7AE32FF9C82; 0x679DD514582F9FCF;
   0x0F6D2B697BD44DA8; 0x77E36F7304C48942; 0x3F9D85A86A1D36C8; 0x1112E6AD91D692A1]
  = tuple8 (iv_512t 224).
Proof. vm_compute. reflexivity. Qed.
Lemma iv512_256_eq :
  [0x22312194FC2BF72C; 0x9F555FA3C84C64C2; 0x2393B86B6F53B151; 0x963877195940EABD;
   0x96283EE2A88EFFE3; 0xBE5E1E2553863992; 0x2B0199FC2C85B8AA; 0x0EB72DDC81C52CA2]
  = tuple8 (iv_512t 256).
Proof. vm_compute. reflexivity. Qed.
Lemma iv384_eq :
  [0xcbbb9d5dc1059ed8; 0x629a292a367cd507; 0x9159015a3070dd17; 0x152fecd8f70e5939;
   0x67332667ffc00b31; 0x8eb44a8768581511; 0xdb0c2e0d64f98fa7; 0x47b5481dbefa4fa4]
  = tuple8 iv_384.
Proof. vm_compute. reflexivity. Qed.
Lemma iv512_eq : sha512_iv = tuple8 iv_512.
Proof. vm_compute. reflexivity. Qed.

Lemma iv512_xor_eq : map (fun x => N.lxor x 0xa5a5a5a5a5a5a5a5) sha512_iv
  = tuple8 (xor_regs iv_512 0xa5a5a5a5a5a5a5a5).
Proof. vm_compute. reflexivity. Qed.

Lemma decimal_bytes hs : hs <= 512 -> bytes_ok (decimal hs).
Proof.
  intros. unfold decimal. repeat apply bytes_ok_app.
  - destruct (100 <=? hs); constructor; [|constructor].
    assert (hs / 100 < 10) by (apply N.div_lt_upper_bound; lia). lia.
  - destruct (10 <=? hs); constructor; [|constructor].
    pose proof (N.mod_lt (hs / 10) 10). lia.
  - constructor; [|constructor]. pose proof (N.mod_lt hs 10). lia.
Qed.

(** The generic branch of init: hash the name of the function with the given value. *)
Lemma iv_gen_ok iv' hs m : hs <= 512 -> length m = 128%nat ->
  exists m',
    (s1 <- sha2_update_st W64 (mkst (tuple8 iv') m 0 0) (sha512t_prefix ++ decimal hs) ;;
     ' (s1, w) <- sha2_final_st W64 hs s1 ;;
     _ <- memcpy (zeros 64) 0 w (length w) ;;
     Ok (mk2 (mkst (map byteswap64 (sh s1)) (sm s1) 0 0) hs)) =
    Ok (mk2 (mkst (tuple8 (fips_sha2_regs params512 iv' (sha512t_prefix ++ decimal hs))) m' 0 0) hs)
    /\ length m' = 128%nat.
Proof.
  intros H1 Hm.
  destruct (md_update_ok 128 ltac:(lia) (sha2_block W64) (tuple8 iv')
              (mkst (tuple8 iv') m 0 0) [] (sha512t_prefix ++ decimal hs))
    as (s1 & E1 & I1).
  { apply md_inv_start; [lia|exact Hm]. }
  unfold sha2_update_st. cbn [sha2_bs]. rewrite E1. cbn [bind app] in I1 |- *.
  assert (H64 : hs / 8 < 65) by (apply N.div_lt_upper_bound; lia).
  destruct (sha2_final_ok W64 hs iv' s1 (sha512t_prefix ++ decimal hs)) as (m2 & pos & tot & E2 & Hm2).
  { cbn [wbytes]. lia. }
  { apply bytes_ok_app; [repeat constructor|apply decimal_bytes; auto]. } { exact I1. }
  rewrite E2. cbn [bind].
  assert (Hl : length (fips_sha2 (P_of W64) iv' (N.to_nat (hs / 8)) (sha512t_prefix ++ decimal hs))
               = N.to_nat (hs / 8)).
  { unfold fips_sha2. rewrite firstn_length, regs_bytes_length. cbn [P_of p_k params512]. lia. }
  rewrite memcpy_ok; [|rewrite zeros_length, Hl; lia|lia].
  cbn [bind]. exists m2. split; [|exact Hm2]. cbn [sh sm sha2_byteswap].
  rewrite map_swap_swap by (apply (fips_regs_lt (P_of W64)); cbn; lia).
  reflexivity.
Qed.

Lemma sha2_init_ok T hs s : size_ok T hs -> s2_hs s = hs -> length (sm (s2 s)) = sha2_bs T ->
  exists m, sha2_init_T T s = Ok (mk2 (mkst (tuple8 (iv_of T hs)) m 0 0) hs) /\
            length m = sha2_bs T.
Proof.
  intros Hhs Es Hm. destruct T.
  - exists (sm (s2 s)). split; auto. cbn [sha2_init_T]. unfold sha256_init. rewrite Es.
    cbn [iv_of]. rewrite iv224_eq, iv256_eq. destruct (hs =? 224); reflexivity.
  - cbn [sha2_init_T iv_of]. unfold sha512_init. rewrite Es. destruct Hhs as (H0 & H1 & H2).
    destruct (N.eqb_spec hs 224) as [->|D1].
    { rewrite iv512_224_eq. cbn [N.eqb Pos.eqb]. exists (sm (s2 s)). split; [reflexivity|exact Hm]. }
    destruct (N.eqb_spec hs 256) as [->|D2].
    { rewrite iv512_256_eq. cbn [N.eqb Pos.eqb]. exists (sm (s2 s)). split; [reflexivity|exact Hm]. }
    destruct (N.eqb_spec hs 384) as [->|D3].
    { rewrite iv384_eq. cbn [N.eqb Pos.eqb]. exists (sm (s2 s)). split; [reflexivity|exact Hm]. }
    destruct (N.eqb_spec hs 512) as [->|D4].
    { rewrite iv512_eq. cbn [N.eqb Pos.eqb]. exists (sm (s2 s)). split; [reflexivity|exact Hm]. }
    rewrite iv512_xor_eq, to_string_decimal by lia. unfold iv_512t.
    apply iv_gen_ok; auto.
Qed.

Definition sha2_R (T : sha2_word) (hs : N) (s : sha2_st) (_ : unit) (msg : list N) : Prop :=
  s2_hs s = hs /\ bytes_ok msg /\ md_inv (sha2_bs T) (sha2_block T) (tuple8 (iv_of T hs)) (s2 s) msg.

Lemma fips_sha2_length T hs iv msg : (N.to_nat (hs / 8) <= wbytes T * 8)%nat ->
  length (fips_sha2 (P_of T) iv (N.to_nat (hs / 8)) msg) = N.to_nat (hs / 8).
Proof.
  intros. unfold fips_sha2. rewrite firstn_length, regs_bytes_length, <- wbytes_eq. lia.
Qed.
Lemma fips_sha2_bytes P iv n msg : bytes_ok (fips_sha2 P iv n msg).
Proof. apply Forall_firstn, regs_bytes_ok. Qed.

Lemma size_ok_len T hs : size_ok T hs -> (N.to_nat (hs / 8) <= wbytes T * 8)%nat.
Proof.
  destruct T; cbn [size_ok wbytes].
  - intros [->| ->]; vm_compute; lia.
  - intros (H0 & H1 & _). assert (hs / 8 < 65) by (apply N.div_lt_upper_bound; lia). lia.
Qed.
Lemma size_ok_pos T hs : size_ok T hs -> (0 < N.to_nat (hs / 8))%nat.
Proof.
  destruct T; cbn [size_ok].
  - intros [->| ->]; vm_compute; lia.
  - intros (H0 & H1 & H2). pose proof (N.div_mod hs 8 ltac:(lia)).
    assert (hs / 8 <> 0) by lia. lia.
Qed.

(** The specification for a word size and digest size. *)
Definition sha2_spec (T : sha2_word) (hs : N) : hash_spec Empty_set :=
  {| sp_params := unit; sp_default := tt; sp_set := no_params_set; sp_size := N.to_nat (hs / 8);
     sp_digest := fun _ msg => fips_sha2 (P_of T) (iv_of T hs) (N.to_nat (hs / 8)) msg |}.

(** The provider record of either family. *)
Definition sha2_prov (T : sha2_word) : hash_provider :=
  {| hp := {| pst := sha2_st; p_init := sha2_init_T T; p_update := sha2_update T;
              p_clear := sha2_clear; p_param := Empty_set; p_set := no_set |};
     hp_final := sha2_final T; hp_size := s2_hs |}.

Lemma sha2_sim_gen (T : sha2_word) hs :
  size_ok T hs ->
  sim (sha2_prov T) (sha2_spec T hs) (sha2_R T hs) true.
Proof.
  intros Hhs. assert (Hb : (0 < sha2_bs T)%nat) by (destruct T; cbn; lia).
  constructor; cbn [sha2_prov pst hp p_init p_update p_clear p_param p_set hp_final hp_size].
  - intros s p msg (Eh & _ & I).
    destruct (sha2_init_ok T hs s Hhs Eh (md_inv_sm _ _ _ _ _ I)) as (m & E & Hm).
    eexists. split; [exact E|]. split; [reflexivity|]. split; [constructor|].
    apply md_inv_start; auto.
  - intros s p msg d Hd (Eh & Hmsg & I).
    destruct (md_update_ok (sha2_bs T) Hb (sha2_block T) _ (s2 s) msg d I) as (s' & E & I').
    exists (mk2 s' (s2_hs s)). unfold sha2_update, sha2_update_st. rewrite E. cbn [bind].
    split; [reflexivity|]. split; [exact Eh|]. split; [apply bytes_ok_app; auto|exact I'].
  - intros _ s p msg (Eh & _ & I). eexists.
    destruct (sha2_init_ok T hs (mk2 (mkst (zero_memory (sh (s2 s))) (zero_memory (sm (s2 s)))
                (spos (s2 s)) (stotal (s2 s))) (s2_hs s)) Hhs Eh) as (m & E & Hm).
    { cbn [s2 sm]. unfold zero_memory. rewrite zeros_length. exact (md_inv_sm _ _ _ _ _ I). }
    eexists. split; [reflexivity|]. split; [exact E|]. split; [reflexivity|].
    split; [constructor|]. apply md_inv_start; auto.
  - intros q. destruct q.
  - intros s p msg (Eh & Hmsg & I).
    destruct (sha2_final_ok T hs _ (s2 s) msg (size_ok_len T hs Hhs) Hmsg I) as (m & pos & tot & E & _).
    unfold sha2_final. rewrite Eh, E. cbn [bind]. eexists. reflexivity.
  - intros s p msg (Eh & _). rewrite Eh. cbn [sp_size sha2_spec]. rewrite N2Nat.id. reflexivity.
  - intros. apply fips_sha2_length, size_ok_len; auto.
  - intros. apply fips_sha2_bytes.
  - apply size_ok_pos in Hhs. exact Hhs.
Qed.

Lemma sha2_implements_gen T hs g :
  size_ok T hs -> length (sm g) = sha2_bs T ->
  implements (sha2_prov T) (sha2_spec T hs) true
    (sha2_init_T T (mk2 g hs)).
Proof.
  intros Hhs Hg.
  destruct (sha2_init_ok T hs (mk2 g hs) Hhs eq_refl Hg) as (m & -> & Hm).
  apply (sim_implements (sha2_prov T) (sha2_spec T hs) (sha2_R T hs) true (sha2_sim_gen T hs Hhs)).
  split; [reflexivity|]. split; [constructor|]. apply md_inv_start; auto. destruct T; cbn; lia.
Qed.

Theorem sha224_implements g : length (sm g) = 64%nat ->
  implements sha256_family sha224_spec true (fresh_of (sha2_ctor_fixed 224 g) sha256_init).
Proof. intros. apply (sha2_implements_gen W32 224 g); cbn; auto. Qed.
Theorem sha256_implements g : length (sm g) = 64%nat ->
  implements sha256_family sha256_spec true (fresh_of (sha2_ctor_fixed 256 g) sha256_init).
Proof. intros. apply (sha2_implements_gen W32 256 g); cbn; auto. Qed.
Theorem sha384_implements g : length (sm g) = 128%nat ->
  implements sha512_family sha384_spec true (fresh_of (sha2_ctor_fixed 384 g) sha512_init).
Proof. intros. apply (sha2_implements_gen W64 384 g); cbn; auto. split; [|split]; [lia|lia|reflexivity]. Qed.

Lemma sha512_ctor_ok hs g : size_ok W64 hs -> sha512_ctor hs g = Ok (mk2 g hs).
Proof.
  intros (H0 & H1 & H2). unfold sha512_ctor, validate_max.
  destruct (N.eqb_spec hs 0); [lia|]. rewrite H2. cbn [N.eqb negb].
  destruct (N.ltb_spec 512 hs); [lia|]. reflexivity.
Qed.

Theorem sha512_implements g : length (sm g) = 128%nat ->
  implements sha512_family sha512_spec true (fresh_of (sha512_ctor 512 g) sha512_init).
Proof.
  intros. assert (Hs : size_ok W64 512) by (split; [|split]; [lia|lia|reflexivity]).
  unfold fresh_of. rewrite sha512_ctor_ok by auto.
  apply (sha2_implements_gen W64 512 g); auto.
Qed.

(** sha512(384): the run-time object with size 384 computes SHA-384. *)
Theorem sha512_384_implements g : length (sm g) = 128%nat ->
  implements sha512_family sha384_spec true (fresh_of (sha512_ctor 384 g) sha512_init).
Proof.
  intros. assert (Hs : size_ok W64 384) by (split; [|split]; [lia|lia|reflexivity]).
  unfold fresh_of. rewrite sha512_ctor_ok by auto.
  apply (sha2_implements_gen W64 384 g); auto.
Qed.

Theorem sha512t_implements t g :
  0 < t -> t < 512 -> t mod 8 = 0 -> t <> 384 -> length (sm g) = 128%nat ->
  implements sha512_family (sha512t_spec t) true (fresh_of (sha512_ctor t g) sha512_init).
Proof.
  intros. assert (Hs : size_ok W64 t) by (split; [|split]; [lia|lia|auto]).
  unfold fresh_of. rewrite sha512_ctor_ok by auto.
  pose proof (sha2_implements_gen W64 t g Hs H3) as I.
  unfold sha2_spec, iv_of in I.
  replace (t =? 384) with false in I by (symmetry; apply N.eqb_neq; auto).
  replace (t =? 512) with false in I by (symmetry; apply N.eqb_neq; lia).
  exact I.
Qed.

(** static_size::sha512<N>: the same object with the size fixed at compile time. *)
Theorem sha512_static_same t g : size_ok W64 t ->
  fresh_of (sha2_ctor_fixed t g) sha512_init = fresh_of (sha512_ctor t g) sha512_init.
Proof. intros. unfold fresh_of. rewrite sha512_ctor_ok by auto. reflexivity. Qed.
