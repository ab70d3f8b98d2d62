(** * Groestl: the provider implements the specification. *)
From Verif Require Import Base Absorb Hasher HasherSpec Lemmas WordLemmas AbsorbProof HasherProof
  MdState SpecCommon MdProof BufProof TableLemmas GfSpec ColumnSpec ColumnProof TTable Validate
  ConstGroestl Groestl GroestlSpec.

(** The AES S-box by its values. *)
Definition aes_table : list N := Eval vm_compute in map (fun i => aes_sbox (N.of_nat i)) (seq 0 256).
Lemma aes_table_eq x : x < 256 -> aes_sbox x = tbl aes_table x.
Proof.
  revert x. assert (F : forallb (fun x => aes_sbox x =? tbl aes_table x) (map N.of_nat (seq 0 256)) = true)
    by (vm_compute; reflexivity).
  intros x Hx. apply N.eqb_eq. revert x Hx. apply forallb_bytes. exact F.
Qed.

(** The tables are the composition of the S-box and a column of the matrix. *)
Lemma gr_T_eq j k x : (j < 8)%nat -> (k < 8)%nat -> x < 256 ->
  byte_at (tbl (nth j groestl_T []) x) (N.of_nat (8 * k)) =
  gf_mul 0x11b (nth ((j + 8 - k) mod 8) [2; 2; 3; 4; 5; 3; 5; 7] 0) (aes_sbox x).
Proof.
  intros Hj Hk Hx. rewrite aes_table_eq by auto. apply N.eqb_eq.
  apply (sweep3 (fun j k x => byte_at (tbl (nth j groestl_T []) x) (N.of_nat (8 * k)) =?
    gf_mul 0x11b (nth ((j + 8 - k) mod 8) [2; 2; 3; 4; 5; 3; 5; 7] 0) (tbl aes_table x)) 8 8);
    [vm_compute; reflexivity|auto..].
Qed.

Definition grm_constP (R : nat) (i : N) : list N :=
  map (fun idx => N.lxor (shlw 64 (N.of_nat idx) 4) i) (seq 0 R).
Definition grm_constQ (R : nat) (r : N) : list N :=
  map (fun idx => N.lxor (subw 64 0xffffffffffffffff (shlw 64 (N.of_nat idx) 60)) (shlw 64 r 56)) (seq 0 R).

Lemma gr_const_eq R i : (R = 8 \/ R = 16)%nat -> (i < 16)%nat ->
  words_bytes 8 (grm_constP R (N.of_nat i)) = grs_constP R i /\
  words_bytes 8 (grm_constQ R (N.of_nat i)) = grs_constQ R i.
Proof.
  intros HR Hi.
  assert (F : forallb (fun i => list_eqb (words_bytes 8 (grm_constP R (N.of_nat i))) (grs_constP R i) &&
     list_eqb (words_bytes 8 (grm_constQ R (N.of_nat i))) (grs_constQ R i)) (seq 0 16) = true)
    by (destruct HR; subst R; vm_compute; reflexivity).
  rewrite forallb_forall in F. specialize (F i ltac:(apply in_seq; lia)).
  apply andb_prop in F. destruct F as [F1 F2]. split; apply list_eqb_eq; assumption.
Qed.

Section Rounds.
  Variable R : nat.
  Hypothesis HR : (R = 8 \/ R = 16)%nat.

  Lemma gr_roundP_ok x i : length x = R -> (i < 16)%nat ->
    words_bytes 8 (gr_roundP R x (N.of_nat i)) =
      grs_round R (grs_constP R i) (grs_sigmaP R) (words_bytes 8 x) /\
    length (gr_roundP R x (N.of_nat i)) = R.
  Proof.
    intros Hx Hi. unfold gr_roundP. cbv zeta. fold (grm_constP R (N.of_nat i)).
    assert (Lc : length (grm_constP R (N.of_nat i)) = R)
      by (unfold grm_constP; rewrite map_length, seq_length; reflexivity).
    split; [|apply ttable_length].
    rewrite (ttable_eq groestl_T R _ (grs_sigmaP R) (fun _ => aes_sbox) 0x11b [2; 2; 3; 4; 5; 3; 5; 7]).
    - rewrite words_bytes_lxor by congruence. rewrite (proj1 (gr_const_eq R i HR Hi)). reflexivity.
    - lia.
    - intros j Hj. destruct HR as [XX|XX]; rewrite XX;
        do 8 (destruct j as [|j]; [reflexivity|]); lia.
    - intros. apply gr_T_eq; auto.
    - rewrite map2_length, Hx, Lc. lia.
  Qed.

  Lemma gr_roundQ_ok x i : length x = R -> (i < 16)%nat ->
    words_bytes 8 (gr_roundQ R x (N.of_nat i)) =
      grs_round R (grs_constQ R i) (grs_sigmaQ R) (words_bytes 8 x) /\
    length (gr_roundQ R x (N.of_nat i)) = R.
  Proof.
    intros Hx Hi. unfold gr_roundQ. cbv zeta. fold (grm_constQ R (N.of_nat i)).
    assert (Lc : length (grm_constQ R (N.of_nat i)) = R)
      by (unfold grm_constQ; rewrite map_length, seq_length; reflexivity).
    split; [|apply ttable_length].
    rewrite (ttable_eq groestl_T R _ (grs_sigmaQ R) (fun _ => aes_sbox) 0x11b [2; 2; 3; 4; 5; 3; 5; 7]).
    - rewrite words_bytes_lxor by congruence. rewrite (proj2 (gr_const_eq R i HR Hi)). reflexivity.
    - lia.
    - intros j Hj. destruct HR as [XX|XX]; rewrite XX;
        do 8 (destruct j as [|j]; [reflexivity|]); lia.
    - intros. apply gr_T_eq; auto.
    - rewrite map2_length, Hx, Lc. lia.
  Qed.
End Rounds.

Section Groestl.
  Variable hs : N.
  Hypothesis Hh : 0 < hs <= 512 /\ hs mod 8 = 0.
  Let R := cl_R hs.
  Let bs := cl_bs hs.
  Let C := grs_C hs.

  Lemma gr_R_cases :
    (R = 8%nat /\ bs = 64%nat /\ C = 8%nat /\ hs <= 256) \/
    (R = 16%nat /\ bs = 128%nat /\ C = 16%nat /\ 256 < hs).
  Proof.
    unfold R, bs, C, cl_R, cl_bs, grs_C.
    destruct (N.ltb_spec 256 hs); destruct (N.leb_spec hs 256); try lia; auto.
  Qed.

  Lemma gr_dims : (R = C /\ bs = 8 * C /\ (C = 8 \/ C = 16) /\ C <= 16 /\ N.to_nat (hs / 8) <= bs)%nat.
  Proof.
    pose proof gr_R_cases as D.
    assert (N.to_nat (hs / 8) <= bs)%nat.
    { assert (hs / 8 <= N.of_nat bs); [|lia].
      apply N.div_le_upper_bound; [discriminate|]. destruct D as [(_ & -> & _ & ?)|(_ & -> & _ & ?)]; lia. }
    destruct D as [(-> & -> & -> & _)|(-> & -> & -> & _)]; repeat split; auto; lia.
  Qed.

  Lemma perm_P x : perm C (fun i => grs_round C (grs_constP C i) (grs_sigmaP C)) x = grs_P C x.
  Proof.
    unfold perm, grs_P, cl_rounds, grs_r. destruct gr_dims as (_ & _ & D & _ & _).
    destruct D as [-> | ->]; reflexivity.
  Qed.
  Lemma perm_Q x : perm C (fun i => grs_round C (grs_constQ C i) (grs_sigmaQ C)) x = grs_Q C x.
  Proof.
    unfold perm, grs_Q, cl_rounds, grs_r. destruct gr_dims as (_ & _ & D & _ & _).
    destruct D as [-> | ->]; reflexivity.
  Qed.

  (** The chaining value as bytes; only the first columns are used. *)
  Definition gr_view (h : list N) : list N := words_bytes 8 (firstn C h).

  Lemma gr_step_ok h t b : length h = 16%nat -> block_ok bs b ->
    gr_view (gr_step hs h t b) = grs_f C (gr_view h) b /\ length (gr_step hs h t b) = 16%nat.
  Proof.
    intros Lh [Lb Hb]. pose proof gr_dims as (ER & Eb & DC & HC & _).
    unfold gr_step. fold R. rewrite ER.
    destruct (cl_transform_ok gr_roundP gr_roundQ C
      (fun i => grs_round C (grs_constP C i) (grs_sigmaP C))
      (fun i => grs_round C (grs_constQ C i) (grs_sigmaQ C))
      (gr_roundP_ok C DC) (gr_roundQ_ok C DC) h (le_words 8 C b)) as (a & E & La & Ea).
    - lia.
    - apply le_words_length.
    - rewrite words_bytes_le_words in Ea by (auto; lia). rewrite perm_P, perm_Q in Ea. rewrite E. split.
      + unfold gr_view. rewrite firstn_app_exact by auto. exact Ea.
      + rewrite app_length, skipn_length. lia.
  Qed.

  Definition gr_iv : list N :=
    upd (if 256 <? hs then 15%nat else 7%nat) (byteswap64 hs) (zeros 16).
  Lemma gr_iv_length : length gr_iv = 16%nat.
  Proof. unfold gr_iv. destruct (256 <? hs); reflexivity. Qed.
  Lemma gr_iv_view : gr_view gr_iv = grs_iv C hs.
  Proof.
    unfold gr_view, gr_iv, grs_iv.
    assert (E : forall x, x < 2 ^ 64 -> be_bytes 64 x = words_bytes 8 (zeros 7) ++ be_bytes 8 x /\
       be_bytes 128 x = words_bytes 8 (zeros 15) ++ be_bytes 8 x).
    { intros x Hx.
      unfold be_bytes. split.
      - change 64%nat with (8 + 56)%nat. rewrite le_bytes_ext by exact Hx. rewrite rev_app_distr. reflexivity.
      - change 128%nat with (8 + 120)%nat. rewrite le_bytes_ext by exact Hx. rewrite rev_app_distr. reflexivity. }
    assert (Hs : hs < 2 ^ 64) by (eapply N.le_lt_trans; [apply Hh|reflexivity]).
    destruct (E hs Hs) as [E1 E2].
    pose proof (be_bytes_byteswap64 hs) as B.
    destruct gr_R_cases as [(_ & _ & -> & D)|(_ & _ & -> & D)].
    - destruct (N.ltb_spec 256 hs); [lia|]. change (8 * 8)%nat with 64%nat. rewrite E1, <- B.
      change (firstn 8 (upd 7 (byteswap64 hs) (zeros 16))) with (zeros 7 ++ [byteswap64 hs]).
      unfold words_bytes. rewrite flat_map_app. cbn [flat_map]. rewrite app_nil_r. reflexivity.
    - destruct (N.ltb_spec 256 hs); [|lia]. change (8 * 16)%nat with 128%nat. rewrite E2, <- B.
      change (firstn 16 (upd 15 (byteswap64 hs) (zeros 16))) with (zeros 15 ++ [byteswap64 hs]).
      unfold words_bytes. rewrite flat_map_app. cbn [flat_map]. rewrite app_nil_r. reflexivity.
  Qed.

  Definition gr_f (h b : list N) : list N := gr_step hs h 0 b.
  Lemma gr_step_f h t b : gr_step hs h t b = gr_f h b.
  Proof. unfold gr_f, gr_step. reflexivity. Qed.

  Definition gr_Rel (s : cl_st) (_ : unit) (msg : list N) : Prop :=
    clhs s = hs /\ bytes_ok msg /\ buf_inv (gr_step hs) bs 128 false gr_iv (cls s) msg.

  Lemma gr_loop B n t : block_loop (gr_step hs) bs gr_iv t B n = fold_left gr_f (blocks_n n bs B) gr_iv.
  Proof. apply block_loop_fold. exact gr_step_f. Qed.

  (** [transform(m, 1)] on a buffer that starts with the block [X]. *)
  Lemma gr_transform1_ok h X J t : length X = bs ->
    md_transform1 (gr_step hs) bs h (X ++ J) t = Ok (gr_f h X).
  Proof.
    intros HX. unfold md_transform1. rewrite load_app by auto. cbn [bind block_loop].
    rewrite firstn_all2 by lia. rewrite gr_step_f. reflexivity.
  Qed.

  Lemma gr_count_eq k : trunc 64 (N.of_nat (k * bs * 8)) / 8 / N.of_nat bs =
    N.of_nat k mod (2 ^ 61 / N.of_nat bs).
  Proof.
    rewrite trunc_mod, N.div_div by (destruct gr_R_cases as [(_ & -> & _)|(_ & -> & _)]; discriminate).
    replace (N.of_nat (k * bs * 8)) with ((8 * N.of_nat bs) * N.of_nat k) by lia.
    replace (2 ^ 64) with ((8 * N.of_nat bs) * (2 ^ 61 / N.of_nat bs))
      by (destruct gr_R_cases as [(_ & -> & _)|(_ & -> & _)]; reflexivity).
    rewrite N.mul_mod_distr_l by (destruct gr_R_cases as [(_ & -> & _)|(_ & -> & _)]; discriminate).
    rewrite N.mul_comm, N.div_mul by (destruct gr_R_cases as [(_ & -> & _)|(_ & -> & _)]; discriminate).
    reflexivity.
  Qed.

  (** The last blocks. *)
  Definition gr_tail (x : st) : res (list N * list N * nat * N) :=
    m <- store (sm x) (spos x) 0x80 ;;
    let pos := (spos x + 1)%nat in
    let total := trunc 64 (stotal x + N.of_nat (pos * 8)) in
    ' (h, m, pos, total) <-
      (if (bs - 8 <? pos)%nat then
         m <- (if negb (bs =? pos)%nat then k <- size_sub bs pos ;; memset m pos 0 k else Ok m) ;;
         h <- md_transform1 (gr_step hs) bs (sh x) m total ;;
         k <- size_sub bs pos ;;
         Ok (h, m, 0%nat, trunc 64 (total + N.of_nat (k * 8)))
       else Ok (sh x, m, pos, total)) ;;
    k <- size_sub (bs - 8) pos ;;
    m <- memset m pos 0 k ;;
    k <- size_sub bs pos ;;
    let total := trunc 64 (total + N.of_nat (k * 8)) in
    let mlen := byteswap64 (total / 8 / N.of_nat bs) in
    m <- memcpy m (bs - 8) (le_bytes 8 mlen) 8 ;;
    h <- md_transform1 (gr_step hs) bs h m total ;;
    Ok (h, m, pos, total).

  Lemma gr_final_tail x : gr_final (mkcl x hs) =
    (' (h, m, pos, total) <- gr_tail x ;;
     let h := cl_output gr_roundP (cl_R hs) h in
     o <- size_sub bs (N.to_nat (hs / 8)) ;;
     d <- load (words_bytes 8 h) o (N.to_nat (hs / 8)) ;;
     Ok (mkcl (mkst h m pos total) hs, d)).
  Proof.
    unfold gr_final, gr_tail. cbn [clhs cls]. fold bs. cbv zeta.
    rewrite bind_assoc. apply bind_ext. intros m1.
    rewrite bind_assoc. apply bind_ext. intros [[[h m] pos] total].
    rewrite bind_assoc. apply bind_ext. intros k1.
    rewrite bind_assoc. apply bind_ext. intros m2.
    rewrite bind_assoc. apply bind_ext. intros k2.
    rewrite bind_assoc. apply bind_ext. intros m3.
    rewrite bind_assoc. apply bind_ext. intros h3.
    cbn [bind]. reflexivity.
  Qed.

  Lemma gr_tail_ok x msg : buf_inv (gr_step hs) bs 128 false gr_iv x msg ->
    exists m pos total, gr_tail x = Ok (fold_left gr_f (blocks bs (grs_pad bs msg)) gr_iv, m, pos, total).
  Proof.
    intros (B & T & J & n & -> & HB & HT & Hc & Ht & Hm & Hl & Hp).
    unfold okrem, bschk in HT.
    assert (Hbs : (bs = 64 \/ bs = 128)%nat) by (destruct gr_R_cases as [(_ & -> & _)|(_ & -> & _)]; auto).
    assert (HT' : (length T < bs)%nat) by lia.
    assert (HJ : (length T + length J = 128)%nat) by (rewrite <- Hl, Hm, app_length; reflexivity).
    rewrite gr_loop in Hc. unfold gr_tail. rewrite Hp, Hm, Hc, Ht. cbv zeta.
    set (h := fold_left gr_f (blocks_n n bs B) gr_iv).
    unfold grs_pad.
    rewrite (md_pad_blocks bs _ B T n) by (rewrite ?be_bytes_length; lia).
    rewrite be_bytes_length, fold_left_app. fold h.
    rewrite store_app by lia. cbn [bind]. change 0x80 with 128.
    destruct (Nat.ltb_spec (bs - 8) (length T + 1)) as [Hbig|Hsmall].
    - destruct (Nat.leb_spec (length T + 1 + 8) bs); [lia|]. cbn [fold_left].
      set (X := T ++ [128] ++ zeros (bs - 1 - length T)).
      assert (HX : length X = bs) by (unfold X; rewrite !app_length, zeros_length; cbn [length]; lia).
      assert (E1 : (if negb (bs =? length T + 1)%nat then
                k <- size_sub bs (length T + 1) ;; memset (T ++ [128] ++ skipn 1 J) (length T + 1) 0 k
              else Ok (T ++ [128] ++ skipn 1 J)) = Ok (X ++ skipn (bs - length T) J)).
      { destruct (Nat.eqb_spec bs (length T + 1)) as [F|F]; cbn [negb].
        - unfold X. replace (bs - 1 - length T)%nat with 0%nat by lia. replace (bs - length T)%nat with 1%nat by lia.
          rewrite app_nil_r, <- app_assoc. reflexivity.
        - rewrite size_sub_ok by lia. cbn [bind]. rewrite (app_assoc T).
          rewrite memset_app by (rewrite ?app_length, ?skipn_length; cbn [length]; lia).
          rewrite skipn_skipn. unfold X. rewrite <- !app_assoc. unfold zeros.
          replace (bs - (length T + 1))%nat with (bs - 1 - length T)%nat by lia.
          replace (bs - 1 - length T + 1)%nat with (bs - length T)%nat by lia. reflexivity. }
      rewrite E1. cbn [bind]. rewrite gr_transform1_ok by auto. cbn [bind].
      repeat (rewrite size_sub_ok by lia; cbn [bind]). rewrite ?Nat.sub_0_r.
      set (J1 := X ++ skipn (bs - length T) J).
      assert (HJ1 : length J1 = 128%nat) by (unfold J1; rewrite app_length, skipn_length, HX; lia).
      pose proof (memset_app [] J1 0 0 (bs - 8) eq_refl ltac:(lia)) as E2. cbn [app] in E2. rewrite E2. cbn [bind].
      rewrite memcpy_app by (rewrite ?repeat_length, ?le_bytes_length, ?skipn_length; lia). cbn [bind].
      rewrite firstn_all2 by (rewrite le_bytes_length; lia). rewrite be_bytes_byteswap64.
      repeat (rewrite trunc_add_l, <- ?N.add_assoc).
      replace (0 + (N.of_nat (n * bs * 8) + (N.of_nat ((length T + 1) * 8) + (N.of_nat ((bs - (length T + 1)) * 8) +
               N.of_nat (bs * 8))))) with (N.of_nat ((n + 2) * bs * 8)) by nia.
      rewrite gr_count_eq, app_assoc, gr_transform1_ok by (rewrite app_length, repeat_length, be_bytes_length; lia).
      cbn [bind]. unfold grs_count. rewrite app_length, HB, md_zeros_big by lia.
      replace (n * bs + length T + 1 + (2 * bs - 8 - 1 - length T) + 8)%nat with ((n + 2) * bs)%nat by lia.
      rewrite Nat.div_mul by lia.
      do 3 eexists. reflexivity.
    - destruct (Nat.leb_spec (length T + 1 + 8) bs); [|lia]. cbn [fold_left bind].
      repeat (rewrite size_sub_ok by lia; cbn [bind]). rewrite (app_assoc T).
      rewrite memset_app by (rewrite ?app_length, ?skipn_length; cbn [length]; lia). cbn [bind].
      rewrite (app_assoc (T ++ [128])).
      rewrite memcpy_app by (rewrite ?app_length, ?repeat_length, ?le_bytes_length, ?skipn_length; cbn [length]; lia).
      cbn [bind]. rewrite firstn_all2 by (rewrite le_bytes_length; lia). rewrite be_bytes_byteswap64.
      repeat (rewrite trunc_add_l, <- ?N.add_assoc).
      replace (0 + (N.of_nat (n * bs * 8) + (N.of_nat ((length T + 1) * 8) + N.of_nat ((bs - (length T + 1)) * 8))))
        with (N.of_nat ((n + 1) * bs * 8)) by nia.
      rewrite gr_count_eq, app_assoc, gr_transform1_ok
        by (rewrite !app_length, repeat_length, be_bytes_length; cbn [length]; lia).
      cbn [bind]. unfold grs_count. rewrite app_length, HB, md_zeros_small by lia.
      replace (n * bs + length T + 1 + (bs - 8 - 1 - length T) + 8)%nat with ((n + 1) * bs)%nat by lia.
      rewrite Nat.div_mul by lia.
      replace (bs - 8 - (length T + 1))%nat with (bs - 8 - 1 - length T)%nat by lia.
      rewrite <- !app_assoc. do 3 eexists. reflexivity.
  Qed.

  Lemma gr_fold_ok l h : Forall (block_ok bs) l -> length h = 16%nat ->
    gr_view (fold_left gr_f l h) = fold_left (grs_f C) l (gr_view h) /\ length (fold_left gr_f l h) = 16%nat.
  Proof.
    intros Hl Hl16.
    apply (fold_left_hom gr_view gr_f (grs_f C) (fun h => length h = 16%nat) (block_ok bs)); auto.
    intros a b Ha Hb. apply gr_step_ok; auto.
  Qed.

  Lemma gr_pad_ok msg : bytes_ok msg -> Forall (block_ok bs) (blocks bs (grs_pad bs msg)).
  Proof.
    intros. apply blocks_pad_ok; auto using be_bytes_ok.
    destruct gr_R_cases as [(_ & -> & _)|(_ & -> & _)]; lia.
  Qed.

  (** The digest, read off the final chaining value. *)
  Lemma gr_out_ok h msg : bytes_ok msg -> h = fold_left gr_f (blocks bs (grs_pad bs msg)) gr_iv ->
    exists h', cl_output gr_roundP (cl_R hs) h = h' /\
      load (words_bytes 8 h') (bs - N.to_nat (hs / 8)) (N.to_nat (hs / 8)) = Ok (grs_hash hs msg) /\
      length (grs_hash hs msg) = N.to_nat (hs / 8) /\ bytes_ok (grs_hash hs msg).
  Proof.
    intros Hmsg Eh. destruct gr_dims as (ER & Eb & DC & HC & Hsz). fold R. rewrite ER.
    destruct (gr_fold_ok _ gr_iv (gr_pad_ok msg Hmsg) gr_iv_length) as [V L].
    rewrite <- Eh in V, L. rewrite gr_iv_view in V.
    destruct (cl_output_ok gr_roundP C (fun i => grs_round C (grs_constP C i) (grs_sigmaP C))
      (gr_roundP_ok C DC) h ltac:(lia)) as (a & E & La & Ea).
    rewrite perm_P in Ea. fold (gr_view h) in Ea. rewrite V in Ea.
    exists (a ++ skipn C h). split; [exact E|].
    assert (EH : grs_hash hs msg = skipn (bs - N.to_nat (hs / 8)) (words_bytes 8 a)).
    { unfold grs_hash, md_hash, grs_omega. fold C. cbv zeta. rewrite <- Eb, Ea. reflexivity. }
    assert (Lw : length (words_bytes 8 a) = bs) by (rewrite words_bytes_length, La; lia).
    rewrite EH. clear EH. revert Hsz. generalize (N.to_nat (hs / 8)). intros sz Hsz. split; [|split].
    - unfold words_bytes. rewrite flat_map_app. fold (words_bytes 8 a) (words_bytes 8 (skipn C h)).
      rewrite load_ok by (rewrite app_length; lia). f_equal.
      rewrite skipn_app, firstn_app. rewrite skipn_length, Lw.
      replace (bs - sz - bs)%nat with 0%nat by lia.
      replace (sz - (bs - (bs - sz)))%nat with 0%nat by lia.
      cbn [firstn]. rewrite app_nil_r. apply firstn_all2. rewrite skipn_length. lia.
    - rewrite skipn_length, Lw. lia.
    - apply Forall_skipn. apply words_bytes_ok.
  Qed.

  Lemma gr_final_ok s msg : clhs s = hs -> bytes_ok msg ->
    buf_inv (gr_step hs) bs 128 false gr_iv (cls s) msg ->
    exists s', gr_final s = Ok (s', grs_hash hs msg).
  Proof.
    intros Es Hmsg A. destruct s as [x h0]. cbn [clhs cls] in *. subst h0.
    rewrite gr_final_tail. destruct (gr_tail_ok x msg A) as (m & pos & total & E). rewrite E. cbn [bind].
    destruct (gr_out_ok _ msg Hmsg eq_refl) as (h' & E' & L & _). cbv zeta. rewrite E'.
    destruct gr_dims as (_ & _ & _ & _ & Hsz).
    rewrite size_sub_ok by auto. cbn [bind]. rewrite L. cbn [bind]. eauto.
  Qed.

  Lemma groestl_sim : sim groestl (groestl_spec hs) gr_Rel true.
  Proof.
    assert (bs_pos : (0 < bs)%nat) by (destruct gr_R_cases as [(_ & -> & _)|(_ & -> & _)]; lia).
    assert (bs_cap : (bs <= 128)%nat) by (destruct gr_R_cases as [(_ & -> & _)|(_ & -> & _)]; lia).
    constructor.
    - intros s p msg (Es & _ & A). eexists. split; [reflexivity|]. split; [exact Es|].
      split; [constructor|]. cbn [cls]. rewrite Es. fold gr_iv.
      apply buf_inv_start; [exact bs_pos|exact bs_cap|exact (buf_inv_sm _ _ _ _ _ _ _ A)].
    - intros s p msg d Hd (Es & Hm & A).
      destruct (buf_update_ok (gr_step hs) bs 128 false bs_pos bs_cap gr_iv (cls s) msg d A) as (x & E & A').
      exists (mkcl x hs). split; [|split; [reflexivity|split; [apply bytes_ok_app; auto|exact A']]].
      change (bschk bs false) with bs in E. unfold groestl; cbn [hp p_update]. unfold gr_update. rewrite Es.
      cbv zeta. fold bs. rewrite E. reflexivity.
    - intros _ s p msg (Es & _ & A). do 2 eexists. split; [reflexivity|]. split; [reflexivity|].
      split; [exact Es|]. split; [constructor|]. cbn [cls clhs sm]. rewrite Es. fold gr_iv.
      apply buf_inv_start; [exact bs_pos|exact bs_cap|].
      unfold zero_memory. rewrite zeros_length. exact (buf_inv_sm _ _ _ _ _ _ _ A).
    - intros q. destruct q.
    - intros s p msg (Es & Hm & A). apply gr_final_ok; auto.
    - intros s p msg (Es & _ & _). cbn [groestl hp_size groestl_spec sp_size]. rewrite Es. lia.
    - intros s p msg (Es & Hm & A). destruct (gr_out_ok _ msg Hm eq_refl) as (h' & _ & _ & L & _). exact L.
    - intros s p msg (Es & Hm & A). destruct (gr_out_ok _ msg Hm eq_refl) as (h' & _ & _ & _ & B). exact B.
    - cbn. destruct Hh as [[H0 _] H8].
      assert (hs / 8 <> 0) as D; [|revert D; generalize (hs / 8); intros; lia]. intros E. apply N.div_small_iff in E; [|discriminate].
      rewrite N.mod_small in H8 by auto. lia.
  Qed.

  Theorem groestl_implements g : length (sm g) = 128%nat ->
    implements groestl (groestl_spec hs) true (fresh_of (gr_ctor hs g) gr_init) /\
    implements groestl (groestl_spec hs) true (fresh_of (gr_ctor_static hs g) gr_init).
  Proof.
    intros Hg.
    assert (E : gr_ctor hs g = gr_ctor_static hs g).
    { unfold gr_ctor, validate_max. destruct Hh as [[H0 H1] H8].
      destruct (N.eqb_spec hs 0); [lia|]. rewrite H8. destruct (N.ltb_spec 512 hs); [lia|]. reflexivity. }
    rewrite E. assert (I : implements groestl (groestl_spec hs) true (fresh_of (gr_ctor_static hs g) gr_init)).
    { unfold fresh_of, gr_ctor_static. cbn [bind]. unfold gr_init. cbn [clhs cls].
      apply (sim_implements _ _ _ _ groestl_sim). split; [reflexivity|]. split; [constructor|].
      cbn [cls]. fold gr_iv.
      apply buf_inv_start; [|  |exact Hg];
        destruct gr_R_cases as [(_ & -> & _)|(_ & -> & _)]; lia. }
    split; exact I.
  Qed.
End Groestl.

(** Short messages: the number of blocks is not reduced. *)
Lemma grs_pad_exact hs msg : N.of_nat (length msg) + 256 <= 2 ^ 61 ->
  grs_pad (8 * grs_C hs) msg = md_pad (8 * grs_C hs) (be_bytes 8 (grs_count (8 * grs_C hs) msg)) msg.
Proof.
  intros H. unfold grs_pad. rewrite N.mod_small; [reflexivity|]. unfold grs_count.
  assert (D : forall bs k, (bs = 64 \/ bs = 128)%nat -> N.of_nat k < 2 ^ 61 -> N.of_nat (k / bs) < 2 ^ 61 / N.of_nat bs).
  { intros bs k Hb Hk.
    assert (E : N.of_nat (k / bs) = N.of_nat k / N.of_nat bs) by apply Nat2N.inj_div.
    rewrite E. apply N.div_lt_upper_bound; [destruct Hb; subst; discriminate|].
    replace (N.of_nat bs * (2 ^ 61 / N.of_nat bs)) with (2 ^ 61) by (destruct Hb; subst; reflexivity).
    exact Hk. }
  assert (Hb : (8 * grs_C hs = 64 \/ 8 * grs_C hs = 128)%nat) by (unfold grs_C; destruct (hs <=? 256); auto).
  apply D; [exact Hb|].
  assert (Hz : (md_zeros (8 * grs_C hs) 8 (length msg) < 128)%nat).
  { unfold md_zeros.
    match goal with |- (?a mod ?b < _)%nat => pose proof (Nat.mod_upper_bound a b ltac:(lia)) end. lia. }
  lia.
Qed.
