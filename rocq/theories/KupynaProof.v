(** * Kupyna: the provider implements the specification. *)
From Verif Require Import Base Absorb Hasher HasherSpec Lemmas WordLemmas AbsorbProof HasherProof
  MdState SpecCommon MdProof BufProof TableLemmas GfSpec ColumnSpec ColumnProof TTable Validate
  ConstKupyna Kupyna KupynaSpec.

(** The tables are the composition of the S-boxes and a column of the matrix. *)
Lemma ku_T_eq j k x : (j < 8)%nat -> (k < 8)%nat -> x < 256 ->
  byte_at (tbl (nth j kupyna_T []) x) (N.of_nat (8 * k)) =
  gf_mul 0x11d (nth ((j + 8 - k) mod 8) [1; 1; 5; 1; 8; 6; 7; 4] 0) (kus_sbox j x).
Proof.
  intros Hj Hk Hx. apply N.eqb_eq.
  apply (sweep3 (fun j k x => byte_at (tbl (nth j kupyna_T []) x) (N.of_nat (8 * k)) =?
    gf_mul 0x11d (nth ((j + 8 - k) mod 8) [1; 1; 5; 1; 8; 6; 7; 4] 0) (kus_sbox j x)) 8 8);
    [vm_compute; reflexivity|auto..].
Qed.

Definition kum_constx (R : nat) (i : N) : list N :=
  map (fun idx => N.lxor (shlw 64 (N.of_nat idx) 4) i) (seq 0 R).
Definition kum_zeta (R : nat) (i : N) (j : nat) : N :=
  N.lxor 0x00F0F0F0F0F0F0F3 (shlw 64 (N.lxor (N.of_nat (R - 1 - j) * 0x10) (N.land i 255)) 56).

Lemma ku_const_eq R i : (R = 8 \/ R = 16)%nat -> (i < 16)%nat ->
  words_bytes 8 (kum_constx R (N.of_nat i)) = kus_constx R i /\
  forall j, (j < R)%nat -> kum_zeta R (N.of_nat i) j = le_word (kus_zeta R i j).
Proof.
  intros HR Hi.
  assert (F : forallb (fun i => list_eqb (words_bytes 8 (kum_constx R (N.of_nat i))) (kus_constx R i) &&
     forallb (fun j => kum_zeta R (N.of_nat i) j =? le_word (kus_zeta R i j)) (seq 0 R)) (seq 0 16) = true)
    by (destruct HR; subst R; vm_compute; reflexivity).
  rewrite forallb_forall in F. specialize (F i ltac:(apply in_seq; lia)).
  apply andb_prop in F. destruct F as [F1 F2]. split; [apply list_eqb_eq; assumption|].
  intros j Hj. rewrite forallb_forall in F2. apply N.eqb_eq. apply F2. apply in_seq. lia.
Qed.

Section Rounds.
  Variable R : nat.
  Hypothesis HR : (R = 8 \/ R = 16)%nat.

  Lemma ku_G_ok x : length x = R ->
    words_bytes 8 (ku_G R x) = kus_layer R (words_bytes 8 x) /\ length (ku_G R x) = R.
  Proof.
    intros Hx. unfold ku_G. split; [|apply ttable_length].
    apply (ttable_eq kupyna_T R _ (kus_shift R) kus_sbox 0x11d [1; 1; 5; 1; 8; 6; 7; 4]).
    - lia.
    - intros j Hj. unfold kus_shift. destruct HR as [XX|XX]; rewrite XX;
        do 8 (destruct j as [|j]; [reflexivity|]); lia.
    - intros. apply ku_T_eq; auto.
    - exact Hx.
  Qed.

  Lemma ku_roundP_ok x i : length x = R -> (i < 16)%nat ->
    words_bytes 8 (ku_roundP R x (N.of_nat i)) =
      kus_layer R (col_xor (words_bytes 8 x) (kus_constx R i)) /\
    length (ku_roundP R x (N.of_nat i)) = R.
  Proof.
    intros Hx Hi. unfold ku_roundP. fold (kum_constx R (N.of_nat i)).
    assert (Lc : length (kum_constx R (N.of_nat i)) = R)
      by (unfold kum_constx; rewrite map_length, seq_length; reflexivity).
    destruct (ku_G_ok (map2 N.lxor x (kum_constx R (N.of_nat i)))) as [E L].
    { rewrite map2_length, Hx, Lc. lia. }
    split; [|exact L]. rewrite E, words_bytes_lxor by congruence.
    rewrite (proj1 (ku_const_eq R i HR Hi)). reflexivity.
  Qed.

  Lemma words_bytes_seq (f : nat -> N) n k :
    words_bytes 8 (map f (seq n k)) = flat_map (fun c => le_bytes 8 (f c)) (seq n k).
  Proof. unfold words_bytes. rewrite flat_map_concat_map, map_map, <- flat_map_concat_map. reflexivity. Qed.

  Lemma words_bytes_column x : forall c, (c < length x)%nat ->
    kus_column (words_bytes 8 x) c = le_bytes 8 (nth c x 0).
  Proof.
    unfold kus_column. induction x as [|w x IH]; intros c Hc; [cbn in Hc; lia|].
    unfold words_bytes. cbn [flat_map]. destruct c.
    - cbn [nth]. rewrite Nat.mul_0_r. cbn [skipn]. apply firstn_app_exact.
      rewrite le_bytes_length. reflexivity.
    - cbn [nth length] in *. replace (8 * S c)%nat with (8 + 8 * c)%nat by lia.
      rewrite skipn_app, le_bytes_length.
      rewrite (skipn_all2 (le_bytes 8 w)) by (rewrite le_bytes_length; lia).
      replace (8 + 8 * c - 8)%nat with (8 * c)%nat by lia. cbn [app].
      apply IH. lia.
  Qed.

  Lemma map2_seq x : forall (g : nat -> N) n, length x = R ->
    map2 (addw 64) x (map g (seq n R)) = map (fun j => addw 64 (nth (j - n) x 0) (g j)) (seq n R).
  Proof.
    intros g n. clear HR. generalize R as k. intros k. revert n k.
    induction x as [|w x IH]; intros n k Hk; cbn [length] in Hk; subst k; [reflexivity|].
    cbn [seq map map2]. rewrite Nat.sub_diag. cbn [nth]. f_equal.
    rewrite IH by reflexivity. apply map_ext_in. intros j Hj. apply in_seq in Hj.
    replace (j - n)%nat with (S (j - S n)) by lia. reflexivity.
  Qed.

  Lemma ku_roundQ_ok x i : length x = R -> (i < 16)%nat ->
    words_bytes 8 (ku_roundQ R x (N.of_nat i)) = kus_layer R (kus_addcol R i (words_bytes 8 x)) /\
    length (ku_roundQ R x (N.of_nat i)) = R.
  Proof.
    intros Hx Hi. unfold ku_roundQ.
    change (map (fun j : nat => N.lxor 0x00F0F0F0F0F0F0F3
      (shlw 64 (N.lxor (N.of_nat (R - 1 - j) * 0x10) (N.land (N.of_nat i) 255)) 56)) (seq 0 R))
      with (map (kum_zeta R (N.of_nat i)) (seq 0 R)).
    destruct (ku_G_ok (map2 (addw 64) x (map (kum_zeta R (N.of_nat i)) (seq 0 R)))) as [E L].
    { rewrite map2_length, map_length, seq_length, Hx. lia. }
    split; [|exact L]. rewrite E. f_equal. rewrite map2_seq by auto. rewrite words_bytes_seq.
    unfold kus_addcol. rewrite !flat_map_concat_map. f_equal. apply map_ext_in. intros c Hc.
    apply in_seq in Hc. f_equal. rewrite Nat.sub_0_r.
    rewrite words_bytes_column by lia. rewrite le_word_bytes.
    rewrite (proj2 (ku_const_eq R i HR Hi)) by lia.
    rewrite addw_plus. unfold plus_mod. change (256 ^ N.of_nat 8) with (2 ^ 64).
    rewrite N.add_mod_idemp_l by discriminate. reflexivity.
  Qed.
End Rounds.

Section Kupyna.
  Variable hs : N.
  Hypothesis Hh : hs = 256 \/ hs = 512.
  Let R := cl_R hs.
  Let bs := cl_bs hs.
  Let C := kus_C hs.

  Lemma ku_R_cases :
    (R = 8%nat /\ bs = 64%nat /\ C = 8%nat /\ hs <= 256) \/
    (R = 16%nat /\ bs = 128%nat /\ C = 16%nat /\ 256 < hs).
  Proof.
    unfold R, bs, C, cl_R, cl_bs, kus_C.
    destruct (N.ltb_spec 256 hs); destruct (N.leb_spec hs 256); try lia; auto.
  Qed.

  Lemma ku_dims : (R = C /\ bs = 8 * C /\ (C = 8 \/ C = 16) /\ C <= 16 /\ N.to_nat (hs / 8) <= bs)%nat.
  Proof.
    pose proof ku_R_cases as D.
    assert (N.to_nat (hs / 8) <= bs)%nat.
    { assert (hs / 8 <= N.of_nat bs); [|lia].
      apply N.div_le_upper_bound; [discriminate|]. destruct D as [(_ & -> & _ & ?)|(_ & -> & _ & ?)]; lia. }
    destruct D as [(-> & -> & -> & _)|(-> & -> & -> & _)]; repeat split; auto; lia.
  Qed.

  Lemma perm_P x : perm C (fun i A => kus_layer C (col_xor A (kus_constx C i))) x = kus_Tx C x.
  Proof.
    unfold perm, kus_Tx, cl_rounds, kus_r. destruct ku_dims as (_ & _ & D & _ & _).
    destruct D as [-> | ->]; reflexivity.
  Qed.
  Lemma perm_Q x : perm C (fun i A => kus_layer C (kus_addcol C i A)) x = kus_Tp C x.
  Proof.
    unfold perm, kus_Tp, cl_rounds, kus_r. destruct ku_dims as (_ & _ & D & _ & _).
    destruct D as [-> | ->]; reflexivity.
  Qed.

  (** The chaining value as bytes; only the first columns are used. *)
  Definition ku_view (h : list N) : list N := words_bytes 8 (firstn C h).

  Lemma ku_step_ok h t b : length h = 16%nat -> block_ok bs b ->
    ku_view (ku_step hs h t b) = kus_f C (ku_view h) b /\ length (ku_step hs h t b) = 16%nat.
  Proof.
    intros Lh [Lb Hb]. pose proof ku_dims as (ER & Eb & DC & HC & _).
    unfold ku_step. fold R. rewrite ER.
    destruct (cl_transform_ok ku_roundP ku_roundQ C
      (fun i A => kus_layer C (col_xor A (kus_constx C i)))
      (fun i A => kus_layer C (kus_addcol C i A))
      (ku_roundP_ok C DC) (ku_roundQ_ok C DC) h (le_words 8 C b)) as (a & E & La & Ea).
    - lia.
    - apply le_words_length.
    - rewrite words_bytes_le_words in Ea by (auto; lia). rewrite perm_P, perm_Q in Ea. rewrite E. split.
      + unfold ku_view. rewrite firstn_app_exact by auto. exact Ea.
      + rewrite app_length, skipn_length. lia.
  Qed.

  Definition ku_iv : list N := N.of_nat (cl_bs hs) :: zeros 15.
  Lemma ku_iv_length : length ku_iv = 16%nat.
  Proof. reflexivity. Qed.
  Lemma ku_iv_view : ku_view ku_iv = kus_iv C.
  Proof.
    unfold ku_view, ku_iv, kus_iv. fold bs.
    destruct ku_R_cases as [(_ & -> & -> & _)|(_ & -> & -> & _)]; vm_compute; reflexivity.
  Qed.

  Definition ku_f (h b : list N) : list N := ku_step hs h 0 b.
  Lemma ku_step_f h t b : ku_step hs h t b = ku_f h b.
  Proof. unfold ku_f, ku_step. reflexivity. Qed.

  Definition ku_Rel (s : cl_st) (_ : unit) (msg : list N) : Prop :=
    clhs s = hs /\ bytes_ok msg /\ buf_inv (ku_step hs) bs 128 false ku_iv (cls s) msg.

  Lemma ku_loop B n t : block_loop (ku_step hs) bs ku_iv t B n = fold_left ku_f (blocks_n n bs B) ku_iv.
  Proof. apply block_loop_fold. exact ku_step_f. Qed.

  (** [transform(m, 1)] on a buffer that starts with the block [X]. *)
  Lemma ku_transform1_ok h X J t : length X = bs ->
    md_transform1 (ku_step hs) bs h (X ++ J) t = Ok (ku_f h X).
  Proof.
    intros HX. unfold md_transform1. rewrite load_app by auto. cbn [bind block_loop].
    rewrite firstn_all2 by lia. rewrite ku_step_f. reflexivity.
  Qed.

  Definition kus_lenf (msg : list N) : list N := le_bytes 12 (bitlen msg mod 2 ^ 64).

  (** The last blocks. *)
  Definition ku_tail (x : st) : res (list N * list N * nat * N) :=
    let total := trunc 64 (stotal x + N.of_nat (spos x * 8)) in
    m <- store (sm x) (spos x) 0x80 ;;
    let pos := (spos x + 1)%nat in
    ' (h, m, pos) <-
      (if (bs - 12 <? pos)%nat then
         m <- (if negb (bs =? pos)%nat then k <- size_sub bs pos ;; memset m pos 0 k else Ok m) ;;
         h <- md_transform1 (ku_step hs) bs (sh x) m total ;;
         Ok (h, m, 0%nat)
       else Ok (sh x, m, pos)) ;;
    k <- size_sub bs pos ;;
    m <- memset m pos 0 k ;;
    m <- memcpy m (bs - 12) (le_bytes 8 total) 8 ;;
    m <- memset m (bs - 4) 0 4 ;;
    h <- md_transform1 (ku_step hs) bs h m total ;;
    Ok (h, m, pos, total).

  Lemma ku_final_tail x : ku_final (mkcl x hs) =
    (' (h, m, pos, total) <- ku_tail x ;;
     let h := cl_output ku_roundP (cl_R hs) h in
     o <- size_sub bs (N.to_nat (hs / 8)) ;;
     d <- load (words_bytes 8 h) o (N.to_nat (hs / 8)) ;;
     Ok (mkcl (mkst h m pos total) hs, d)).
  Proof.
    unfold ku_final, ku_tail. cbn [clhs cls]. fold bs. cbv zeta.
    rewrite bind_assoc. apply bind_ext. intros m1.
    rewrite bind_assoc. apply bind_ext. intros [[h m] pos].
    rewrite bind_assoc. apply bind_ext. intros k1.
    rewrite bind_assoc. apply bind_ext. intros m2.
    rewrite bind_assoc. apply bind_ext. intros k2.
    rewrite bind_assoc. apply bind_ext. intros m3.
    rewrite bind_assoc. apply bind_ext. intros h3.
    cbn [bind]. reflexivity.
  Qed.

  (** Writing the length over a buffer that ends a block with zeros. *)
  Lemma ku_write_len A J t : (length A + 12 = bs)%nat -> t < 2 ^ 64 ->
    (m <- memcpy ((A ++ zeros 12) ++ J) (bs - 12) (le_bytes 8 t) 8 ;; memset m (bs - 4) 0 4) =
    Ok ((A ++ le_bytes 12 t) ++ J).
  Proof.
    intros HA Ht. rewrite <- app_assoc.
    rewrite memcpy_app by (rewrite ?app_length, ?zeros_length, ?le_bytes_length; lia). cbn [bind].
    rewrite firstn_all2 by (rewrite le_bytes_length; lia).
    rewrite skipn_app, zeros_length. change (8 - 12)%nat with 0%nat. rewrite skipn_O.
    change (skipn 8 (zeros 12)) with (zeros 4). rewrite app_assoc.
    rewrite memset_app by (rewrite ?app_length, ?zeros_length, ?le_bytes_length; lia).
    rewrite skipn_app_exact by reflexivity. rewrite <- !app_assoc. do 2 f_equal.
    change (le_bytes 12 t) with (le_bytes (8 + 4) t). rewrite (le_bytes_ext 8 4 t) by exact Ht. rewrite <- app_assoc. reflexivity.
  Qed.

  Lemma ku_tail_ok x msg : buf_inv (ku_step hs) bs 128 false ku_iv x msg ->
    exists m pos total,
      ku_tail x = Ok (fold_left ku_f (blocks bs (md_pad bs (kus_lenf msg) msg)) ku_iv, m, pos, total).
  Proof.
    intros (B & T & J & n & -> & HB & HT & Hc & Ht & Hm & Hl & Hp).
    unfold okrem, bschk in HT.
    assert (Hbs : (bs = 64 \/ bs = 128)%nat) by (destruct ku_R_cases as [(_ & -> & _)|(_ & -> & _)]; auto).
    assert (HT' : (length T < bs)%nat) by lia.
    assert (HJ : (length T + length J = 128)%nat) by (rewrite <- Hl, Hm, app_length; reflexivity).
    rewrite ku_loop in Hc. unfold ku_tail. rewrite Hp, Hm, Hc, Ht. cbv zeta.
    set (h := fold_left ku_f (blocks_n n bs B) ku_iv).
    rewrite (md_pad_blocks bs _ B T n) by (unfold kus_lenf; rewrite ?le_bytes_length; lia).
    unfold kus_lenf at 1 3. rewrite le_bytes_length, fold_left_app. fold h.
    rewrite trunc_add_l, N.add_0_l.
    replace (N.of_nat (n * bs * 8) + N.of_nat (length T * 8)) with (bitlen (B ++ T))
      by (unfold bitlen; rewrite app_length, HB; lia).
    rewrite trunc_mod. unfold kus_lenf.
    assert (Hlt : bitlen (B ++ T) mod 2 ^ 64 < 2 ^ 64) by (apply N.mod_lt; discriminate).
    revert Hlt. generalize (bitlen (B ++ T) mod 2 ^ 64). intros total Hlt. rewrite ?le_bytes_length.
    rewrite store_app by lia. cbn [bind]. change 0x80 with 128.
    destruct (Nat.ltb_spec (bs - 12) (length T + 1)) as [Hbig|Hsmall].
    - destruct (Nat.leb_spec (length T + 1 + 12) bs); [lia|]. cbn [fold_left].
      set (X := T ++ [128] ++ zeros (bs - 1 - length T)).
      assert (HX : length X = bs) by (unfold X; rewrite !app_length, zeros_length; cbn [length]; lia).
      assert (E1 : (if negb (bs =? length T + 1)%nat then
                k <- size_sub bs (length T + 1) ;; memset (T ++ [128] ++ skipn 1 J) (length T + 1) 0 k
              else Ok (T ++ [128] ++ skipn 1 J)) = Ok (X ++ skipn (bs - length T) J)).
      { destruct (Nat.eqb_spec bs (length T + 1)) as [F|F]; cbn [negb].
        - unfold X. replace (bs - 1 - length T)%nat with 0%nat by lia. replace (bs - length T)%nat with 1%nat by lia.
          rewrite app_nil_r, <- app_assoc. reflexivity.
        - rewrite size_sub_ok by lia. cbn [bind]. rewrite (app_assoc T).
          rewrite memset_app by (rewrite ?app_length, ?skipn_length; cbn [length]; lia).
          rewrite skipn_skipn. unfold X. rewrite <- !app_assoc. unfold zeros.
          replace (bs - (length T + 1))%nat with (bs - 1 - length T)%nat by lia.
          replace (bs - 1 - length T + 1)%nat with (bs - length T)%nat by lia. reflexivity. }
      rewrite E1. cbn [bind]. rewrite ku_transform1_ok by auto. cbn [bind].
      rewrite size_sub_ok by lia. cbn [bind]. rewrite ?Nat.sub_0_r.
      set (J1 := X ++ skipn (bs - length T) J).
      assert (HJ1 : length J1 = 128%nat) by (unfold J1; rewrite app_length, skipn_length, HX; lia).
      pose proof (memset_app [] J1 0 0 bs eq_refl ltac:(lia)) as E2. cbn [app] in E2. rewrite E2. cbn [bind].
      replace (repeat 0 bs) with (zeros (bs - 12) ++ zeros 12)
        by (unfold zeros; rewrite <- repeat_app; f_equal; lia).
      pose proof (ku_write_len (zeros (bs - 12)) (skipn bs J1) total ltac:(rewrite zeros_length; lia) Hlt) as W.
      match type of W with bind ?a _ = _ => destruct a as [m2| |]; try discriminate W end. cbn [bind] in W |- *.
      rewrite W. cbn [bind].
      rewrite ku_transform1_ok by (rewrite app_length, zeros_length, le_bytes_length; lia).
      cbn [bind]. do 3 eexists. reflexivity.
    - destruct (Nat.leb_spec (length T + 1 + 12) bs); [|lia]. cbn [fold_left bind].
      rewrite size_sub_ok by lia. cbn [bind]. rewrite (app_assoc T).
      rewrite memset_app by (rewrite ?app_length, ?skipn_length; cbn [length]; lia). cbn [bind].
      replace (repeat 0 (bs - (length T + 1))) with (zeros (bs - 12 - 1 - length T) ++ zeros 12)
        by (unfold zeros; rewrite <- repeat_app; f_equal; lia).
      rewrite !(app_assoc (T ++ [128])).
      pose proof (ku_write_len ((T ++ [128]) ++ zeros (bs - 12 - 1 - length T))
        (skipn (bs - (length T + 1)) (skipn 1 J)) total
        ltac:(rewrite !app_length, zeros_length; cbn [length]; lia) Hlt) as W.
      match type of W with bind ?a _ = _ => destruct a as [m2| |]; try discriminate W end. cbn [bind] in W |- *.
      rewrite W. cbn [bind].
      rewrite ku_transform1_ok by (rewrite !app_length, zeros_length, le_bytes_length; cbn [length]; lia).
      cbn [bind]. rewrite <- !app_assoc. do 3 eexists. reflexivity.
  Qed.

  Lemma ku_fold_ok l h : Forall (block_ok bs) l -> length h = 16%nat ->
    ku_view (fold_left ku_f l h) = fold_left (kus_f C) l (ku_view h) /\ length (fold_left ku_f l h) = 16%nat.
  Proof.
    intros Hl Hl16.
    apply (fold_left_hom ku_view ku_f (kus_f C) (fun h => length h = 16%nat) (block_ok bs)); auto.
    intros a b Ha Hb. apply ku_step_ok; auto.
  Qed.

  Lemma ku_pad_ok msg : bytes_ok msg -> Forall (block_ok bs) (blocks bs (md_pad bs (kus_lenf msg) msg)).
  Proof.
    intros. apply blocks_pad_ok; auto; [|apply le_bytes_ok].
    destruct ku_R_cases as [(_ & -> & _)|(_ & -> & _)]; lia.
  Qed.

  (** The digest, read off the final chaining value. *)
  Lemma ku_out_ok h msg : bytes_ok msg -> h = fold_left ku_f (blocks bs (md_pad bs (kus_lenf msg) msg)) ku_iv ->
    exists h', cl_output ku_roundP (cl_R hs) h = h' /\
      load (words_bytes 8 h') (bs - N.to_nat (hs / 8)) (N.to_nat (hs / 8)) = Ok (kus_hash hs msg) /\
      length (kus_hash hs msg) = N.to_nat (hs / 8) /\ bytes_ok (kus_hash hs msg).
  Proof.
    intros Hmsg Eh. destruct ku_dims as (ER & Eb & DC & HC & Hsz). fold R. rewrite ER.
    destruct (ku_fold_ok _ ku_iv (ku_pad_ok msg Hmsg) ku_iv_length) as [V L].
    rewrite <- Eh in V, L. rewrite ku_iv_view in V.
    destruct (cl_output_ok ku_roundP C (fun i A => kus_layer C (col_xor A (kus_constx C i)))
      (ku_roundP_ok C DC) h ltac:(lia)) as (a & E & La & Ea).
    rewrite perm_P in Ea. fold (ku_view h) in Ea. rewrite V in Ea.
    exists (a ++ skipn C h). split; [exact E|].
    assert (EH : kus_hash hs msg = skipn (bs - N.to_nat (hs / 8)) (words_bytes 8 a)).
    { unfold kus_hash, md_hash, kus_last. fold C. cbv zeta. rewrite <- Eb, Ea. reflexivity. }
    assert (Lw : length (words_bytes 8 a) = bs) by (rewrite words_bytes_length, La; lia).
    rewrite EH. clear EH. revert Hsz. generalize (N.to_nat (hs / 8)). intros sz Hsz. split; [|split].
    - unfold words_bytes. rewrite flat_map_app. fold (words_bytes 8 a) (words_bytes 8 (skipn C h)).
      rewrite load_ok by (rewrite app_length; lia). f_equal.
      rewrite skipn_app, firstn_app. rewrite skipn_length, Lw.
      replace (bs - sz - bs)%nat with 0%nat by lia.
      replace (sz - (bs - (bs - sz)))%nat with 0%nat by lia.
      cbn [firstn]. rewrite app_nil_r. apply firstn_all2. rewrite skipn_length. lia.
    - rewrite skipn_length, Lw. lia.
    - apply Forall_skipn. apply words_bytes_ok.
  Qed.

  Lemma ku_final_ok s msg : clhs s = hs -> bytes_ok msg ->
    buf_inv (ku_step hs) bs 128 false ku_iv (cls s) msg ->
    exists s', ku_final s = Ok (s', kus_hash hs msg).
  Proof.
    intros Es Hmsg A. destruct s as [x h0]. cbn [clhs cls] in *. subst h0.
    rewrite ku_final_tail. destruct (ku_tail_ok x msg A) as (m & pos & total & E). rewrite E. cbn [bind].
    destruct (ku_out_ok _ msg Hmsg eq_refl) as (h' & E' & L & _). cbv zeta. rewrite E'.
    destruct ku_dims as (_ & _ & _ & _ & Hsz).
    rewrite size_sub_ok by auto. cbn [bind]. rewrite L. cbn [bind]. eauto.
  Qed.

  Lemma kupyna_sim : sim kupyna (kupyna_spec hs) ku_Rel true.
  Proof.
    assert (bs_pos : (0 < bs)%nat) by (destruct ku_R_cases as [(_ & -> & _)|(_ & -> & _)]; lia).
    assert (bs_cap : (bs <= 128)%nat) by (destruct ku_R_cases as [(_ & -> & _)|(_ & -> & _)]; lia).
    constructor.
    - intros s p msg (Es & _ & A). eexists. split; [reflexivity|]. split; [exact Es|].
      split; [constructor|]. cbn [cls]. rewrite Es. fold ku_iv.
      apply buf_inv_start; [exact bs_pos|exact bs_cap|exact (buf_inv_sm _ _ _ _ _ _ _ A)].
    - intros s p msg d Hd (Es & Hm & A).
      destruct (buf_update_ok (ku_step hs) bs 128 false bs_pos bs_cap ku_iv (cls s) msg d A) as (x & E & A').
      exists (mkcl x hs). split; [|split; [reflexivity|split; [apply bytes_ok_app; auto|exact A']]].
      change (bschk bs false) with bs in E. unfold kupyna; cbn [hp p_update]. unfold ku_update. rewrite Es.
      cbv zeta. fold bs. rewrite E. reflexivity.
    - intros _ s p msg (Es & _ & A). do 2 eexists. split; [reflexivity|]. split; [reflexivity|].
      split; [exact Es|]. split; [constructor|]. cbn [cls clhs sm]. rewrite Es. fold ku_iv.
      apply buf_inv_start; [exact bs_pos|exact bs_cap|].
      unfold zero_memory. rewrite zeros_length. exact (buf_inv_sm _ _ _ _ _ _ _ A).
    - intros q. destruct q.
    - intros s p msg (Es & Hm & A). apply ku_final_ok; auto.
    - intros s p msg (Es & _ & _). cbn [kupyna hp_size kupyna_spec sp_size]. rewrite Es. lia.
    - intros s p msg (Es & Hm & A). destruct (ku_out_ok _ msg Hm eq_refl) as (h' & _ & _ & L & _). exact L.
    - intros s p msg (Es & Hm & A). destruct (ku_out_ok _ msg Hm eq_refl) as (h' & _ & _ & _ & B). exact B.
    - cbn. destruct Hh as [XX|XX]; rewrite XX; vm_compute; lia.
  Qed.

  Theorem kupyna_implements g : length (sm g) = 128%nat ->
    implements kupyna (kupyna_spec hs) true (fresh_of (ku_ctor hs g) ku_init) /\
    implements kupyna (kupyna_spec hs) true (fresh_of (ku_ctor_static hs g) ku_init).
  Proof.
    intros Hg.
    assert (E : ku_ctor hs g = ku_ctor_static hs g).
    { destruct Hh as [XX|XX]; rewrite XX; reflexivity. }
    rewrite E. assert (I : implements kupyna (kupyna_spec hs) true (fresh_of (ku_ctor_static hs g) ku_init)).
    { unfold fresh_of, ku_ctor_static. cbn [bind]. unfold ku_init. cbn [clhs cls].
      apply (sim_implements _ _ _ _ kupyna_sim). split; [reflexivity|]. split; [constructor|].
      cbn [cls]. fold ku_iv.
      apply buf_inv_start; [|  |exact Hg];
        destruct ku_R_cases as [(_ & -> & _)|(_ & -> & _)]; lia. }
    split; exact I.
  Qed.
End Kupyna.
