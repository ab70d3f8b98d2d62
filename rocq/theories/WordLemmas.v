(** * Model word operations versus the specification's arithmetic. *)
From Verif Require Import Base Lemmas SpecCommon.

Lemma addw_plus w x y : addw w x y = plus_mod w x y.
Proof. apply addw_mod. Qed.

Lemma shrw_SHR x n : shrw x n = SHR n x.
Proof. apply N.shiftr_div_pow2. Qed.

Lemma shlw_mul w x n : shlw w x n = (x * 2 ^ n) mod 2 ^ w.
Proof. unfold shlw. rewrite trunc_mod, N.shiftl_mul_pow2. reflexivity. Qed.

Lemma rotl_ROTL w x n : rotl w x n = ROTL w n x.
Proof. unfold rotl, ROTL. rewrite shlw_mul, shrw_SHR. reflexivity. Qed.

Lemma rotr_ROTR w x n : rotr w x n = ROTR w n x.
Proof. unfold rotr, ROTR. rewrite shlw_mul, shrw_SHR. reflexivity. Qed.

Lemma notw_NOT w x : notw w x = NOT w x.
Proof. reflexivity. Qed.

Lemma plus_mod_trunc w x y y' : trunc w y = trunc w y' -> plus_mod w x y = plus_mod w x y'.
Proof.
  intros H. unfold plus_mod. rewrite <- !trunc_mod, <- (trunc_add_r w x y), H, trunc_add_r.
  reflexivity.
Qed.

Lemma plus_mod_lt w x y : plus_mod w x y < 2 ^ w.
Proof. apply N.mod_lt, N.pow_nonzero. discriminate. Qed.

Lemma plus_mod_comm w x y : plus_mod w x y = plus_mod w y x.
Proof. unfold plus_mod. rewrite N.add_comm. reflexivity. Qed.

Lemma plus_mod_assoc w x y z : plus_mod w (plus_mod w x y) z = plus_mod w x (plus_mod w y z).
Proof. rewrite <- !addw_plus. apply addw_assoc. Qed.

(** A rotation is a bijection of the bit positions: the disjoint-or form is a sum. *)
Lemma ROTL_sum w n x : 0 < n -> n < w -> x < 2 ^ w ->
  ROTL w n x = (x * 2 ^ n) mod 2 ^ w + x / 2 ^ (w - n).
Proof.
  intros. unfold ROTL. rewrite <- shlw_mul. fold (SHR (w - n) x). rewrite <- shrw_SHR.
  rewrite <- N.lxor_lor, <- N.add_nocarry_lxor; [reflexivity| |];
    apply N.bits_inj; intros i; rewrite N.land_spec, shlw_spec, shrw_spec, N.bits_0;
    (destruct (N.leb_spec n i);
      [rewrite (testbit_high w x (i + (w - n))) by lia|];
      rewrite ?andb_false_r; reflexivity).
Qed.

(** ** Byte order *)

Lemma small8 i : i < 8 -> i = 0 \/ i = 1 \/ i = 2 \/ i = 3 \/ i = 4 \/ i = 5 \/ i = 6 \/ i = 7.
Proof. lia. Qed.

Lemma shiftr_shiftr8 x a : N.shiftr (N.shiftr x a) 8 = N.shiftr x (a + 8).
Proof. apply N.shiftr_shiftr. Qed.

Ltac byte_bits :=
  apply N.bits_inj; intros i; rewrite !N.land_spec, !N.shiftr_spec';
  destruct (N.ltb_spec i 8) as [Hi|Hi];
  [|rewrite (testbit_high 8 255 i), !andb_false_r by (reflexivity || lia); reflexivity];
  rewrite ?N.lor_spec, ?N.shiftr_spec', ?N.land_spec, ?shlw_spec, ?N.land_spec;
  destruct (small8 i Hi) as [?|[?|[?|[?|[?|[?|[?|?]]]]]]]; subst i;
  cbn -[N.testbit];
  repeat match goal with
  | |- context [N.testbit (Npos ?c) ?k] =>
      let v := eval vm_compute in (N.testbit (Npos c) k) in change (N.testbit (Npos c) k) with v
  end;
  rewrite ?andb_false_r, ?andb_true_r, ?orb_false_r, ?orb_false_l; try reflexivity.

Lemma byteswap32_lt v : byteswap32 v < 2 ^ 32.
Proof.
  apply lt_pow2_bits. intros i Hi. unfold byteswap32.
  rewrite !N.lor_spec, !N.shiftr_spec', !shlw_spec, !N.land_spec.
  rewrite (testbit_high 32 0xff000000 (i + 24)), (testbit_high 32 0x00ff0000 (i + 8)) by (reflexivity || lia).
  replace (i <? 32) with false by (symmetry; apply N.ltb_ge; lia).
  rewrite ?andb_false_r. reflexivity.
Qed.

Lemma byteswap64_lt v : byteswap64 v < 2 ^ 64.
Proof.
  apply lt_pow2_bits. intros i Hi. unfold byteswap64.
  rewrite !N.lor_spec, !N.shiftr_spec', !shlw_spec, !N.land_spec.
  rewrite (testbit_high 64 0xff00000000000000 (i + 56)), (testbit_high 64 0x00ff000000000000 (i + 40)),
    (testbit_high 64 0x0000ff0000000000 (i + 24)), (testbit_high 64 0x000000ff00000000 (i + 8))
    by (reflexivity || lia).
  replace (i <? 64) with false by (symmetry; apply N.ltb_ge; lia).
  rewrite ?andb_false_r. reflexivity.
Qed.

Lemma le_bytes_byteswap32 v : le_bytes 4 (byteswap32 v) = rev (le_bytes 4 v).
Proof.
  cbn [le_bytes rev app]. rewrite !N.shiftr_shiftr. cbn [N.add Pos.add].
  rewrite <- (N.shiftr_0_r (byteswap32 v)) at 1. rewrite <- (N.shiftr_0_r v) at 4.
  unfold byteswap32. repeat (apply (f_equal2 (@cons N)); [byte_bits|]); reflexivity.
Qed.

Lemma le_bytes_byteswap64 v : le_bytes 8 (byteswap64 v) = rev (le_bytes 8 v).
Proof.
  cbn [le_bytes rev app]. rewrite !N.shiftr_shiftr. cbn [N.add Pos.add Pos.succ].
  rewrite <- (N.shiftr_0_r (byteswap64 v)) at 1. rewrite <- (N.shiftr_0_r v) at 8.
  unfold byteswap64. repeat (apply (f_equal2 (@cons N)); [byte_bits|]); reflexivity.
Qed.

Lemma be_bytes_byteswap32 v : le_bytes 4 (byteswap32 v) = be_bytes 4 v.
Proof. apply le_bytes_byteswap32. Qed.
Lemma be_bytes_byteswap64 v : le_bytes 8 (byteswap64 v) = be_bytes 8 v.
Proof. apply le_bytes_byteswap64. Qed.

Lemma byteswap32_be_word b : bytes_ok b -> length b = 4%nat ->
  byteswap32 (le_word b) = be_word b.
Proof.
  intros Hb Hl. unfold be_word. rewrite <- (le_bytes_word b) at 2 by auto. rewrite Hl.
  rewrite <- le_bytes_byteswap32, le_word_bytes. symmetry. apply N.mod_small.
  exact (byteswap32_lt (le_word b)).
Qed.

Lemma byteswap64_be_word b : bytes_ok b -> length b = 8%nat ->
  byteswap64 (le_word b) = be_word b.
Proof.
  intros Hb Hl. unfold be_word. rewrite <- (le_bytes_word b) at 2 by auto. rewrite Hl.
  rewrite <- le_bytes_byteswap64, le_word_bytes. symmetry. apply N.mod_small.
  exact (byteswap64_lt (le_word b)).
Qed.

Lemma be_words_swap k swap n : forall d,
  (forall b, bytes_ok b -> length b = k -> swap (le_word b) = be_word b) ->
  bytes_ok d -> (n * k <= length d)%nat ->
  map swap (le_words k n d) = be_words k n d.
Proof.
  intros d Hs. revert d. induction n; intros d Hd Hl; cbn [le_words be_words map]; [reflexivity|].
  rewrite Hs; [|apply Forall_firstn; auto|rewrite firstn_length; lia].
  f_equal. apply IHn; [apply Forall_skipn; auto|rewrite skipn_length; lia].
Qed.

Lemma be_words_swap32 n d : bytes_ok d -> (n * 4 <= length d)%nat ->
  map byteswap32 (le_words 4 n d) = be_words 4 n d.
Proof. intros. apply be_words_swap; auto using byteswap32_be_word. Qed.

Lemma be_words_swap64 n d : bytes_ok d -> (n * 8 <= length d)%nat ->
  map byteswap64 (le_words 8 n d) = be_words 8 n d.
Proof. intros. apply be_words_swap; auto using byteswap64_be_word. Qed.

Lemma words_bytes_swap32 ws : words_bytes 4 (map byteswap32 ws) = flat_map (be_bytes 4) ws.
Proof.
  unfold words_bytes. induction ws; cbn [map flat_map]; [reflexivity|].
  rewrite IHws, le_bytes_byteswap32. reflexivity.
Qed.
Lemma words_bytes_swap64 ws : words_bytes 8 (map byteswap64 ws) = flat_map (be_bytes 8) ws.
Proof.
  unfold words_bytes. induction ws; cbn [map flat_map]; [reflexivity|].
  rewrite IHws, le_bytes_byteswap64. reflexivity.
Qed.

Lemma le_words_lt k n : forall d, bytes_ok d -> words_ok (8 * N.of_nat k) (le_words k n d).
Proof.
  induction n; intros; cbn [le_words]; constructor.
  - eapply N.lt_le_trans; [apply le_word_lt, Forall_firstn; auto|].
    change 256 with (2 ^ 8). rewrite <- N.pow_mul_r. apply N.pow_le_mono_r; [discriminate|].
    rewrite firstn_length. lia.
  - apply IHn, Forall_skipn; auto.
Qed.

(** Equality of truncated bitwise expressions, bit by bit. *)
Ltac bitwise :=
  apply N.bits_inj; intros ?i;
  rewrite ?trunc_spec, ?N.lxor_spec, ?N.lor_spec, ?N.land_spec, ?notw_spec, ?N.lnot_spec_low, ?trunc_spec,
          ?N.lxor_spec, ?N.lor_spec, ?N.land_spec, ?notw_spec;
  repeat match goal with |- context [N.testbit ?x ?k] => destruct (N.testbit x k) end;
  try match goal with |- context [?a <? ?b] => destruct (a <? b) end; reflexivity.

Lemma flat_be_bytes_ok k ws : bytes_ok (flat_map (be_bytes k) ws).
Proof.
  induction ws; cbn [flat_map]; [constructor|]. apply bytes_ok_app; [apply be_bytes_ok|auto].
Qed.
Lemma flat_be_bytes_length k ws : length (flat_map (be_bytes k) ws) = (k * length ws)%nat.
Proof.
  induction ws; cbn [flat_map length]; [lia|]. rewrite app_length, be_bytes_length, IHws. lia.
Qed.
