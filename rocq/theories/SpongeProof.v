(** * Buffering with capacity larger than the block, and sponge padding. *)
From Verif Require Import Base Absorb Lemmas WordLemmas TableLemmas AbsorbProof MdState MdProof SpecCommon
  Keccak KeccakSpec KeccakProof Sha3.
Local Open Scope nat_scope.

(** ** Bit-level padding of FIPS 202 as bytes *)

(** [q] bytes of padding that start with the byte [D]. *)
Definition dpad (D : N) (q : nat) : list N :=
  if q =? 1 then [N.lor D 0x80] else [D] ++ zeros (q - 2) ++ [0x80%N].
Definition pad_bytes (r : nat) (D : N) (msg : list N) : list N :=
  msg ++ dpad D (r - length msg mod r).

Lemma bits_of_byte_length b : length (bits_of_byte b) = 8.
Proof. unfold bits_of_byte. rewrite map_length, seq_length. reflexivity. Qed.
Lemma bits_of_bytes_length l : length (bits_of_bytes l) = 8 * length l.
Proof.
  unfold bits_of_bytes. induction l; [reflexivity|]. cbn [flat_map length].
  rewrite app_length, bits_of_byte_length, IHl. lia.
Qed.

Lemma value_bits b : (b < 256)%N -> value_of_bits (bits_of_byte b) = b.
Proof.
  intros H.
  pose proof (forallb_bytes (fun b => value_of_bits (bits_of_byte b) =? b)%N
                ltac:(vm_compute; reflexivity) b H) as E. apply N.eqb_eq in E. exact E.
Qed.

Lemma bytes_of_bits_app n k a b : length a = 8 * n ->
  bytes_of_bits_n (n + k) (a ++ b) = bytes_of_bits_n n a ++ bytes_of_bits_n k b.
Proof.
  revert a. induction n; intros a Ha.
  - destruct a; [reflexivity|discriminate].
  - cbn [Nat.add bytes_of_bits_n app]. rewrite (firstn_app 8 a), (skipn_app 8 a).
    replace (8 - length a) with 0 by lia. rewrite firstn_O, skipn_O, app_nil_r.
    rewrite IHn; [reflexivity|]. rewrite skipn_length. lia.
Qed.

Lemma bytes_of_bits_bytes l : bytes_ok l -> bytes_of_bits_n (length l) (bits_of_bytes l) = l.
Proof.
  induction 1; [reflexivity|]. cbn [length bits_of_bytes flat_map].
  change (S (length l)) with (1 + length l).
  rewrite bytes_of_bits_app by (rewrite bits_of_byte_length; reflexivity).
  fold (bits_of_bytes l). rewrite IHForall. cbn [bytes_of_bits_n].
  rewrite firstn_all2 by (rewrite bits_of_byte_length; lia).
  rewrite value_bits by auto. reflexivity.
Qed.

Lemma bytes_of_bits_zeros n : bytes_of_bits_n n (repeat false (8 * n)) = zeros n.
Proof.
  induction n; [reflexivity|]. replace (8 * S n) with (8 + 8 * n) by lia.
  rewrite repeat_app. change (S n) with (1 + n). rewrite bytes_of_bits_app by reflexivity.
  rewrite IHn. reflexivity.
Qed.

(** The byte that starts with the suffix bits, followed by the first padding bit. *)
Definition suffix_byte (sfx : list bool) : N :=
  value_of_bits (sfx ++ true :: repeat false (7 - length sfx)).

Lemma value_last l : length l = 7 -> value_of_bits (l ++ [true]) = N.lor (value_of_bits (l ++ [false])) 128.
Proof.
  intros. do 7 (destruct l as [|[] l]; [discriminate|..]); destruct l; try discriminate; reflexivity.
Qed.

Lemma bits_pad_eq r sfx msg :
  0 < r -> length sfx <= 6 -> bytes_ok msg ->
  let M := bits_of_bytes msg ++ sfx in
  bytes_of_bits (M ++ pad101 (8 * r) (length M)) = pad_bytes r (suffix_byte sfx) msg.
Proof.
  intros Hr Hs Hm M. subst M. unfold pad_bytes, pad101.
  rewrite app_length, bits_of_bytes_length.
  set (L := length msg). set (q := r - L mod r). set (d := length sfx) in *.
  pose proof (Nat.div_mod L r ltac:(lia)) as DM.
  pose proof (Nat.mod_upper_bound L r ltac:(lia)) as U.
  assert (Hj : (8 * r - (8 * L + d + 2) mod (8 * r)) mod (8 * r) = 8 * q - d - 2).
  { replace (8 * L + d + 2) with (8 * (L mod r) + d + 2 + (L / r) * (8 * r)) by nia.
    rewrite Nat.mod_add by lia.
    subst q. destruct (Nat.eq_dec (8 * (L mod r) + d + 2) (8 * r)) as [E|E].
    - rewrite E, Nat.mod_same by lia. rewrite Nat.sub_0_r, Nat.mod_same by lia. lia.
    - rewrite (Nat.mod_small (8 * (L mod r) + d + 2)) by lia. rewrite Nat.mod_small by lia. lia. }
  rewrite Hj. unfold bytes_of_bits. rewrite <- app_assoc.
  assert (Hq : 1 <= q) by lia.
  assert (Hlen : length (sfx ++ true :: repeat false (8 * q - d - 2) ++ [true]) = 8 * q).
  { rewrite app_length. cbn [length]. rewrite app_length, repeat_length. cbn [length]. fold d. lia. }
  rewrite app_length, Hlen, bits_of_bytes_length. fold L.
  replace (8 * L + 8 * q) with ((L + q) * 8) by lia. rewrite Nat.div_mul by lia.
  rewrite bytes_of_bits_app by (rewrite bits_of_bytes_length; reflexivity).
  unfold L at 1. rewrite bytes_of_bits_bytes by auto. f_equal.
  unfold dpad. destruct (Nat.eqb_spec q 1) as [E|E].
  - rewrite E in *. cbn [bytes_of_bits_n]. rewrite firstn_all2 by lia. f_equal.
    unfold suffix_byte. fold d.
    rewrite app_comm_cons, app_assoc. rewrite value_last.
    + f_equal. f_equal. rewrite <- app_assoc. f_equal. cbn [app]. f_equal.
      change [false] with (repeat false 1). rewrite <- repeat_app. f_equal. lia.
    + rewrite app_length. cbn [length]. rewrite repeat_length. fold d. lia.
  - assert (E1 : sfx ++ true :: repeat false (8 * q - d - 2) ++ [true]
      = (sfx ++ true :: repeat false (7 - d)) ++ repeat false (8 * (q - 2)) ++ repeat false 7 ++ [true]).
    { rewrite <- app_assoc. f_equal. cbn [app]. f_equal. rewrite !app_assoc. f_equal.
      rewrite <- !repeat_app. f_equal. lia. }
    rewrite E1. replace q with (1 + ((q - 2) + 1)) at 1 by lia.
    rewrite bytes_of_bits_app.
    2:{ rewrite app_length. cbn [length]. rewrite repeat_length. fold d. lia. }
    rewrite bytes_of_bits_app by (rewrite repeat_length; reflexivity).
    rewrite bytes_of_bits_zeros. f_equal. cbn [bytes_of_bits_n]. f_equal.
    unfold suffix_byte. fold d. rewrite firstn_all2; [reflexivity|].
    rewrite app_length. cbn [length]. rewrite repeat_length. fold d. lia.
Qed.

Lemma dpad_length D q : 1 <= q -> length (dpad D q) = q.
Proof.
  intros. unfold dpad. destruct (Nat.eqb_spec q 1); [auto|].
  rewrite !app_length, zeros_length. cbn [length]. lia.
Qed.

Lemma dpad_ok D q : (D < 256)%N -> bytes_ok (dpad D q).
Proof.
  intros. unfold dpad. destruct (q =? 1).
  - constructor; [|constructor]. apply (lor_lt 8); auto. reflexivity.
  - constructor; auto. apply bytes_ok_app; [apply bytes_ok_zeros|]. constructor; [reflexivity|constructor].
Qed.

(** ** The object *)
Section Sponge.
  Variables (R r64 cap : nat).
  Let r := 8 * r64.
  Hypothesis HR : R <= 24.
  Hypothesis Hr64 : 1 <= r64 <= 25.
  Hypothesis Hcap : r <= cap.

  Definition kstep (A : list N) (_ : N) (d : list N) : list N := kc_f R r64 A d.

  Definition kc_inv (s : st) (msg : list N) : Prop :=
    absorbed_state kstep r cap false (zeros 25) 0 msg (sh s) (sm s) (spos s) (stotal s).

  Lemma kc_inv_start m : length m = cap -> kc_inv (mkst (zeros 25) m 0 0) [].
  Proof. intros. apply absorbed_start; auto; [unfold r; lia|reflexivity]. Qed.

  Lemma kc_inv_sm s msg : kc_inv s msg -> length (sm s) = cap.
  Proof. intros (B & T & J & n & _ & _ & _ & _ & _ & _ & H & _). exact H. Qed.

  Lemma kc_update_ok s msg d : kc_inv s msg ->
    exists s', md_update_res (kc_block R r64) r r s d = Ok s' /\ kc_inv s' (msg ++ d).
  Proof.
    intros H. rewrite (md_update_res_ok _ kstep) by (intros; apply kc_block_ok; lia).
    unfold md_update.
    assert (Htf : forall (c m : list N) t data n,
      length m = cap -> length data = n * r -> (t < 2 ^ 64)%N ->
      exists m', Ok (block_loop kstep r c t data n, m) = Ok (block_loop kstep r c t data n, m')
                 /\ length m' = cap) by (intros; eauto).
    destruct (absorb_bytes_ok kstep (fun h m t d n => Ok (block_loop kstep r h t d n, m))
                r cap false ltac:(unfold r; lia) Hcap Htf (zeros 25) 0%N msg d _ _ _ _ eq_refl H)
      as (c' & m' & p' & t' & E & A).
    unfold bschk in E. rewrite E. cbn [bind]. eexists. split; [reflexivity|]. exact A.
  Qed.

  (** The state after absorbing the padded message. *)
  Definition kc_state (P : list N) : list N :=
    fold_left (absorb_block R r) (blocks r P) (zeros 25).

  Lemma kc_state_fold P n : length P = n * r ->
    kc_state P = fold_left (kc_f R r64) (blocks_n n r P) (zeros 25) /\
    length (kc_state P) = 25.
  Proof.
    intros HP. unfold kc_state. rewrite (blocks_mul n) by (auto; unfold r; lia).
    destruct (fold_left_hom (fun x : list N => x) (kc_f R r64) (absorb_block R r) (fun A => length A = 25)
                (fun b => length b = r) (blocks_n n r P) (zeros 25)) as [E L]; auto.
    - intros a x Ha Hx. split; [apply kc_f_eq; auto; lia|apply kc_f_length; auto; lia].
    - apply blocks_n_len; auto.
    - cbv beta in *. rewrite E in *. auto.
  Qed.

  Lemma pad_bytes_length D msg : exists n, length (pad_bytes r D msg) = n * r.
  Proof.
    unfold pad_bytes. pose proof (Nat.div_mod (length msg) r ltac:(unfold r; lia)) as DM.
    pose proof (Nat.mod_upper_bound (length msg) r ltac:(unfold r; lia)) as U.
    rewrite app_length, dpad_length by lia. exists (length msg / r + 1). lia.
  Qed.

  Lemma kc_pad_ok rate D s msg :
    N.to_nat (rate / 8) = r -> N.to_nat (rate / 64) = r64 -> kc_inv s msg ->
    exists m' p', kc_pad_block R rate D s
        = Ok (mkst (kc_state (pad_bytes r D msg)) m' p' (stotal s)) /\
      length m' = cap.
  Proof.
    intros Hr1 Hr2 (B & T & J & n & Emsg & HB & Hrem & Hc & Htot & Hm & Hlen & Hpos).
    unfold okrem in Hrem. unfold kc_pad_block. rewrite Hr1, Hr2, Hpos, Hm.
    assert (HJ : length T + length J = cap) by (rewrite <- Hlen, Hm, app_length; lia).
    rewrite store_app by lia. cbn [bind].
    set (q := r - length T).
    assert (Hq : r - length msg mod r = q).
    { rewrite Emsg, app_length, HB, Nat.add_comm, Nat.mod_add by (unfold r; lia).
      rewrite Nat.mod_small by lia. reflexivity. }
    assert (E0 : exists J', (m <- (if r =? length T + 1 then Ok (T ++ [D] ++ skipn 1 J)
                 else k <- size_sub r (length T + 1) ;; memset (T ++ [D] ++ skipn 1 J) (length T + 1) 0 k) ;;
          b <- load m (r - 1) 1 ;; store m (r - 1) (N.lor (nthN 0 b) 0x80))
          = Ok (T ++ dpad D q ++ J') /\ length J' = cap - r).
    { unfold dpad. destruct (Nat.eqb_spec r (length T + 1)) as [E|E].
      - destruct (Nat.eqb_spec q 1); [|lia]. cbn [bind]. exists (skipn 1 J).
        rewrite load_ok by (rewrite !app_length, skipn_length; cbn [length]; lia). cbn [bind].
        rewrite skipn_app_exact by lia. cbn [firstn nthN nth app].
        replace (r - 1) with (length T) by lia.
        split; [|rewrite skipn_length; lia].
        rewrite store_app; [reflexivity|lia|cbn [length]; lia].
      - destruct (Nat.eqb_spec q 1); [lia|]. rewrite size_sub_ok by lia. cbn [bind].
        rewrite app_assoc. rewrite memset_app; [|rewrite app_length; cbn; lia|rewrite skipn_length; lia].
        cbn [bind]. rewrite skipn_skipn.
        replace (r - (length T + 1)) with ((q - 2) + 1) by lia.
        rewrite repeat_app. cbn [repeat]. fold (zeros (q - 2)).
        set (J' := skipn (q - 2 + 1 + 1) J).
        replace ((T ++ [D]) ++ (zeros (q - 2) ++ [0%N]) ++ J') with (((T ++ [D]) ++ zeros (q - 2)) ++ [0%N] ++ J')
          by (rewrite <- !app_assoc; reflexivity).
        assert (HJ' : length J' = cap - r) by (unfold J'; rewrite skipn_length; lia).
        rewrite load_ok by (rewrite !app_length, zeros_length; cbn [length]; lia). cbn [bind].
        rewrite skipn_app_exact by (rewrite !app_length, zeros_length; cbn [length]; lia).
        cbn [firstn app nthN nth]. rewrite store_app;
          [|rewrite !app_length, zeros_length; cbn [length]; lia|cbn [length]; lia].
        exists J'. split; [|auto]. rewrite <- !app_assoc. reflexivity. }
    destruct E0 as (J' & E0 & HJ').
    assert (EB : forall X (a : res (list N)) (g : list N -> res (list N)) (h : list N -> list N -> res (list N)) (k : list N -> res X),
      (m <- a ;; b <- g m ;; m' <- h m b ;; k m') = (x <- (m <- a ;; b <- g m ;; h m b) ;; k x)).
    { intros. destruct a; cbn; auto. destruct (g a); reflexivity. }
    rewrite EB, E0. cbn [bind].
    unfold md_transform1_res.
    rewrite app_assoc, load_app by (rewrite app_length, dpad_length by lia; lia). cbn [bind block_loop_res].
    rewrite kc_block_ok by lia. cbn [bind].
    rewrite firstn_all2 by (rewrite app_length, dpad_length by lia; lia).
    do 2 eexists. split.
    - f_equal. f_equal.
      assert (HP : length (pad_bytes r D msg) = (n + 1) * r).
      { unfold pad_bytes. rewrite Hq, app_length, dpad_length, Emsg, app_length by lia. lia. }
      destruct (kc_state_fold _ _ HP) as [-> _].
      unfold pad_bytes. rewrite Hq, Emsg, <- app_assoc, blocks_n_app by auto.
      rewrite fold_left_app. cbn [blocks_n fold_left].
      rewrite firstn_all2 by (rewrite app_length, dpad_length by lia; lia).
      f_equal. rewrite Hc. unfold r. apply block_loop_fold. reflexivity.
    - rewrite !app_length, dpad_length by lia. lia.
  Qed.
End Sponge.
