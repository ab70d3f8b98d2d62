(** * Generic proof for the Merkle-Damgaard style providers. *)
From Verif Require Import Base Absorb Lemmas AbsorbProof MdState SpecCommon.
Local Open Scope nat_scope.

(** ** Blocks *)

Lemma blocks_n_app n k bs a b :
  length a = n * bs -> blocks_n (n + k) bs (a ++ b) = blocks_n n bs a ++ blocks_n k bs b.
Proof.
  revert a. induction n; intros a Ha.
  - destruct a; [reflexivity|cbn in Ha; lia].
  - cbn [Nat.add blocks_n app]. assert (length a = bs + n * bs) by (rewrite Ha; lia).
    rewrite (firstn_app bs a), (skipn_app bs a).
    replace (bs - length a) with 0 by lia. cbn [firstn skipn]. rewrite app_nil_r.
    rewrite IHn; [reflexivity|]. rewrite skipn_length. lia.
Qed.

Lemma blocks_mul n bs a : 0 < bs -> length a = n * bs -> blocks bs a = blocks_n n bs a.
Proof. intros. unfold blocks. rewrite H0, Nat.div_mul by lia. reflexivity. Qed.

Lemma blocks_app n k bs a b :
  0 < bs -> length a = n * bs -> length b = k * bs ->
  blocks bs (a ++ b) = blocks_n n bs a ++ blocks_n k bs b.
Proof.
  intros. rewrite (blocks_mul (n + k)); [|auto|rewrite app_length; lia].
  apply blocks_n_app; auto.
Qed.

Lemma blocks_n_Forall (Q : N -> Prop) n bs a :
  Forall Q a -> Forall (Forall Q) (blocks_n n bs a).
Proof.
  revert a. induction n; intros; cbn; constructor.
  - apply Forall_firstn; auto.
  - apply IHn. apply Forall_skipn; auto.
Qed.

Lemma blocks_n_len n bs a : length a = n * bs ->
  Forall (fun b => length b = bs) (blocks_n n bs a).
Proof.
  revert a. induction n; intros a Ha; cbn; constructor.
  - rewrite firstn_length. cbn in Ha. lia.
  - apply IHn. rewrite skipn_length. cbn in Ha. lia.
Qed.

(** A transform that ignores the counter folds its step over the blocks. *)
Lemma block_loop_fold {C} (step : C -> N -> list N -> C) (f : C -> list N -> C) bs n :
  (forall h t b, step h t b = f h b) -> forall c t data,
  block_loop step bs c t data n = fold_left f (blocks_n n bs data) c.
Proof. intros H. induction n; intros; cbn; [reflexivity|]. rewrite H. apply IHn. Qed.

Lemma fold_left_ext_in {A B} (f g : A -> B -> A) l : forall a,
  (forall a b, In b l -> f a b = g a b) -> fold_left f l a = fold_left g l a.
Proof.
  induction l; intros; cbn; [reflexivity|].
  rewrite H by (left; auto). apply IHl. intros. apply H. right; auto.
Qed.

Lemma fold_left_ext {A B} (f g : A -> B -> A) l : forall a,
  (forall a b, f a b = g a b) -> fold_left f l a = fold_left g l a.
Proof. intros. apply fold_left_ext_in. auto. Qed.

Lemma fold_left_inv {A B} (Q : A -> Prop) (f : A -> B -> A) l : forall a,
  Q a -> (forall a b, In b l -> Q a -> Q (f a b)) -> Q (fold_left f l a).
Proof.
  induction l as [|x l IH]; intros a0 Ha Hf; cbn; [auto|].
  apply IH.
  - apply Hf; [left; auto|auto].
  - intros. apply Hf; [right; auto|auto].
Qed.

(** ** md_zeros *)

(** The number of zero bytes is the least one. *)
Lemma md_zeros_small bs lf r n :
  0 < bs -> r + 1 + lf <= bs -> md_zeros bs lf (n * bs + r) = bs - lf - 1 - r.
Proof.
  intros. unfold md_zeros.
  replace (n * bs + r + 1 + lf) with ((r + 1 + lf) + n * bs) by lia.
  rewrite Nat.mod_add by lia.
  destruct (Nat.eq_dec (r + 1 + lf) bs) as [E|E].
  - rewrite E, Nat.mod_same by lia. rewrite Nat.sub_0_r, Nat.mod_same by lia. lia.
  - rewrite (Nat.mod_small (r + 1 + lf)) by lia. rewrite Nat.mod_small by lia. lia.
Qed.

Lemma md_zeros_big bs lf r n :
  0 < bs -> r < bs -> lf < bs -> bs < r + 1 + lf ->
  md_zeros bs lf (n * bs + r) = 2 * bs - lf - 1 - r.
Proof.
  intros. unfold md_zeros.
  replace (n * bs + r + 1 + lf) with ((r + 1 + lf - bs) + (n + 1) * bs) by lia.
  rewrite Nat.mod_add by lia. rewrite (Nat.mod_small (r + 1 + lf - bs)) by lia.
  rewrite Nat.mod_small by lia. lia.
Qed.

Lemma md_pad_length bs lenf msg : 0 < bs ->
  exists n, length (md_pad bs lenf msg) = n * bs.
Proof.
  intros Hb. unfold md_pad. rewrite !app_length, zeros_length. cbn [length]. unfold md_zeros.
  set (x := length msg + 1 + length lenf).
  pose proof (Nat.div_mod x bs ltac:(lia)) as D.
  pose proof (Nat.mod_upper_bound x bs ltac:(lia)) as U.
  destruct (Nat.eq_dec (x mod bs) 0) as [E|E].
  - rewrite E, Nat.sub_0_r, Nat.mod_same by lia. exists (x / bs). lia.
  - rewrite (Nat.mod_small (bs - x mod bs)) by lia. exists (x / bs + 1). lia.
Qed.

(** A well-formed block. *)
Definition block_ok (bs : nat) (b : list N) : Prop := length b = bs /\ bytes_ok b.

Lemma blocks_n_ok n bs data :
  length data = n * bs -> bytes_ok data -> Forall (block_ok bs) (blocks_n n bs data).
Proof.
  intros Hl Hd. pose proof (blocks_n_len n bs data Hl) as A.
  pose proof (blocks_n_Forall _ n bs data Hd) as B.
  rewrite Forall_forall in A, B |- *. intros b Hb. split; auto. apply B; auto.
Qed.

Lemma blocks_pad_ok bs lenf msg : 0 < bs -> bytes_ok lenf -> bytes_ok msg ->
  Forall (block_ok bs) (blocks bs (md_pad bs lenf msg)).
Proof.
  intros Hb Hl Hm. destruct (md_pad_length bs lenf msg Hb) as (n & E).
  rewrite (blocks_mul n) by auto. apply blocks_n_ok; auto.
  unfold md_pad. repeat apply bytes_ok_app; auto using bytes_ok_zeros.
  repeat constructor.
Qed.

(** Change of representation of the chaining value. *)
Lemma fold_left_conv {A B X} (g : A -> B) (f : B -> X -> B) (f' : A -> X -> A) (Q : X -> Prop) l :
  forall a, (forall a x, Q x -> f (g a) x = g (f' a x)) -> Forall Q l ->
  fold_left f l (g a) = g (fold_left f' l a).
Proof.
  induction l; intros b H HQ; cbn [fold_left]; [reflexivity|].
  inversion HQ; subst. rewrite H by auto. apply IHl; auto.
Qed.

(** ** The object state *)

Section Md.
  Variable f : list N -> list N -> list N.   (* block step without counter *)
  Variables (bs : nat) (bs_pos : 0 < bs).
  Variable step : list N -> N -> list N -> list N.
  Hypothesis step_f : forall h t b, step h t b = f h b.

  (** [s] has absorbed [msg] since the chaining value was [iv]. *)
  Definition md_inv (iv : list N) (s : st) (msg : list N) : Prop :=
    absorbed_state step bs bs false iv 0 msg (sh s) (sm s) (spos s) (stotal s).

  Lemma md_inv_start iv m : length m = bs -> md_inv iv (mkst iv m 0 0) [].
  Proof. intros. apply absorbed_start; auto; try reflexivity. Qed.

  Lemma md_inv_sm iv s msg : md_inv iv s msg -> length (sm s) = bs.
  Proof. intros (B & T & J & n & H). tauto. Qed.

  Lemma md_update_ok iv s msg d :
    md_inv iv s msg ->
    exists s', md_update step bs bs s d = Ok s' /\ md_inv iv s' (msg ++ d).
  Proof.
    intros H. unfold md_update.
    assert (Htf : forall (c m : list N) t data n,
      length m = bs -> length data = n * bs -> (t < 2 ^ 64)%N ->
      exists m', Ok (block_loop step bs c t data n, m) = Ok (block_loop step bs c t data n, m')
                 /\ length m' = bs) by (intros; eauto).
    destruct (absorb_bytes_ok step (fun h m t d n => Ok (block_loop step bs h t d n, m))
                bs bs false bs_pos (le_n _) Htf iv 0%N msg d _ _ _ _ eq_refl H)
      as (c' & m' & p' & t' & E & A).
    unfold bschk in E. rewrite E. cbn [bind]. eexists. split; [reflexivity|]. exact A.
  Qed.

  (** The padding code common to md5, sha1, sha2, sm3 and whirlpool: [limit] is the
      last position after which a second block is needed, [zend] the end of the zero
      fill, [enc] the eight bytes written at the end of the block. *)
  Definition md_tail (limit zend : nat) (enc : N -> list N) (s : st)
    : res (list N * list N * nat * N) :=
    let total := trunc 64 (stotal s + N.of_nat (spos s * 8)) in
    m <- store (sm s) (spos s) 0x80 ;;
    let pos := spos s + 1 in
    ' (h, m, pos) <-
      (if limit <? pos then
         m <- (if pos =? bs then Ok m
               else k <- size_sub bs pos ;; memset m pos 0 k) ;;
         h <- md_transform1 step bs (sh s) m total ;;
         Ok (h, m, 0)
       else Ok (sh s, m, pos)) ;;
    k <- size_sub zend pos ;;
    m <- memset m pos 0 k ;;
    m <- memcpy m (bs - 8) (enc total) 8 ;;
    h <- md_transform1 step bs h m total ;;
    Ok (h, m, pos, total).

  Lemma md_transform1_ok h m t : length m = bs -> md_transform1 step bs h m t = Ok (f h m).
  Proof.
    intros. unfold md_transform1. rewrite load_all by auto. cbn.
    rewrite step_f, firstn_all2 by lia. reflexivity.
  Qed.

  Lemma write_len (a : list N) (zend : nat) (enc : list N) (m : list N) :
    length m = bs -> bs - 8 <= zend -> zend <= bs -> 8 <= bs ->
    length enc = 8 -> length a <= bs - 8 -> firstn (length a) m = a ->
    (k <- size_sub zend (length a) ;;
     m <- memset m (length a) 0 k ;;
     m <- memcpy m (bs - 8) enc 8 ;; Ok m)
    = Ok (a ++ zeros (bs - 8 - length a) ++ enc).
  Proof.
    intros Hm Hz1 Hz2 Hbs He Ha Hpre.
    rewrite size_sub_ok by lia. cbn [bind].
    assert (Em : m = a ++ skipn (length a) m).
    { rewrite <- Hpre at 1. symmetry. apply firstn_skipn. }
    set (j := skipn (length a) m) in *.
    assert (Hj : length j = bs - length a) by (subst j; rewrite skipn_length; lia).
    rewrite Em. rewrite memset_app by lia. cbn [bind].
    set (z := bs - 8 - length a).
    assert (Hzz : zend - length a = z + (zend - (bs - 8))) by lia.
    assert (Er : repeat 0%N (zend - length a) = zeros z ++ repeat 0%N (zend - (bs - 8))).
    { rewrite Hzz. apply repeat_app. }
    rewrite Er.
    rewrite <- app_assoc, app_assoc.
    rewrite memcpy_app.
    - cbn [bind]. f_equal. rewrite <- app_assoc. f_equal. f_equal.
      rewrite firstn_all2 by lia. rewrite <- (app_nil_r enc) at 2. f_equal.
      apply skipn_all2. rewrite app_length, repeat_length, skipn_length. lia.
    - rewrite app_length, zeros_length. subst z. lia.
    - lia.
    - rewrite app_length, repeat_length, skipn_length. lia.
  Qed.

  Lemma md_tail_ok limit zend enc lf iv s msg :
    8 <= lf -> lf < bs -> limit = bs - lf ->
    bs - 8 <= zend -> zend <= bs ->
    (forall t, length (enc t) = 8) ->
    md_inv iv s msg ->
    exists m pos total,
      md_tail limit zend enc s =
        Ok (md_hash f iv bs (md_pad bs (zeros (lf - 8) ++ enc (trunc 64 (bitlen msg))) msg),
            m, pos, total) /\ length m = bs.
  Proof.
    intros Hlf Hlfb Hlim Hz1 Hz2 Henc (B & T & J & n & Emsg & HB & Hrem & Hc & Htot & Hm & Hcap & Hpos).
    unfold okrem in Hrem. unfold md_tail. rewrite Hpos, Hm.
    assert (HJ : length T + length J = bs) by (rewrite <- Hcap, Hm, app_length; lia).
    rewrite store_app by lia. cbn [bind].
    assert (Et : trunc 64 (stotal s + N.of_nat (length T * 8)) = trunc 64 (bitlen msg)).
    { rewrite Htot, trunc_add_l. f_equal. unfold bitlen. rewrite Emsg, app_length, HB. lia. }
    rewrite Et. set (tot := trunc 64 (bitlen msg)).
    set (lenf := zeros (lf - 8) ++ enc tot).
    assert (Hlenf : length lenf = lf) by (unfold lenf; rewrite app_length, zeros_length, Henc; lia).
    unfold md_hash, md_pad. rewrite Hlenf.
    assert (Emlen : length msg = n * bs + length T) by (rewrite Emsg, app_length; lia).
    rewrite Emlen.
    assert (Hsh : sh s = fold_left f (blocks_n n bs B) iv)
      by (rewrite Hc; apply block_loop_fold; auto).
    destruct (Nat.ltb_spec limit (length T + 1)) as [Hbig|Hsmall].
    - (* two blocks *)
      rewrite md_zeros_big by lia.
      (* first block *)
      set (b1 := T ++ [128%N] ++ zeros (bs - (length T + 1))).
      assert (Hb1 : length b1 = bs).
      { unfold b1. rewrite !app_length, zeros_length. cbn [length]. lia. }
      assert (Em1 : (if length T + 1 =? bs then Ok (T ++ [128%N] ++ skipn 1 J)
               else k <- size_sub bs (length T + 1) ;;
                    memset (T ++ [128%N] ++ skipn 1 J) (length T + 1) 0 k) = Ok b1).
      { unfold b1. destruct (Nat.eqb_spec (length T + 1) bs) as [E|E].
        - rewrite E, Nat.sub_diag. rewrite (skipn_all2 J) by lia. reflexivity.
        - rewrite size_sub_ok by lia. cbn [bind].
          rewrite (app_assoc T). rewrite memset_app;
            [|rewrite app_length; cbn; lia|rewrite skipn_length; lia].
          f_equal. rewrite <- app_assoc. f_equal. f_equal.
          rewrite (skipn_all2 (skipn 1 J)) by (rewrite skipn_length; lia).
          rewrite app_nil_r. reflexivity. }
      change 0x80%N with 128%N. rewrite Em1. cbn [bind].
      rewrite md_transform1_ok by auto. cbn [bind].
      pose proof (write_len [] zend (enc tot) b1 Hb1 Hz1 Hz2 ltac:(lia) (Henc _) ltac:(cbn; lia) eq_refl) as W.
      cbn [length app] in W. rewrite Nat.sub_0_r in W.
      destruct (size_sub zend 0) as [k| |]; try discriminate W. cbn [bind] in W |- *.
      destruct (memset b1 0 0 k) as [m1| |]; try discriminate W. cbn [bind] in W |- *.
      destruct (memcpy m1 (bs - 8) (enc tot) 8) as [m2| |]; try discriminate W. cbn [bind] in W |- *.
      injection W as W. subst m2.
      rewrite md_transform1_ok by (rewrite app_length, zeros_length, Henc; lia). cbn [bind].
      exists (zeros (bs - 8) ++ enc tot), 0, tot.
      split; [|rewrite app_length, zeros_length, Henc; lia].
      f_equal. f_equal. f_equal. f_equal.
      rewrite Emsg, <- app_assoc.
      assert (Esplit : T ++ [128%N] ++ zeros (2 * bs - lf - 1 - length T) ++ lenf
                       = b1 ++ zeros (bs - 8) ++ enc tot).
      { unfold b1, lenf, zeros. rewrite <- !app_assoc. f_equal. f_equal.
        rewrite !app_assoc, <- !repeat_app. f_equal. f_equal. lia. }
      rewrite Esplit.
      rewrite (blocks_app n 2) by (auto; rewrite ?app_length, ?zeros_length, ?Henc; lia).
      rewrite fold_left_app, <- Hsh. cbn [blocks_n fold_left].
      rewrite (firstn_app_exact b1) by auto. rewrite (skipn_app_exact b1) by auto.
      rewrite firstn_all2 by (rewrite app_length, zeros_length, Henc; lia). reflexivity.
    - (* one block *)
      rewrite md_zeros_small by lia. cbn [bind].
      assert (Ha : length (T ++ [128%N]) = length T + 1) by (rewrite app_length; reflexivity).
      pose proof (write_len (T ++ [128%N]) zend (enc tot) (T ++ [128%N] ++ skipn 1 J)) as W.
      rewrite Ha in W.
      rewrite (app_assoc T [128%N]) in W.
      specialize (W ltac:(rewrite app_length, Ha, skipn_length; lia) Hz1 Hz2 ltac:(lia) (Henc _)
                    ltac:(lia) ltac:(apply firstn_app_exact; lia)).
      rewrite <- (app_assoc T [128%N]) in W.
      change 0x80%N with 128%N.
      destruct (size_sub zend (length T + 1)) as [k| |]; try discriminate W. cbn [bind] in W |- *.
      destruct (memset (T ++ [128%N] ++ skipn 1 J) (length T + 1) 0 k) as [m1| |]; try discriminate W.
      cbn [bind] in W |- *.
      destruct (memcpy m1 (bs - 8) (enc tot) 8) as [m2| |]; try discriminate W. cbn [bind] in W |- *.
      injection W as W. subst m2.
      set (b1 := (T ++ [128%N]) ++ zeros (bs - 8 - (length T + 1)) ++ enc tot).
      assert (Hb1 : length b1 = bs).
      { unfold b1. rewrite !app_length, zeros_length, Henc. cbn [length]. lia. }
      rewrite md_transform1_ok by auto. cbn [bind].
      exists b1, (length T + 1), tot. split; [|exact Hb1].
      f_equal. f_equal. f_equal. f_equal.
      rewrite Emsg, <- app_assoc.
      assert (Esplit : T ++ [128%N] ++ zeros (bs - lf - 1 - length T) ++ lenf = b1).
      { unfold b1, lenf, zeros. rewrite <- !app_assoc. f_equal. f_equal.
        rewrite !app_assoc, <- !repeat_app. f_equal. f_equal. lia. }
      rewrite Esplit.
      rewrite (blocks_app n 1) by (auto; lia).
      rewrite fold_left_app, <- Hsh. cbn [blocks_n fold_left].
      rewrite firstn_all2 by lia. reflexivity.
  Qed.
End Md.

(** Re-association of binds: a provider's [final] is [md_tail] followed by output. *)
Lemma bind_assoc {A B C} (x : res A) (g : A -> res B) (h : B -> res C) :
  bind (bind x g) h = bind x (fun a => bind (g a) h).
Proof. destruct x; reflexivity. Qed.

Lemma bind_ext {A B} (x : res A) (g h : A -> res B) :
  (forall a, g a = h a) -> bind x g = bind x h.
Proof. intros H. destruct x; cbn; auto. Qed.

Ltac md_tail_eq :=
  repeat match goal with
  | |- bind ?x _ = bind (bind ?x _) _ => rewrite bind_assoc; apply bind_ext; intros
  | |- context [match ?p with (_, _) => _ end] => destruct p
  end; reflexivity.

(** ** Transforms that may hit undefined behaviour but do not *)

Lemma block_loop_res_ok {C} (stepr : C -> N -> list N -> res C) step bs n :
  (forall h t b, stepr h t b = Ok (step h t b)) -> forall c t data,
  block_loop_res stepr bs c t data n = Ok (block_loop step bs c t data n).
Proof.
  intros H. induction n; intros; cbn [block_loop_res block_loop]; [reflexivity|].
  rewrite H. cbn [bind]. apply IHn.
Qed.

Lemma absorb_bytes_ext {C} (tf tf' : C -> list N -> N -> list N -> nat -> res (C * list N))
  bs bschk data c m pos total :
  (forall c m t d n, tf c m t d n = tf' c m t d n) ->
  absorb_bytes tf bs bschk data c m pos total = absorb_bytes tf' bs bschk data c m pos total.
Proof.
  intros H. unfold absorb_bytes.
  match goal with |- bind ?x _ = bind ?y _ => replace y with x end.
  - apply bind_ext. intros [[[[c1 m1] d1] p1] t1].
    match goal with |- bind ?x _ = bind ?y _ => replace y with x; [reflexivity|] end.
    destruct (bschk <=? length d1); [|reflexivity].
    cbv zeta. apply bind_ext. intros. rewrite H. reflexivity.
  - destruct (negb (pos =? 0) && (bschk <=? pos + length data)); [|reflexivity].
    apply bind_ext. intros. apply bind_ext. intros. apply bind_ext. intros. rewrite H. reflexivity.
Qed.

Lemma md_update_res_ok stepr step bs bschk s data :
  (forall h t b, stepr h t b = Ok (step h t b)) ->
  md_update_res stepr bs bschk s data = md_update step bs bschk s data.
Proof.
  intros H. unfold md_update_res, md_update.
  rewrite (absorb_bytes_ext _ (fun h m t d n => Ok (block_loop step bs h t d n, m))); [reflexivity|].
  intros. rewrite (block_loop_res_ok stepr step) by auto. reflexivity.
Qed.

Lemma md_transform1_res_ok stepr step bs h m t :
  (forall h t b, stepr h t b = Ok (step h t b)) ->
  md_transform1_res stepr bs h m t = md_transform1 step bs h m t.
Proof.
  intros H. unfold md_transform1_res, md_transform1. apply bind_ext. intros.
  apply block_loop_res_ok. auto.
Qed.

Lemma fold_res_ok {A B} (fr : A -> B -> res A) (f : A -> B -> A) l : forall a,
  (forall a b, In b l -> fr a b = Ok (f a b)) -> fold_res fr l a = Ok (fold_left f l a).
Proof.
  induction l; intros x H; cbn [fold_res fold_left]; [reflexivity|].
  rewrite H by (left; auto). cbn [bind]. apply IHl. intros. apply H. right. auto.
Qed.

Lemma fold_left_len {B} (f : list N -> B -> list N) n (Hf : forall V b, length (f V b) = n) l :
  forall V, length V = n -> length (fold_left f l V) = n.
Proof. induction l; intros; cbn [fold_left]; [auto|]. apply IHl. apply Hf. Qed.
