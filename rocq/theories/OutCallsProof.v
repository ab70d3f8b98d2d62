(** * Proofs about the calls of the permutation while squeezing. *)
From Coq Require Import Lia.
From Verif Require Import Base Lemmas Squeeze SpecCommon SqueezeProof Hasher MdState Keccak KeccakProof Sha3 Shake Ascon Esch EschProof Kmac K12 AnyXofs Custom OutCalls.
Local Open Scope nat_scope.

Lemma advanced_iter {C} (next : C -> C) k c : advanced next k c = Nat.iter k next c.
Proof. induction k; cbn; [reflexivity|]. rewrite IHk. reflexivity. Qed.
Section Stream.
  Context {C : Type}.
  Variable next : C -> C.
  Variable emit : C -> list N.
  Variable r : nat.
  Variable Inv : C -> Prop.
  Hypothesis r_pos : 0 < r.
  Hypothesis emit_len : forall c, Inv c -> r <= length (emit c).
  Hypothesis inv_next : forall c, Inv c -> Inv (next c).

  Lemma output_seg c n : output next emit r c n = seg next emit r c 0 n.
  Proof. unfold output, seg, stream_byte. apply map_ext. intros i. rewrite advanced_iter. reflexivity. Qed.
  Lemma more_ok c0 lengths : Inv c0 -> Forall (fun n => 0 < n) lengths -> forall k c pos, sq_inv next r c0 k c pos ->
    exists c' pos', squeezes_more next emit r c pos lengths = Ok (c', pos', seg next emit r c0 k (list_sum lengths)) /\
      sq_inv next r c0 (k + list_sum lengths) c' pos'.
  Proof.
    intros Hi. induction lengths as [|n l IH]; intros L k c pos Hs; cbn [squeezes_more].
    - exists c, pos. change (list_sum []) with 0. rewrite Nat.add_0_r. split; [reflexivity|exact Hs].
    - inversion L as [|? ? Ln Ll]; subst.
      destruct (sq_more_ok next emit r Inv r_pos emit_len inv_next c0 k c pos n Hi Ln Hs) as (c1 & p1 & -> & H1). cbn [bind].
      destruct (IH Ll (k + n) c1 p1 H1) as (c2 & p2 & -> & H2). cbn [bind]. exists c2, p2.
      change (list_sum (n :: l)) with (n + list_sum l). rewrite seg_app, Nat.add_assoc. split; [reflexivity|exact H2].
  Qed.
  Lemma squeezes_ok c pos n lengths : Inv c -> 0 < n -> Forall (fun n => 0 < n) lengths ->
    let total := n + list_sum lengths in
    squeezes next emit r c pos n lengths = Ok (advanced next ((total - 1) / r) c, (total - 1) mod r + 1, output next emit r c total).
  Proof.
    intros Hi Hn L total. unfold squeezes.
    destruct (sq_first_ok next emit r Inv r_pos emit_len inv_next c pos n Hi Hn) as (c1 & p1 & -> & H1). cbn [bind].
    destruct (more_ok c lengths Hi L n c1 p1 H1) as (c2 & p2 & -> & a & Hk & Hp & Hc). cbn [bind].
    fold total in Hk.
    assert (A : (total - 1) / r = a) by (symmetry; apply (Nat.div_unique _ r a (p2 - 1)); lia).
    assert (M : (total - 1) mod r = p2 - 1) by (symmetry; apply (Nat.mod_unique _ r a (p2 - 1)); lia).
    rewrite A, M, advanced_iter, output_seg. unfold total. rewrite seg_app. cbn [Nat.add]. rewrite <- Hc.
    replace (p2 - 1 + 1) with p2 by lia. reflexivity.
  Qed.
End Stream.
Lemma advanced_counting {C} (next : C -> C) k c : advanced (counting next) k (c, 0) = (advanced next k c, k).
Proof. induction k; cbn [advanced]; [reflexivity|]. rewrite IHk. reflexivity. Qed.
Lemma squeezes_count {C} (next : C -> C) emit r (Inv : C -> Prop) :
  0 < r -> (forall c, Inv c -> r <= length (emit c)) -> (forall c, Inv c -> Inv (next c)) ->
  forall c pos n lengths, Inv c -> 0 < n -> Forall (fun n => 0 < n) lengths ->
  exists c' pos' out, squeezes (counting next) (fun ck => emit (fst ck)) r (c, 0) pos n lengths =
    Ok ((c', (n + list_sum lengths - 1) / r), pos', out) /\ squeezes next emit r c pos n lengths = Ok (c', pos', out).
Proof.
  intros Hr He Hx c pos n l Hi Hn L.
  pose proof (squeezes_ok (counting next) (fun ck => emit (fst ck)) r (fun ck => Inv (fst ck)) Hr (fun ck => He (fst ck)) (fun ck => Hx (fst ck)) (c, 0) pos n l Hi Hn L) as A.
  pose proof (squeezes_ok next emit r Inv Hr He Hx c pos n l Hi Hn L) as B. cbv zeta in A, B.
  rewrite advanced_counting in A. do 3 eexists. split; [exact A|]. rewrite B. f_equal. f_equal.
  unfold output. apply map_ext. intros i. rewrite advanced_counting. reflexivity.
Qed.

(** ** SHAKE, cSHAKE and Ascon *)
Section Shake.
  Variables (B : N) (R : nat).
  Let r := N.to_nat (shake_rate B / 8).
  Lemma shake_takes_more lengths : forall s, hsq s = true ->
    takes (shake B R) s lengths =
    (' (A, pos, out) <- squeezes_more (kc_perm R) (words_bytes 8) r (sh (hk s)) (spos (hk s)) lengths ;;
     Ok (mksh (mkst A (sm (hk s)) pos (stotal (hk s))) (hN s) (hS s) true (hsfx s), out)).
  Proof.
    induction lengths as [|n l IH]; intros s Q; cbn [takes squeezes_more].
    - destruct s as [[A m p t] fn cu sq sf]. cbn in Q. subst sq. reflexivity.
    - cbn [xp_squeeze shake]. unfold shake_squeeze. rewrite Q. fold r.
      destruct (sq_more (kc_perm R) (words_bytes 8) r (sh (hk s)) (spos (hk s)) n) as [[[A p] w]| |]; cbn [bind]; auto.
      rewrite IH by reflexivity. cbn [hk sh sm spos stotal hN hS hsfx].
      destruct (squeezes_more (kc_perm R) (words_bytes 8) r A p l) as [[[A2 p2] w2]| |]; reflexivity.
  Qed.
  Lemma shake_takes s k n lengths : hsq s = false ->
    kc_pad_block R (shake_rate B) (if (hsfx s =? 0)%N then match hN s, hS s with [], [] => 0x1f | _, _ => 0x04 end else hsfx s)%N (hk s) = Ok k ->
    length (sh k) = 25 -> 0 < n -> Forall (fun n => 0 < n) lengths ->
    let total := n + list_sum lengths in
    takes (shake B R) s (n :: lengths) =
      Ok (mksh (mkst (advanced (kc_perm R) ((total - 1) / r) (sh k)) (sm k) ((total - 1) mod r + 1) (stotal k)) (hN s) (hS s) true (hsfx s),
          output (kc_perm R) (words_bytes 8) r (sh k) total).
  Proof.
    intros Q E L Hn Hl total. cbn [takes]. cbn [xp_squeeze shake]. unfold shake_squeeze. rewrite Q, E. cbn [bind]. fold r.
    assert (Hr : 0 < r <= 200) by (unfold r, shake_rate; destruct (B =? 128)%N; cbn; lia).
    pose proof (squeezes_ok (kc_perm R) (words_bytes 8) r (fun A => length A = 25) (proj1 Hr)
      ltac:(intros c Hc; rewrite words_bytes_length, Hc; lia) (kc_perm_length R) (sh k) (spos k) n lengths L Hn Hl) as S. cbv zeta in S. fold total in S.
    unfold squeezes in S. destruct (sq_first (kc_perm R) (words_bytes 8) r (sh k) (spos k) n) as [[[A p] w]| |]; cbn [bind] in S |- *; try discriminate S.
    rewrite shake_takes_more by reflexivity. cbn [hk sh sm spos stotal hN hS hsfx].
    destruct (squeezes_more (kc_perm R) (words_bytes 8) r A p lengths) as [[[A2 p2] w2]| |]; cbn [bind] in S |- *; try discriminate S.
    injection S as <- <- <-. reflexivity.
  Qed.
  Lemma cshake_takes s lengths : takes (cshake B R) s lengths = takes (shake B R) s lengths.
  Proof. revert s. induction lengths as [|n l IH]; intros s; cbn [takes]; [reflexivity|]. cbn [xp_squeeze shake cshake].
    destruct (shake_squeeze B R s n) as [[t w]| |]; cbn [bind]; auto. rewrite IH. reflexivity. Qed.
End Shake.
Lemma ascon_takes_more lengths : forall s, asq s = true ->
  takes ascon_xof s lengths =
  (' (H, pos, out) <- squeezes_more (fun H => ascon_block H 0 (firstn 8 (sm (ak s)))) (words_bytes 8) 8 (sh (ak s)) (spos (ak s)) lengths ;;
   Ok (mkas (mkst H (sm (ak s)) pos (stotal (ak s))) (aZ s) true, out)).
Proof.
  induction lengths as [|n l IH]; intros s Q; cbn [takes squeezes_more].
  - destruct s as [[A m p t] z sq]. cbn in Q. subst sq. reflexivity.
  - cbn [xp_squeeze ascon_xof]. unfold ascon_squeeze. rewrite Q.
    match goal with |- context [sq_more ?f ?e ?r ?a ?b ?c] => destruct (sq_more f e r a b c) as [[[A p] w]| |] end; cbn [bind]; auto.
    rewrite IH by reflexivity. cbn [ak sh sm spos stotal aZ].
    match goal with |- context [squeezes_more ?f ?e ?r ?a ?b ?c] => destruct (squeezes_more f e r a b c) as [[[A2 p2] w2]| |] end; reflexivity.
Qed.
Lemma ascon_takes s k n lengths : asq s = false -> ascon_pad (ak s) = Ok k -> length (sh k) = 5 -> 0 < n -> Forall (fun n => 0 < n) lengths ->
  let total := n + list_sum lengths in
  let next := fun H => ascon_block H 0 (firstn 8 (sm k)) in
  takes ascon_xof s (n :: lengths) =
    Ok (mkas (mkst (advanced next ((total - 1) / 8) (sh k)) (sm k) ((total - 1) mod 8 + 1) (stotal k)) (aZ s) true,
        output next (words_bytes 8) 8 (sh k) total).
Proof.
  intros Q E L Hn Hl total next. cbn [takes]. cbn [xp_squeeze ascon_xof]. unfold ascon_squeeze. rewrite Q, E. cbn [bind]. fold next.
  pose proof (squeezes_ok next (words_bytes 8) 8 (fun A => length A = 5) ltac:(lia)
    ltac:(intros c Hc; rewrite words_bytes_length, Hc; lia) (fun c _ => ascon_block_len c _ _) (sh k) (spos k) n lengths L Hn Hl) as S. cbv zeta in S. fold total in S.
  unfold squeezes in S. destruct (sq_first next (words_bytes 8) 8 (sh k) (spos k) n) as [[[A p] w]| |]; cbn [bind] in S |- *; try discriminate S.
  rewrite ascon_takes_more by reflexivity. cbn [ak sh sm spos stotal aZ]. fold next.
  destruct (squeezes_more next (words_bytes 8) 8 A p lengths) as [[[A2 p2] w2]| |]; cbn [bind] in S |- *; try discriminate S.
  injection S as E1 E2 E3. rewrite E1, E2, E3. reflexivity.
Qed.

(** ** Esch *)
Section Esch.
  Variable hs : N.
  Let Inv (H : list N) := 4 <= length H.
  Lemma esch_emit_len H : Inv H -> 16 <= length (words_bytes 4 H).
  Proof. unfold Inv. intros L. rewrite words_bytes_length. lia. Qed.
  Lemma esch_inv_next H : Inv H -> Inv (esch_next hs H).
  Proof. unfold Inv, esch_next. rewrite sparkle_len. auto. Qed.
  Lemma esch_more H0 s k n : Inv H0 -> 0 < n -> ehs s = hs -> esq s = true -> stotal (ek s) = 0%N ->
    sq_inv (esch_next hs) 16 H0 k (sh (ek s)) (spos (ek s)) ->
    exists H pos, esch_squeeze true s n = Ok (mkes (mkst H (sm (ek s)) pos 0) hs true, seg (esch_next hs) (words_bytes 4) 16 H0 k n) /\
      sq_inv (esch_next hs) 16 H0 (k + n) H pos.
  Proof.
    intros Hi Hn E Q T I. unfold esch_squeeze. cbv zeta. rewrite E, Q, T.
    destruct (sq_more_ok (esch_next hs) (words_bytes 4) 16 Inv ltac:(lia) esch_emit_len esch_inv_next _ k _ _ n Hi Hn I)
      as (c' & pos' & Ec & I'). exists c', pos'. split; [|exact I'].
    destruct I as (a & Hk & Hp & Hc). unfold sq_more in Ec.
    destruct (Nat.ltb_spec (spos (ek s)) 16) as [L|L].
    - destruct (load (words_bytes 4 (sh (ek s))) (spos (ek s)) (Nat.min n (16 - spos (ek s)))); try discriminate Ec.
      cbn [bind] in *. rewrite esch_loop_sq by lia. rewrite Ec. reflexivity.
    - cbn [bind]. rewrite esch_loop_full by lia.
      rewrite (proj2 (Nat.eqb_eq (spos (ek s)) 16)) in Ec by lia. rewrite Ec. reflexivity.
  Qed.
  Lemma esch_takes_more H0 lengths : Inv H0 -> Forall (fun n => 0 < n) lengths -> forall k s,
    ehs s = hs -> esq s = true -> stotal (ek s) = 0%N ->
    sq_inv (esch_next hs) 16 H0 k (sh (ek s)) (spos (ek s)) ->
    exists H pos, takes esch_xof s lengths =
        Ok (mkes (mkst H (sm (ek s)) pos 0) hs true, seg (esch_next hs) (words_bytes 4) 16 H0 k (list_sum lengths)) /\
      sq_inv (esch_next hs) 16 H0 (k + list_sum lengths) H pos.
  Proof.
    intros Hi. induction lengths as [|n l IH]; intros L k s E Q T I; cbn [takes].
    - exists (sh (ek s)), (spos (ek s)). change (list_sum []) with 0. rewrite Nat.add_0_r. split; [|exact I].
      destruct s as [[H m p t] z q]. cbn in E, Q, T |- *. subst. reflexivity.
    - pose proof (Forall_inv L) as Ln. pose proof (Forall_inv_tail L) as Ll. cbn [xp_squeeze esch_xof].
      destruct (esch_more H0 s k n Hi Ln E Q T I) as (H1 & p1 & -> & I1). cbn [bind].
      destruct (IH Ll (k + n) (mkes (mkst H1 (sm (ek s)) p1 0) hs true) eq_refl eq_refl eq_refl I1) as (H2 & p2 & -> & I2).
      cbn [bind]. exists H2, p2. change (list_sum (n :: l)) with (n + list_sum l). rewrite seg_app, Nat.add_assoc.
      split; [reflexivity|exact I2].
  Qed.
End Esch.
Lemma esch_takes s k n lengths : esq s = false -> esch_pad true (ehs s) (ek s) = Ok k -> 4 <= length (sh k) ->
  0 < n -> Forall (fun n => 0 < n) lengths ->
  let total := n + list_sum lengths in
  let next := sparkle (esch_rounds (ehs s)) (if (256 <? ehs s)%N then 8 else 7) in
  takes esch_xof s (n :: lengths) =
    Ok (mkes (mkst (advanced next ((total - 1) / 16) (sh k)) (sm k) ((total - 1) mod 16 + 1) 0) (ehs s) true,
        output next (words_bytes 4) 16 (sh k) total).
Proof.
  intros Q E L Hn Hl total next. change next with (esch_next (ehs s)). clear next.
  assert (T : stotal k = 1%N).
  { revert E. unfold esch_pad. destruct (_ <? _); [|discriminate].
    match goal with |- context [bind ?X _] => destruct X as [[m H]| |] end; cbn [bind]; try discriminate.
    match goal with |- context [bind ?X _] => destruct X as [H'| |] end; cbn [bind]; try discriminate.
    intros [= <-]. reflexivity. }
  cbn [takes]. cbn [xp_squeeze esch_xof]. unfold esch_squeeze at 1. cbv zeta. rewrite Q, E. cbn [bind]. rewrite T.
  rewrite esch_loop_first by exact Hn.
  destruct (sq_first_ok (esch_next (ehs s)) (words_bytes 4) 16 (fun H => 4 <= length H) ltac:(lia) esch_emit_len (esch_inv_next (ehs s)) (sh k) (spos k) n L Hn)
    as (c1 & p1 & -> & I1). cbn [bind].
  destruct (esch_takes_more (ehs s) (sh k) lengths L Hl n (mkes (mkst c1 (sm k) p1 0) (ehs s) true) eq_refl eq_refl eq_refl I1)
    as (c2 & p2 & -> & a & Hk & Hp & Hc). cbn [bind ek sm]. fold total in Hk.
  assert (A : (total - 1) / 16 = a) by (symmetry; apply (Nat.div_unique _ 16 a (p2 - 1)); lia).
  assert (M : (total - 1) mod 16 = p2 - 1) by (symmetry; apply (Nat.mod_unique _ 16 a (p2 - 1)); lia).
  rewrite A, M, advanced_iter, output_seg. unfold total. rewrite seg_app. cbn [Nat.add]. rewrite <- Hc.
  replace (p2 - 1 + 1) with p2 by lia. reflexivity.
Qed.

(** ** KMAC-XOF and K12: the squeezes are those of an inner object *)
Lemma kmac_takes_more B lengths : forall s, kmsq s = true ->
  takes (kmacxof B) s lengths =
  (' (i, out) <- takes (shake B 24) (kmsh s) lengths ;; Ok (mkkm (kmK s) (kmhs s) true i, out)).
Proof.
  induction lengths as [|n l IH]; intros s Q; cbn [takes].
  - destruct s as [K z q i]. cbn in Q |- *. subst. reflexivity.
  - cbn [xp_squeeze kmacxof shake]. unfold kmac_squeeze. rewrite Q. cbn [bind]. rewrite ?Q.
    destruct (shake_squeeze B 24 (kmsh s) n) as [[i w]| |]; cbn [bind]; auto.
    rewrite IH by reflexivity. cbn [kmsh kmK kmhs].
    destruct (takes (shake B 24) i l) as [[j v]| |]; reflexivity.
Qed.
Lemma kmac_takes B s t n lengths : kmsq s = false -> kmac_update B s (right_encode 0 false) = Ok t ->
  takes (kmacxof B) s (n :: lengths) =
  (' (i, out) <- takes (shake B 24) (kmsh t) (n :: lengths) ;; Ok (mkkm (kmK t) (kmhs t) true i, out)).
Proof.
  intros Q E. cbn [takes]. cbn [xp_squeeze kmacxof shake]. unfold kmac_squeeze. rewrite Q, E. cbn [bind kmsh kmK kmhs kmsq].
  destruct (shake_squeeze B 24 (kmsh t) n) as [[i w]| |]; cbn [bind]; auto.
  rewrite kmac_takes_more by reflexivity. cbn [kmsh kmK kmhs].
  destruct (takes (shake B 24) i lengths) as [[j v]| |]; reflexivity.
Qed.
Lemma k12_takes_more B R lengths : forall s, ksq s = true ->
  takes (k12 B R) s lengths =
  (' (i, out) <- takes (shake B R) (kmain s) lengths ;; Ok (mkk12 i (kchild s) (km s) (kS s) (kpos s) (ktotal s) (kchunk s) true, out)).
Proof.
  induction lengths as [|n l IH]; intros s Q; cbn [takes].
  - destruct s as [K z m S p t c q]. cbn in Q |- *. subst. reflexivity.
  - cbn [xp_squeeze k12 shake]. unfold k12_squeeze. rewrite Q. cbn [bind]. rewrite ?Q.
    destruct (shake_squeeze B R (kmain s) n) as [[i w]| |]; cbn [bind]; auto.
    rewrite IH by reflexivity. cbn [kmain kchild km kS kpos ktotal kchunk].
    destruct (takes (shake B R) i l) as [[j v]| |]; reflexivity.
Qed.
Lemma k12_finish_squeezing B R s t : k12_finish B R s = Ok t -> ksq t = true.
Proof.
  unfold k12_finish. cbv zeta. intros E.
  repeat (match type of E with
    | bind ?X _ = _ => let e := fresh in destruct X eqn:e; cbn [bind] in E; try discriminate E
    | context [let '(_, _) := ?p in _] => destruct p
    | (if ?b then _ else _) = _ => destruct b
    end).
  all: try (injection E as <-; reflexivity).
Qed.
Lemma k12_takes B R s t n lengths : ksq s = false -> k12_finish B R s = Ok t ->
  takes (k12 B R) s (n :: lengths) =
  (' (i, out) <- takes (shake B R) (kmain t) (n :: lengths) ;; Ok (mkk12 i (kchild t) (km t) (kS t) (kpos t) (ktotal t) (kchunk t) true, out)).
Proof.
  intros Q E. rewrite <- (k12_takes_more B R (n :: lengths) t (k12_finish_squeezing B R s t E)).
  cbn [takes]. cbn [xp_squeeze k12]. unfold k12_squeeze. rewrite Q, E, (k12_finish_squeezing B R s t E). reflexivity.
Qed.
