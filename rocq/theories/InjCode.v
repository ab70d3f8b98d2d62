(** * The cores of the compression functions of the code rearrange their states (C54). *)
From Verif Require Import Base Lemmas WordLemmas TableLemmas SpecCommon GfSpec ColumnSpec PermSpec
  Md5Spec Md5 Md5Proof Sha1Spec Sha1 Sha1Proof Sha2Spec Sha2 Sha2Proof Sm3Spec Sm3 Sm3Proof
  Keccak KeccakSpec KeccakProof AsconSpec Ascon AsconProof EschSpec Esch EschProof Blake Blake2 SkeinSpec Skein SkeinProof
  LshSpec Lsh LshProof GroestlSpec Groestl GroestlProof KupynaSpec Kupyna KupynaProof TTable WhirlpoolSpec Whirlpool WhirlpoolProof
  StreebogSpec Streebog StreebogProof EchoSpec Echo EchoProof EchoSim JhSpec Jh JhProof MdProof
  Inj InjArx InjArx2 InjKeccak InjAscon InjGf InjCols InjEchoJh.
From Coq Require Import ZArith Lia.
Local Open Scope N_scope.

(** ** From injective to onto, by counting *)
Lemma states_wlist w n l : states w n l <-> wlist w n l.
Proof. split; intros H; exact H. Qed.
Lemma states_list w n : exists L, forall l, states w n l <-> In l L.
Proof.
  induction n as [|n [L HL]].
  - exists [[]]. intros l. split.
    + intros [H _]. destruct l; [left; reflexivity|discriminate H].
    + intros [<-|[]]. split; [reflexivity|constructor].
  - exists (flat_map (fun x => map (cons (N.of_nat x)) L) (seq 0 (N.to_nat (2 ^ w)))). intros l. rewrite in_flat_map. split.
    + intros [H F]. destruct l as [|x l]; [discriminate H|]. inversion F; subst. exists (N.to_nat x). split; [apply in_seq; lia|].
      apply in_map_iff. exists l. rewrite N2Nat.id. split; [reflexivity|]. apply HL. split; [injection H; auto|assumption].
    + intros (x & Hx & Hl). apply in_seq in Hx. apply in_map_iff in Hl. destruct Hl as (r & <- & Hr). apply HL in Hr. destruct Hr as [L1 F1].
      split; [cbn [length]; congruence|]. constructor; [lia|exact F1].
Qed.
Lemma map_NoDup {A B} (f : A -> B) l : (forall a b, In a l -> In b l -> f a = f b -> a = b) -> NoDup l -> NoDup (map f l).
Proof.
  intros F H. induction H as [|a l Ha _ IH]; [constructor|]. cbn [map]. constructor.
  - intros Hi. apply in_map_iff in Hi. destruct Hi as (b & E & Hb). apply F in E; [subst; auto|right; auto|left; auto].
  - apply IH. intros x y Hx Hy. apply F; right; auto.
Qed.
Lemma rearr w n f : inj_on (wlist w n) f -> (forall a, wlist w n a -> wlist w n (f a)) -> rearranges w n f.
Proof.
  intros F K. split; [exact K|]. split; [exact F|]. intros b Hb.
  destruct (states_list w n) as [L0 HL0]. set (L := nodup (list_eq_dec N.eq_dec) L0).
  assert (HL : forall l, wlist w n l <-> In l L) by (intros l; unfold L; rewrite nodup_In; apply HL0).
  assert (I : incl L (map f L)).
  { apply NoDup_length_incl.
    - apply map_NoDup; [|apply NoDup_nodup]. intros x y Hx Hy. apply F; apply HL; assumption.
    - rewrite map_length. lia.
    - intros x Hx. apply in_map_iff in Hx. destruct Hx as (y & <- & Hy). apply HL, K, HL, Hy. }
  apply HL, I in Hb. apply in_map_iff in Hb. destruct Hb as (a & E & Ha). exists a. split; [apply HL; exact Ha|exact E].
Qed.
Lemma rearr_ext w n f g : (forall a, wlist w n a -> f a = g a) -> inj_on (wlist w n) g -> (forall a, wlist w n a -> wlist w n (g a)) -> rearranges w n f.
Proof.
  intros E F K. apply rearr.
  - intros a b Ha Hb. rewrite !E by assumption. apply F; assumption.
  - intros a Ha. rewrite E by assumption. auto.
Qed.
(** Removing what was added or xored in. *)
Lemma minus_add w x y : word w x -> word w y -> (plus_mod w x y + (2 ^ w - x)) mod 2 ^ w = y.
Proof.
  intros Hx Hy. unfold plus_mod, word in *. assert (Z : 2 ^ w <> 0) by (apply N.pow_nonzero; discriminate).
  rewrite N.add_mod_idemp_l by exact Z. replace (x + y + (2 ^ w - x)) with (y + 1 * 2 ^ w) by lia. rewrite N.mod_add by exact Z. apply N.mod_small. exact Hy.
Qed.
Lemma xored_back : forall a b, length a = length b -> xored (map2 N.lxor b a) b = a.
Proof.
  induction a as [|x a IH]; destruct b as [|y b]; intros L; try discriminate L; [reflexivity|]. cbn [map2 xored] in *. f_equal.
  - rewrite (N.lxor_comm y), N.lxor_assoc, N.lxor_nilpotent, N.lxor_0_r. reflexivity.
  - apply IH. injection L; auto.
Qed.
Lemma xored_back' a b : length a = length b -> xored (map2 N.lxor a b) b = a.
Proof. intros L. rewrite (map2_comm N.lxor N.lxor_comm a b). apply xored_back. exact L. Qed.

(** ** Permutations *)
Lemma keccak_rearr R : (R <= 24)%nat -> rearranges 64 25 (kc_perm R).
Proof.
  intros HR. apply (rearr_ext _ _ _ (keccak_p R)).
  - intros A [L _]. apply kc_perm_eq; auto.
  - apply (keccak_p_inj R).
  - apply (keccak_p_inj R).
Qed.
Lemma ascon_rearr : rearranges 64 5 ascon_perm.
Proof.
  apply (rearr_ext _ _ _ (ascon_p 12)).
  - intros A H. apply ascon_perm_eq. exact H.
  - apply (ascon_p_inj 12).
  - apply (ascon_p_inj 12).
Qed.
Fixpoint pairs (l : list N) : list (N * N) := match l with a :: b :: r => (a, b) :: pairs r | _ => [] end.
Lemma flat_pairs h : forall S, wlist 32 (2 * h) S -> flat (pairs S) = S /\ length (pairs S) = h /\ Forall br_ok (pairs S).
Proof.
  induction h as [|h IH]; intros S [L F].
  - destruct S; [|discriminate L]. split; [reflexivity|split; [reflexivity|constructor]].
  - destruct S as [|a [|b S]]; [discriminate L|cbn [length] in L; lia|]. inversion F as [|? ? Fa F1]; inversion F1 as [|? ? Fb F2]; subst.
    destruct (IH S) as (E1 & E2 & E3); [split; [cbn [length] in L; lia|exact F2]|]. cbn [pairs length].
    split; [unfold flat in *; cbn [flat_map fst snd app]; rewrite E1; reflexivity|]. split; [rewrite E2; reflexivity|]. constructor; [split; assumption|exact E3].
Qed.
Lemma flat_inj : forall A B, flat A = flat B -> A = B.
Proof.
  induction A as [|[a b] A IH]; destruct B as [|[c d] B]; intros E; try discriminate E; [reflexivity|]. cbn in E. injection E as -> -> E. f_equal. apply IH. exact E.
Qed.
Lemma flat_wlist h B : length B = h -> Forall br_ok B -> wlist 32 (2 * h) (flat B).
Proof.
  intros <- F. induction F as [|[a b] B [H1 H2] _ [L W]]; [split; [reflexivity|constructor]|].
  split; [cbn [flat flat_map fst snd app length] in *; unfold flat in L; lia|]. cbn. constructor; [exact H1|constructor; [exact H2|exact W]].
Qed.
Lemma sparkle_rearr h ns J : (h = 3 \/ h = 4)%nat -> (ns <= 12)%nat ->
  rearranges 32 (4 * h) (fun S => firstn (4 * h) (sparkle (2 * h) ns (S ++ J))) /\
  forall S, states 32 (4 * h) S -> skipn (4 * h) (sparkle (2 * h) ns (S ++ J)) = J.
Proof.
  intros Hh Hn.
  assert (G : forall S, wlist 32 (4 * h) S -> st_ok h (pairs S) /\ st_ok h (sparkle_p ns (pairs S)) /\ length (flat (sparkle_p ns (pairs S))) = (4 * h)%nat /\
    sparkle (2 * h) ns (S ++ J) = flat (sparkle_p ns (pairs S)) ++ J).
  { intros S HS. replace (4 * h)%nat with (2 * (2 * h))%nat in * by lia. destruct (flat_pairs _ S HS) as (E1 & E2 & E3).
    assert (Ho : st_ok h (pairs S)) by (split; assumption). destruct (sparkle_eq h (pairs S) J ns Hh Hn Ho) as [E4 E5].
    split; [exact Ho|]. split; [exact E5|]. rewrite E1 in E4. split; [|exact E4]. apply (flat_wlist (2 * h)); apply E5. }
  split.
  - apply (rearr_ext _ _ _ (fun S => flat (sparkle_p ns (pairs S)))).
    + intros S HS. destruct (G S HS) as (_ & _ & L & ->). rewrite firstn_app, <- L, firstn_all, Nat.sub_diag, firstn_O, app_nil_r. reflexivity.
    + intros A B HA HB E. apply flat_inj in E. apply (sparkle_p_inj h ns ltac:(destruct Hh; lia)) in E; [|apply G; assumption..].
      replace (4 * h)%nat with (2 * (2 * h))%nat in * by lia.
      rewrite <- (proj1 (flat_pairs _ A HA)), <- (proj1 (flat_pairs _ B HB)), E. reflexivity.
    + intros A HA. replace (4 * h)%nat with (2 * (2 * h))%nat by lia. apply flat_wlist; apply (G A HA).
  - intros S HS. destruct (G S HS) as (_ & _ & L & ->). rewrite skipn_app, <- L, skipn_all, Nat.sub_diag. reflexivity.
Qed.
Lemma blake_rearr w M n : w = 64 \/ w = 32 -> rearranges w 16 (fun v => fold_left (bl_round w M) (seq 0 n) v).
Proof. intros Hw. destruct (bl_rounds_inj w M (seq 0 n) Hw). apply rearr; assumption. Qed.
Lemma blake2_rearr w M n : w = 64 \/ w = 32 -> (n <= 12)%nat -> rearranges w 16 (fun v => fold_left (b2_round w M) (seq 0 n) v).
Proof. intros Hw Hn. destruct (b2_rounds_inj w M n Hw Hn). apply rearr; assumption. Qed.

(** ** Davies-Meyer *)
Ltac list_forall := repeat match goal with H : Forall _ (_ :: _) |- _ => inversion H; clear H; subst end.
Definition reg4 (l : list N) : N * N * N * N := (nthN 0 l, nthN 1 l, nthN 2 l, nthN 3 l).
Definition reg5 (l : list N) : regs5 := (nthN 0 l, nthN 1 l, nthN 2 l, nthN 3 l, nthN 4 l).
Definition reg8 (l : list N) : regs8 := (nthN 0 l, nthN 1 l, nthN 2 l, nthN 3 l, nthN 4 l, nthN 5 l, nthN 6 l, nthN 7 l).
Lemma reg4_ok w l : wlist w 4 l -> wreg4 w (reg4 l) /\ tuple4 (reg4 l) = l.
Proof. intros [L H]. list_cases l L. list_forall. split; [|reflexivity]. unfold reg4, nthN, wreg4. cbn [nth]. auto. Qed.
Lemma reg5_ok w l : wlist w 5 l -> wreg5 w (reg5 l) /\ tuple5 (reg5 l) = l.
Proof. intros [L H]. list_cases l L. list_forall. split; [|reflexivity]. unfold reg5, nthN, wreg5, wreg4. cbn [nth]. auto. Qed.
Lemma reg8_ok w l : wlist w 8 l -> wreg8 w (reg8 l) /\ tuple8 (reg8 l) = l.
Proof. intros [L H]. list_cases l L. list_forall. split; [|reflexivity]. unfold reg8, nthN, wreg8, wreg4. cbn [nth]. auto. Qed.
Lemma tuple4_ok w q : wreg4 w q -> wlist w 4 (tuple4 q).
Proof. destruct q as [[[a b] c] d]. intros (? & ? & ? & ?). split; [reflexivity|]. repeat (constructor; [assumption|]). constructor. Qed.
Lemma tuple5_ok w q : wreg5 w q -> wlist w 5 (tuple5 q).
Proof. destruct q as [[[[a b] c] d] e]. intros ((? & ? & ? & ?) & ?). split; [reflexivity|]. repeat (constructor; [assumption|]). constructor. Qed.
Lemma tuple8_ok w q : wreg8 w q -> wlist w 8 (tuple8 q).
Proof.
  destruct q as [[[[[[[a b] c] d] e] f] g] h]. intros ((? & ? & ? & ?) & ? & ? & ? & ?). split; [reflexivity|]. repeat (constructor; [assumption|]). constructor.
Qed.
Lemma tuple4_inj p q : tuple4 p = tuple4 q -> p = q.
Proof. destruct p as [[[a b] c] d], q as [[[a' b'] c'] d']. intros E. injection E. intros; subst. reflexivity. Qed.
Lemma tuple5_inj p q : tuple5 p = tuple5 q -> p = q.
Proof. destruct p as [[[[a b] c] d] e], q as [[[[a' b'] c'] d'] e']. intros E. injection E. intros; subst. reflexivity. Qed.
Lemma tuple8_inj p q : tuple8 p = tuple8 q -> p = q.
Proof. destruct p as [[[[[[[a b] c] d] e] f] g] h], q as [[[[[[[a' b'] c'] d'] e'] f'] g'] h']. intros E. injection E. intros; subst. reflexivity. Qed.
Lemma md5_rearr t b : rearranges 32 4 (fun h => less 32 (md5_block h t b) h).
Proof.
  set (F := fun q => fold_left (rfc_op (le_words 4 16 b)) (seq 0 64) q). destruct (md5_ops_inj (le_words 4 16 b) (seq 0 64)) as [I K].
  change (inj_on (wreg4 32) F) in I. change (forall r, wreg4 32 r -> wreg4 32 (F r)) in K.
  apply (rearr_ext _ _ _ (fun h => tuple4 (F (reg4 h)))).
  - intros h Hh. destruct (reg4_ok 32 h Hh) as [R E]. pose proof (K _ R) as R'. rewrite <- E at 1 2. rewrite md5_block_eq. unfold rfc_md5_compress. cbv zeta. fold (F (reg4 h)).
    destruct (reg4 h) as [[[x0 x1] x2] x3]. destruct (F (x0, x1, x2, x3)) as [[[y0 y1] y2] y3]. destruct R as (? & ? & ? & ?). destruct R' as (? & ? & ? & ?).
    cbn [tuple4 less map2]. rewrite !minus_add by assumption. reflexivity.
  - intros x y Hx Hy E. apply tuple4_inj in E. destruct (reg4_ok 32 x Hx) as [Rx Ex]. destruct (reg4_ok 32 y Hy) as [Ry Ey]. apply I in E; auto. congruence.
  - intros x Hx. apply tuple4_ok, K, reg4_ok, Hx.
Qed.
Lemma sha1_rearr t b : block_ok 64 b -> rearranges 32 5 (fun h => less 32 (sha1_block h t b) h).
Proof.
  intros Hb. set (W := fips_sched1 64 (be_words 4 16 b)). set (F := fun q => fold_left (fips_round1 W) (seq 0 80) q). destruct (sha1_rounds_inj W (seq 0 80)) as [I K].
  change (inj_on (wreg5 32) F) in I. change (forall r, wreg5 32 r -> wreg5 32 (F r)) in K.
  apply (rearr_ext _ _ _ (fun h => tuple5 (F (reg5 h)))).
  - intros h Hh. destruct (reg5_ok 32 h Hh) as [R E]. pose proof (K _ R) as R'. rewrite <- E at 1 2. rewrite sha1_block_eq by exact Hb. unfold fips_sha1_compress. cbv zeta. fold W. fold (F (reg5 h)).
    destruct (reg5 h) as [[[[x0 x1] x2] x3] x4]. destruct (F (x0, x1, x2, x3, x4)) as [[[[y0 y1] y2] y3] y4]. destruct R as ((? & ? & ? & ?) & ?). destruct R' as ((? & ? & ? & ?) & ?).
    cbn [tuple5 less map2]. rewrite !minus_add by assumption. reflexivity.
  - intros x y Hx Hy E. apply tuple5_inj in E. destruct (reg5_ok 32 x Hx) as [Rx Ex]. destruct (reg5_ok 32 y Hy) as [Ry Ey]. apply I in E; auto. congruence.
  - intros x Hx. apply tuple5_ok, K, reg5_ok, Hx.
Qed.
Lemma sha2_rearr T t b : block_ok (sha2_bs T) b -> rearranges (p_w (P_of T)) 8 (fun h => less (p_w (P_of T)) (sha2_block T h t b) h).
Proof.
  intros Hb. set (P := P_of T). set (w := p_w P). set (W := fips_sched2 P (p_rounds P - 16) (be_words (p_k P) 16 b)).
  set (F := fun q => fold_left (fips_round2 P W) (seq 0 (p_rounds P)) q). destruct (sha2_rounds_inj P W (seq 0 (p_rounds P))) as [I K].
  change (inj_on (wreg8 w) F) in I. change (forall r, wreg8 w r -> wreg8 w (F r)) in K.
  apply (rearr_ext _ _ _ (fun h => tuple8 (F (reg8 h)))).
  - intros h Hh. destruct (reg8_ok w h Hh) as [R E]. pose proof (K _ R) as R'. rewrite <- E at 1 2. rewrite sha2_block_eq by exact Hb. unfold fips_sha2_compress. cbv zeta. fold P W. fold (F (reg8 h)).
    destruct (reg8 h) as [[[[[[[x0 x1] x2] x3] x4] x5] x6] x7]. destruct (F (x0, x1, x2, x3, x4, x5, x6, x7)) as [[[[[[[y0 y1] y2] y3] y4] y5] y6] y7].
    destruct R as ((? & ? & ? & ?) & ? & ? & ? & ?). destruct R' as ((? & ? & ? & ?) & ? & ? & ? & ?).
    fold w. cbn [tuple8 less map2]. rewrite !minus_add by assumption. reflexivity.
  - intros x y Hx Hy E. apply tuple8_inj in E. destruct (reg8_ok w x Hx) as [Rx Ex]. destruct (reg8_ok w y Hy) as [Ry Ey]. apply I in E; auto. congruence.
  - intros x Hx. apply tuple8_ok, K, reg8_ok, Hx.
Qed.
Lemma sha2_rearr' T t b : block_ok (sha2_bs T) b -> rearranges (wbits T) 8 (fun h => less (wbits T) (sha2_block T h t b) h).
Proof. rewrite wbits_eq. apply sha2_rearr. Qed.
Local Transparent gb_compress gb_CF.
Local Transparent gb_compress gb_CF.
(** The value of a computation that does not fail. *)
Definition ok_or (d : list N) (r : res (list N)) : list N := match r with Ok v => v | _ => d end.
Lemma sm3_rearr t b : block_ok 64 b ->
  (forall h, exists v, sm3_block Masked h t b = Ok v) /\ rearranges 32 8 (fun h => xored (ok_or [] (sm3_block Masked h t b)) h).
Proof.
  intros Hb. split; [intros h; exists (sm3_pure h t b); apply sm3_block_pure|].
  set (W := gb_expand 52 (be_words 4 16 b)). set (F := fun q => fold_left (gb_round W) (seq 0 64) q). destruct (sm3_rounds_inj W (seq 0 64)) as [I K].
  change (inj_on (wreg8 32) F) in I. change (forall r, wreg8 32 r -> wreg8 32 (F r)) in K.
  apply (rearr_ext _ _ _ (fun h => tuple8 (F (reg8 h)))).
  - intros h Hh. rewrite sm3_block_pure. cbn [ok_or]. rewrite sm3_step_f, sm3_f_eq by exact Hb. unfold gb_compress, gb_CF. cbv zeta. fold W.
    change (nth 0 h 0, nth 1 h 0, nth 2 h 0, nth 3 h 0, nth 4 h 0, nth 5 h 0, nth 6 h 0, nth 7 h 0) with (reg8 h). fold (F (reg8 h)).
    destruct (F (reg8 h)) as [[[[[[[y0 y1] y2] y3] y4] y5] y6] y7]. destruct Hh as [L _]. list_cases h L. cbn [nth tuple8].
    match goal with |- xored [N.lxor ?a0 ?b0; N.lxor ?a1 ?b1; N.lxor ?a2 ?b2; N.lxor ?a3 ?b3; N.lxor ?a4 ?b4; N.lxor ?a5 ?b5; N.lxor ?a6 ?b6; N.lxor ?a7 ?b7] _ = _ =>
      change (xored (map2 N.lxor [a0; a1; a2; a3; a4; a5; a6; a7] [b0; b1; b2; b3; b4; b5; b6; b7]) [b0; b1; b2; b3; b4; b5; b6; b7] = [a0; a1; a2; a3; a4; a5; a6; a7]) end.
    apply xored_back'. reflexivity.
  - intros x y Hx Hy E. apply tuple8_inj in E. destruct (reg8_ok 32 x Hx) as [Rx Ex]. destruct (reg8_ok 32 y Hy) as [Ry Ey]. apply I in E; auto. congruence.
  - intros x Hx. apply tuple8_ok, K, reg8_ok, Hx.
Qed.
(** ** Other constructions *)
Lemma le_words_wb n x : wlist 64 n x -> le_words 8 n (words_bytes 8 x) = x.
Proof. intros [<- H]. apply le_words_words_bytes. exact H. Qed.
Lemma threefish_wlist nw K t0 t1 P : wlist 64 nw (threefish nw K t0 t1 P).
Proof. unfold threefish. apply tf_addkey_word. Qed.
Lemma skein_rearr nw L p t1 H : nw = 4%nat \/ nw = 8%nat \/ nw = 16%nat -> length H = nw ->
  rearranges 64 nw (fun m => xored (skipn 2 (sk_block nw L ([p; t1] ++ H) (words_bytes 8 m))) m).
Proof.
  intros Hn HH. apply (rearr_ext _ _ _ (threefish nw H (addw 64 p L) t1)).
  - intros m Hm. rewrite (sk_block_eq nw Hn) by exact HH. rewrite le_words_wb by exact Hm. cbn [app skipn]. apply xored_back'.
    rewrite (proj1 Hm). apply threefish_wlist.
  - apply threefish_inj. exact Hn.
  - intros. apply threefish_wlist.
Qed.
Lemma cbytes_wlist C A : cbytes C A <-> wlist 8 (8 * C) A.
Proof. split; intros H; exact H. Qed.
Lemma wb_le_words n x : wlist 8 (8 * n) x -> words_bytes 8 (le_words 8 n x) = x.
Proof. intros [L H]. apply words_bytes_le_words; [exact H|lia]. Qed.
Lemma wb_wlist n l : length l = n -> wlist 8 (8 * n) (words_bytes 8 l).
Proof. intros <-. split; [rewrite words_bytes_length; lia|apply words_bytes_ok]. Qed.
Lemma xor_wlist w n a b : wlist w n a -> wlist w n b -> wlist w n (map2 N.lxor a b).
Proof.
  intros [La Ha] [Lb Hb]. split; [rewrite map2_length; lia|]. clear La Lb. revert b Hb. induction Ha; intros b Hb; [constructor|]. destruct Hb; [constructor|].
  cbn [map2]. constructor; [apply xor_word; assumption|auto].
Qed.

(** JH: the whole compression function, for a fixed block. *)
Lemma jhs_degroup_len Q : length (jhs_degroup Q) = 128%nat.
Proof. unfold jhs_degroup. rewrite map_length. apply seq_length. Qed.
Local Transparent jhs_F8.
Lemma jh_rearr t b : block_ok 64 b -> rearranges 8 128 (fun x => words_bytes 8 (jh_step (le_words 8 16 x) t b)).
Proof.
  intros Hb. pose proof Hb as [Lb Bb].
  assert (S : forall x, wlist 8 128 x -> words_bytes 8 (jh_step (le_words 8 16 x) t b) = jhs_F8 x b /\ wlist 8 128 (jhs_F8 x b)).
  { intros x Hx. destruct (jh_step_f (le_words 8 16 x) t b (le_words_length _ _ _) Hb) as [E L]. rewrite (wb_le_words 16) in E by exact Hx.
    split; [exact E|]. rewrite <- E. apply (wb_wlist 16). exact L. }
  assert (Z : Forall (word 8) (zeros 64)) by (apply Forall_forall; intros z Hz; apply repeat_spec in Hz; subst; reflexivity).
  assert (M1 : wlist 8 128 (b ++ zeros 64)) by (split; [rewrite app_length, zeros_length, Lb; reflexivity|apply Forall_app; split; [exact Bb|exact Z]]).
  assert (M2 : length (zeros 64 ++ b) = 128%nat) by (rewrite app_length, zeros_length, Lb; reflexivity).
  apply (rearr_ext _ _ _ (fun x => jhs_F8 x b)); [apply S| |apply S].
  intros x y Hx Hy E. unfold jhs_F8 in E. apply (xor_lists_inj 128) in E; [|exact M2|apply jhs_degroup_len..].
  apply jhs_E8_inj in E; [|apply (xor_wlist 8 128); assumption..].
  apply (xor_lists_inj 128) in E; [exact E|apply M1|apply Hx|apply Hy].
Qed.

(** LSH: the whole compression function, for a fixed block. *)
Lemma lsh_rearr w t b J : w = 32 \/ w = 64 -> bytes_ok b ->
  (forall S, exists v, lsh_block Masked w S t b = Ok v) /\
  rearranges w 16 (fun S => firstn 16 (ok_or [] (lsh_block Masked w (S ++ J) t b))).
Proof.
  intros Hw Hb. split; [intros S; exists (lsh_pure w S t b); apply lsh_block_pure; exact Hw|].
  destruct (lss_CF_inj w b Hw Hb) as [I K]. apply (rearr_ext _ _ _ (fun cv => lss_CF w cv b)); [|exact I|exact K].
  intros S [L _]. rewrite lsh_block_pure by exact Hw. cbn [ok_or].
  destruct (lsh_pure_ok w (S ++ J) t b Hw ltac:(rewrite app_length; lia)) as [E _]. rewrite E. f_equal.
  rewrite firstn_app, L, Nat.sub_diag, firstn_O, app_nil_r. apply firstn_all2. lia.
Qed.

(** Groestl and Kupyna: P(h + m) + Q(m) + h, with the first [C] words of [h] used. *)
Lemma firstn_app_exact {A} (a b : list A) n : length a = n -> firstn n (a ++ b) = a.
Proof. intros <-. rewrite firstn_app, Nat.sub_diag, firstn_O, app_nil_r. apply firstn_all. Qed.
Lemma shift_inj C (P Q : list N -> list N) m : cbytes C m -> length (Q m) = (8 * C)%nat -> (forall x, cbytes C x -> length (P x) = (8 * C)%nat) -> inj_on (cbytes C) P ->
  inj_on (cbytes C) (fun x => col_xor (P (col_xor x m)) (Q m)).
Proof.
  intros Hm LQ LP I x y Hx Hy E. apply (xor_lists_inj (8 * C)) in E; [|exact LQ|apply LP, col_xor_bytes; assumption..].
  apply I in E; [|apply col_xor_bytes; assumption..]. apply (col_xor_inj C m) in E; auto. apply Hm.
Qed.
Lemma grs_P_bytes C x : (C <= 16)%nat -> cbytes C x -> cbytes C (grs_P C x) /\ cbytes C (grs_Q C x).
Proof.
  intros HC Hx. assert (R : (grs_r C < 256)%nat) by (unfold grs_r; destruct (_ =? _)%nat; lia). split.
  - apply (grs_perm_inj C (grs_constP C) (grs_sigmaP C) (fun i Hi => proj1 (grs_const_bytes C i HC Hi)) (grs_r C) R). exact Hx.
  - apply (grs_perm_inj C (grs_constQ C) (grs_sigmaQ C) (fun i Hi => proj2 (grs_const_bytes C i HC Hi)) (grs_r C) R). exact Hx.
Qed.
Lemma col_view C (step : list N -> list N) (f : list N -> list N) x J :
  (forall h, length h = 16%nat -> words_bytes 8 (firstn C (step h)) = f (words_bytes 8 (firstn C h))) -> (C <= 16)%nat -> length J = (16 - C)%nat -> cbytes C x ->
  words_bytes 8 (firstn C (step (le_words 8 C x ++ J))) = f x.
Proof.
  intros E HC HJ Hx. rewrite E by (rewrite app_length, le_words_length; lia). rewrite firstn_app_exact by apply le_words_length. rewrite (wb_le_words C) by exact Hx. reflexivity.
Qed.
Lemma groestl_rearr hs t b J : 0 < hs <= 512 /\ hs mod 8 = 0 -> block_ok (cl_bs hs) b -> length J = (16 - cl_R hs)%nat ->
  rearranges 8 (8 * cl_R hs) (fun x => xored (words_bytes 8 (firstn (cl_R hs) (gr_step hs (le_words 8 (cl_R hs) x ++ J) t b))) x).
Proof.
  intros Hs Hb HJ. destruct (gr_dims hs Hs) as (ER & Eb & _ & HC & _). rewrite ER in *. set (C := grs_C hs) in *.
  assert (Hm : cbytes C b) by (rewrite Eb in Hb; exact Hb). pose proof (proj2 (grs_P_bytes C b HC Hm)) as HQ.
  apply (rearr_ext _ _ _ (fun x => col_xor (grs_P C (col_xor x b)) (grs_Q C b))).
  - intros x Hx. rewrite (col_view C (fun h => gr_step hs h t b) (fun x => grs_f C x b)); auto; [|intros h Lh; apply (gr_step_ok hs Hs h t b Lh Hb)].
    unfold grs_f. apply xored_back'. rewrite (proj1 Hx). exact (proj1 (col_xor_bytes C _ _ HQ (proj1 (grs_P_bytes C _ HC (col_xor_bytes C _ _ Hm Hx))))).
  - exact (shift_inj C (grs_P C) (grs_Q C) b Hm (proj1 HQ) (fun x Hx => proj1 (proj1 (grs_P_bytes C x HC Hx))) (proj1 (grs_PQ_inj C HC))).
  - intros x Hx. exact (col_xor_bytes C _ _ HQ (proj1 (grs_P_bytes C _ HC (col_xor_bytes C _ _ Hm Hx)))).
Qed.
Lemma kus_Tx_bytes C x : (C <= 16)%nat -> cbytes C x -> cbytes C (kus_Tx C x) /\ cbytes C (kus_Tp C x).
Proof.
  assert (G : forall (f : list N -> nat -> list N) l x, (forall a i, cbytes C (f a i)) -> cbytes C x -> cbytes C (fold_left f l x)).
  { intros f l. induction l; intros y F Hy; [exact Hy|]. cbn [fold_left]. auto. }
  intros HC Hx. split; apply G; auto; intros; apply kus_layer_bytes.
Qed.
Lemma kupyna_rearr hs t b J : hs = 256 \/ hs = 512 -> block_ok (cl_bs hs) b -> length J = (16 - cl_R hs)%nat ->
  rearranges 8 (8 * cl_R hs) (fun x => xored (words_bytes 8 (firstn (cl_R hs) (ku_step hs (le_words 8 (cl_R hs) x ++ J) t b))) x).
Proof.
  intros Hs Hb HJ. destruct (ku_dims hs Hs) as (ER & Eb & _ & HC & _). rewrite ER in *. set (C := kus_C hs) in *.
  assert (Hm : cbytes C b) by (rewrite Eb in Hb; exact Hb). pose proof (proj2 (kus_Tx_bytes C b HC Hm)) as HQ.
  apply (rearr_ext _ _ _ (fun x => col_xor (kus_Tx C (col_xor x b)) (kus_Tp C b))).
  - intros x Hx. rewrite (col_view C (fun h => ku_step hs h t b) (fun x => kus_f C x b)); auto; [|intros h Lh; apply (ku_step_ok hs Hs h t b Lh Hb)].
    unfold kus_f. apply xored_back'. rewrite (proj1 Hx). exact (proj1 (col_xor_bytes C _ _ HQ (proj1 (kus_Tx_bytes C _ HC (col_xor_bytes C _ _ Hm Hx))))).
  - exact (shift_inj C (kus_Tx C) (kus_Tp C) b Hm (proj1 HQ) (fun x Hx => proj1 (proj1 (kus_Tx_bytes C x HC Hx))) (proj1 (kus_T_inj C HC))).
  - intros x Hx. exact (col_xor_bytes C _ _ HQ (proj1 (kus_Tx_bytes C _ HC (col_xor_bytes C _ _ Hm Hx)))).
Qed.

(** Whirlpool: the cipher with the chaining value as key, on the block. *)
Lemma wp_W_bytes K m : cbytes 8 K -> cbytes 8 m -> cbytes 8 (wp_W K m).
Proof.
  assert (G : forall l K A, Forall (fun r => r <= 31)%nat l -> cbytes 8 K -> cbytes 8 A -> cbytes 8
    (snd (fold_left (fun ks r => let K' := wp_rho (wp_c r) (fst ks) in (K', wp_rho K' (snd ks))) l (K, A)))).
  { induction l as [|r l IH]; intros K' A Hl HK HA; [exact HA|]. inversion Hl; subst. cbn [fold_left fst snd].
    assert (HK' : cbytes 8 (wp_rho (wp_c r) K')) by auto using wp_rho_bytes, wp_c_bytes. apply IH; auto using wp_rho_bytes. }
  intros HK Hm. unfold wp_W. apply G; auto.
  - apply Forall_forall. intros i Hi. apply in_seq in Hi. lia.
  - apply col_xor_bytes; assumption.
Qed.
Lemma whirlpool_rearr h t : length h = 8%nat ->
  rearranges 8 64 (fun m => xored (xored (words_bytes 8 (wp_block h t m)) m) (words_bytes 8 h)).
Proof.
  intros Lh. pose proof (wb_wlist 8 h Lh) as HH. apply (rearr_ext _ _ _ (wp_W (words_bytes 8 h))).
  - intros m Hm. destruct (wp_block_eq h t m Lh Hm) as [E _]. rewrite E. unfold wp_compress. pose proof (wp_W_bytes _ m HH Hm) as HW.
    rewrite xored_back'; [apply xored_back'; rewrite (proj1 HW), (proj1 HH); reflexivity|].
    rewrite (proj1 (xor_wlist 8 64 _ _ HW HH)), (proj1 Hm). reflexivity.
  - apply wp_W_inj. exact HH.
  - intros m Hm. apply wp_W_bytes; assumption.
Qed.

(** Streebog: the cipher E on the block, for every key. *)
Lemma streebog_rearr K : length K = 8%nat -> rearranges 8 64 (fun m => words_bytes 8 (sb_e K (le_words 8 8 m))).
Proof.
  intros LK. pose proof (wb_wlist 8 K LK) as HK.
  assert (S : forall m, wlist 8 64 m -> words_bytes 8 (sb_e K (le_words 8 8 m)) = sbs_E (words_bytes 8 K) m /\ wlist 8 64 (sbs_E (words_bytes 8 K) m)).
  { intros m Hm. destruct (sb_e_ok K (le_words 8 8 m) LK (le_words_length _ _ _)) as [E L]. rewrite (wb_le_words 8) in E by exact Hm.
    split; [exact E|]. rewrite <- E. apply (wb_wlist 8). exact L. }
  apply (rearr_ext _ _ _ (sbs_E (words_bytes 8 K))); [apply S|apply sbs_E_inj; exact HK|apply S].
Qed.

(** ECHO: the rounds on the whole state, for every salt and counter. *)
Lemma concat_vw w : length w = 32%nat -> concat (view 16 w) = words_bytes 8 w.
Proof. intros L. apply (concat_view 256 ltac:(split; [split; [reflexivity|discriminate]|reflexivity]) w 16). exact L. Qed.
Lemma concat_inj {A} k : forall (s t : list (list A)), Forall (fun x => length x = k) s -> Forall (fun x => length x = k) t -> length s = length t ->
  concat s = concat t -> s = t.
Proof.
  induction s as [|a s IH]; destruct t as [|b t]; intros Hs Ht L E; try discriminate L; [reflexivity|]. inversion Hs; inversion Ht; subst. cbn [concat] in E.
  apply PadInj.app_inj_head_len in E; [|congruence]. destruct E as [-> E]. f_equal. apply IH; auto.
Qed.
Lemma view_est w : length w = 32%nat -> est (view 16 w).
Proof.
  intros L. split; [unfold view; rewrite map_length; apply seq_length|]. apply Forall_forall. intros x Hx. apply in_map_iff in Hx. destruct Hx as (i & <- & _).
  split; [unfold vw; rewrite app_length, !le_bytes_length; reflexivity|]. apply Forall_app. split; apply le_bytes_ok.
Qed.
Lemma est_len s : est s -> Forall (fun x => length x = 16%nat) s.
Proof. intros [_ H]. eapply Forall_impl; [|exact H]. intros a [L _]. exact L. Qed.
Lemma echo_rearr s0 s1 k n : k < 2 ^ 64 ->
  rearranges 8 256 (fun x => words_bytes 8 (fst (Nat.iter n (ec_round [s0; s1]) (le_words 8 32 x, k)))).
Proof.
  intros Hk. set (salt := le_bytes 8 s0 ++ le_bytes 8 s1). assert (Hsalt : bytes_ok salt) by (apply Forall_app; split; apply le_bytes_ok).
  set (F := fun s => fold_left (big_round salt k) (seq 0 n) s). destruct (big_rounds_inj salt k (seq 0 n) Hsalt) as [I K].
  change (inj_on est F) in I. change (forall s, est s -> est (F s)) in K.
  assert (S : forall x, wlist 8 256 x -> words_bytes 8 (fst (Nat.iter n (ec_round [s0; s1]) (le_words 8 32 x, k))) = concat (F (view 16 (le_words 8 32 x))) /\
    wlist 8 256 (concat (F (view 16 (le_words 8 32 x))))).
  { intros x Hx. destruct (ec_rounds_ok s0 s1 (le_words 8 32 x) k n (le_words_length _ _ _) Hk) as (L & _ & E). fold salt in E.
    change (fold_left (big_round salt k) (seq 0 n) (view 16 (le_words 8 32 x))) with (F (view 16 (le_words 8 32 x))) in E.
    rewrite <- E, concat_vw by exact L. split; [reflexivity|]. apply (wb_wlist 32). exact L. }
  apply (rearr_ext _ _ _ (fun x => concat (F (view 16 (le_words 8 32 x))))); [apply S| |apply S].
  intros x y Hx Hy E. assert (V : forall z, est (view 16 (le_words 8 32 z))) by (intros; apply view_est, le_words_length).
  apply (concat_inj 16) in E; [|apply est_len, K, V..|rewrite (proj1 (K _ (V x))), (proj1 (K _ (V y))); reflexivity].
  apply I in E; [|apply V..]. apply (f_equal (@concat N)) in E. rewrite !concat_vw in E by apply le_words_length.
  rewrite !(wb_le_words 32) in E by assumption. exact E.
Qed.

(** The other permutation of Groestl and Kupyna: with the chaining value equal to the block
    the first one is applied to zeros. *)
Lemma col_xor_self : forall a, col_xor a a = zeros (length a).
Proof. unfold col_xor. induction a as [|x a IH]; [reflexivity|]. cbn [map2 length]. rewrite N.lxor_nilpotent, IH. reflexivity. Qed.
Lemma cbytes_zeros C : cbytes C (zeros (8 * C)).
Proof. split; [apply zeros_length|]. apply Forall_forall. intros z Hz. apply repeat_spec in Hz. subst. reflexivity. Qed.
Lemma same_inj C (P Q : list N -> list N) : cbytes C (P (zeros (8 * C))) -> (forall x, cbytes C x -> cbytes C (Q x)) -> inj_on (cbytes C) Q ->
  inj_on (cbytes C) (fun x => col_xor (P (col_xor x x)) (Q x)) /\ forall x, cbytes C x -> cbytes C (col_xor (P (col_xor x x)) (Q x)).
Proof.
  intros HP HQ I.
  assert (E : forall x, cbytes C x -> col_xor (P (col_xor x x)) (Q x) = col_xor (Q x) (P (zeros (8 * C)))).
  { intros x Hx. rewrite col_xor_self, (proj1 Hx). unfold col_xor. apply map2_comm. apply N.lxor_comm. }
  split.
  - intros x y Hx Hy F. rewrite !E in F by assumption. apply (col_xor_inj C _ (proj1 HP)) in F; auto.
  - intros x Hx. rewrite E by exact Hx. exact (col_xor_bytes C _ _ HP (HQ x Hx)).
Qed.
Lemma groestl_rearrQ hs t J : 0 < hs <= 512 /\ hs mod 8 = 0 -> length J = (16 - cl_R hs)%nat ->
  rearranges 8 (8 * cl_R hs) (fun x => xored (words_bytes 8 (firstn (cl_R hs) (gr_step hs (le_words 8 (cl_R hs) x ++ J) t x))) x).
Proof.
  intros Hs HJ. destruct (gr_dims hs Hs) as (ER & Eb & _ & HC & _). rewrite ER in *. set (C := grs_C hs) in *.
  destruct (same_inj C (grs_P C) (grs_Q C) (proj1 (grs_P_bytes C _ HC (cbytes_zeros C))) (fun x Hx => proj2 (grs_P_bytes C x HC Hx)) (proj2 (grs_PQ_inj C HC))) as [I K].
  apply (rearr_ext _ _ _ (fun x => col_xor (grs_P C (col_xor x x)) (grs_Q C x))); [|exact I|exact K].
  intros x Hx. assert (Hb : block_ok (cl_bs hs) x) by (rewrite Eb; exact Hx).
  rewrite (col_view C (fun h => gr_step hs h t x) (fun y => grs_f C y x)); auto; [|intros h Lh; apply (gr_step_ok hs Hs h t x Lh Hb)].
  unfold grs_f. apply xored_back'. rewrite (proj1 Hx). exact (proj1 (K x Hx)).
Qed.
Lemma kupyna_rearrQ hs t J : hs = 256 \/ hs = 512 -> length J = (16 - cl_R hs)%nat ->
  rearranges 8 (8 * cl_R hs) (fun x => xored (words_bytes 8 (firstn (cl_R hs) (ku_step hs (le_words 8 (cl_R hs) x ++ J) t x))) x).
Proof.
  intros Hs HJ. destruct (ku_dims hs Hs) as (ER & Eb & _ & HC & _). rewrite ER in *. set (C := kus_C hs) in *.
  destruct (same_inj C (kus_Tx C) (kus_Tp C) (proj1 (kus_Tx_bytes C _ HC (cbytes_zeros C))) (fun x Hx => proj2 (kus_Tx_bytes C x HC Hx)) (proj2 (kus_T_inj C HC))) as [I K].
  apply (rearr_ext _ _ _ (fun x => col_xor (kus_Tx C (col_xor x x)) (kus_Tp C x))); [|exact I|exact K].
  intros x Hx. assert (Hb : block_ok (cl_bs hs) x) by (rewrite Eb; exact Hx).
  rewrite (col_view C (fun h => ku_step hs h t x) (fun y => kus_f C y x)); auto; [|intros h Lh; apply (ku_step_ok hs Hs h t x Lh Hb)].
  unfold kus_f. apply xored_back'. rewrite (proj1 Hx). exact (proj1 (K x Hx)).
Qed.
