(** * Parameters, sizes and messages bound together (C53). *)
From Verif Require Import Base Lemmas WordLemmas TableLemmas SpecCommon Hasher HasherSpec HasherProof Library LibraryProof XLibraryProof LibraryTypes
  LibraryTypesProof Blake2 Blake2p Blake2Spec Blake2pSpec Blake2Sim Blake2pSim BlakeSpec BlakeProof EchoSpec EchoSim SkeinSpec SkeinSim Inputs PadInj PadInjSponge Process
  ProcessTypes.

(** ** The parameter block of BLAKE2 *)

(** Field sizes of the parameter block (BLAKE2 paper 2.5). Specification; no code of /repo. *)
Definition tree_ok (w : N) (t : tree) : Prop :=
  t_len t < 256 /\ t_key t < 256 /\ t_fanout t < 256 /\ t_depth t < 256 /\ t_leaf t < 2 ^ 32 /\
  t_noff t < (if w =? 64 then 2 ^ 64 else 2 ^ 48) /\ t_ndepth t < 256 /\ t_inner t < 256.
(** Specification; no code of /repo. *)
Definition half_ok (w : N) (s : list N) : Prop := length s = (2 * wb w)%nat /\ is_bytes s.

Lemma lxor_inj_r a b c : N.lxor c a = N.lxor c b -> a = b.
Proof. intros E. apply (f_equal (N.lxor c)) in E. rewrite <- !N.lxor_assoc, N.lxor_nilpotent, !N.lxor_0_l in E. exact E. Qed.
Lemma map2_lxor_inj c : forall a b, length a = length c -> length b = length c -> map2 N.lxor c a = map2 N.lxor c b -> a = b.
Proof.
  induction c as [|x c IH]; intros [|y a] [|z b] Ha Hb E; cbn [length] in *; try lia; [reflexivity|].
  cbn [map2] in E. injection E as E1 E2. apply lxor_inj_r in E1. subst. f_equal. apply IH; auto.
Qed.
Lemma le_words_inj k n a b : bytes_ok a -> bytes_ok b -> length a = (n * k)%nat -> length b = (n * k)%nat ->
  le_words k n a = le_words k n b -> a = b.
Proof. intros Ha Hb La Lb E. apply (f_equal (words_bytes k)) in E. rewrite !words_bytes_le_words in E by auto. exact E. Qed.

Lemma one_byte x : x < 256 -> is_bytes [x].
Proof. intros H. repeat constructor. exact H. Qed.
Lemma param_block_ok w t s p : w = 64 \/ w = 32 -> tree_ok w t -> half_ok w s -> half_ok w p ->
  is_bytes (param_block w t s p) /\ length (param_block w t s p) = (8 * wb w)%nat.
Proof.
  intros Hw (A & B & C & D & E & F & G & I) [Ls Bs] [Lp Bp]. unfold param_block. split.
  - repeat apply is_bytes_app; auto; try (repeat constructor; assumption); try apply le_bytes_ok.
    destruct (w =? 64); repeat apply is_bytes_app; try apply le_bytes_ok; repeat constructor; assumption.
  - rewrite !app_length, Ls, Lp, le_bytes_length. destruct Hw; subst; reflexivity.
Qed.
Lemma init_h_inj w t1 t2 s1 s2 p1 p2 : w = 64 \/ w = 32 -> tree_ok w t1 -> tree_ok w t2 ->
  half_ok w s1 -> half_ok w s2 -> half_ok w p1 -> half_ok w p2 ->
  init_h w t1 s1 p1 = init_h w t2 s2 p2 -> t1 = t2 /\ s1 = s2 /\ p1 = p2.
Proof.
  intros Hw T1 T2 S1 S2 P1 P2 E. unfold init_h in E.
  destruct (param_block_ok w t1 s1 p1 Hw T1 S1 P1) as [B1 L1].
  destruct (param_block_ok w t2 s2 p2 Hw T2 S2 P2) as [B2 L2].
  assert (LI : length (IV2 w) = 8%nat) by (unfold IV2; destruct (w =? 64); reflexivity).
  apply map2_lxor_inj in E; [|rewrite le_words_length; auto..].
  apply le_words_inj in E; auto. clear B1 B2 L1 L2. unfold param_block in E.
  apply app_inj_head_len in E; [|reflexivity]. destruct E as [E0 E]. injection E0 as E1 E2 E3 E4.
  apply app_inj_head_len in E; [|rewrite !le_bytes_length; reflexivity]. destruct E as [E5 E].
  destruct T1 as (A1 & A2 & A3 & A4 & A5 & A6 & A7 & A8). destruct T2 as (C1 & C2 & C3 & C4 & C5 & C6 & C7 & C8).
  destruct t1 as [a1 a2 a3 a4 a5 a6 a7 a8], t2 as [b1 b2 b3 b4 b5 b6 b7 b8].
  cbn [t_len t_key t_fanout t_depth t_leaf t_noff t_ndepth t_inner] in *.
  apply le_bytes_inj in E5; [|assumption..].
  destruct S1 as [S1 _], S2 as [S2 _], P1 as [P1 _], P2 as [P2 _].
  assert (X : a6 = b6 /\ a7 = b7 /\ a8 = b8 /\ s1 ++ p1 = s2 ++ p2).
  { destruct (w =? 64); rewrite <- !app_assoc in E;
      (apply app_inj_head_len in E; [|rewrite !le_bytes_length; reflexivity]); destruct E as [E6 E];
      apply le_bytes_inj in E6; try assumption;
      (apply app_inj_head_len in E; [|reflexivity]); destruct E as [E7 E]; injection E7 as E7 E8; repeat split; auto.
    apply app_inv_head in E. exact E. }
  destruct X as (-> & -> & -> & X). apply app_inj_head_len in X; [|congruence]. destruct X as [-> ->]. subst. auto.
Qed.

(** ** BLAKE2 and BLAKE2X: the functions with one word size *)

(** A digest of [nn] bytes, or BLAKE2X with the value [L] of the XOF length field.
    Specification; no code of /repo. *)
Inductive b2_kind := KHash (nn : N) | KX (L : N).
(** Specification; no code of /repo. *)
Definition b2_iv (w : N) (k : b2_kind) (p : b2_params) : list N :=
  match k with
  | KHash nn => init_h w (seq_tree nn (pk p) 0) (ps p) (pp p)
  | KX L => init_h w (seq_tree (N.of_nat (hb w)) (pk p) (xfield w 0 L)) (ps p) (pp p)
  end.
(** Specification; no code of /repo. *)
Definition kind_ok (w : N) (k : b2_kind) : Prop :=
  match k with KHash nn => 0 < nn <= w | KX L => 0 < L <= x_unknown w end.
(** Specification; no code of /repo. *)
Definition b2_params_ok (w : N) (p : b2_params) : Prop :=
  is_bytes (pk p) /\ (length (pk p) <= hb w)%nat /\ half_ok w (ps p) /\ half_ok w (pp p).

Lemma sizes_b2 w : w = 64 \/ w = 32 -> (hb w <= 64)%nat /\ (0 < bb w <= 128)%nat /\ (hb w <= bb w)%nat /\ w <= 64 /\ N.of_nat (hb w) = w.
Proof. intros [-> | ->]; vm_compute; repeat split; (lia || discriminate || reflexivity). Qed.
Lemma xfield_0 w L : xfield w 0 L = L * 2 ^ 32.
Proof. unfold xfield. destruct (w =? 64); apply N.lxor_0_l. Qed.
Lemma x_unknown_field w L : w = 64 \/ w = 32 -> L <= x_unknown w -> L * 2 ^ 32 < (if w =? 64 then 2 ^ 64 else 2 ^ 48).
Proof. intros [-> | ->] H; unfold x_unknown in H; cbn [N.eqb Pos.eqb] in H |- *; lia. Qed.
Lemma seq_tree_ok w nn key noff : w = 64 \/ w = 32 -> nn <= 64 -> (length key <= hb w)%nat ->
  noff < (if w =? 64 then 2 ^ 64 else 2 ^ 48) -> tree_ok w (seq_tree nn key noff).
Proof.
  intros Hw Hn Hk Ho. pose proof (sizes_b2 w Hw). unfold tree_ok. cbn [seq_tree t_len t_key t_fanout t_depth t_leaf t_noff t_ndepth t_inner].
  repeat split; try lia; try exact Ho.
Qed.
Lemma key_split w k1 k2 m1 m2 : length k1 = length k2 -> key_pad w k1 ++ m1 = key_pad w k2 ++ m2 -> k1 = k2 /\ m1 = m2.
Proof.
  intros L E. destruct k1 as [|a k1], k2 as [|b k2]; cbn [length] in L; try lia; [auto|]. unfold key_pad in E.
  replace (length (b :: k2)) with (length (a :: k1)) in E by (cbn [length]; lia). rewrite <- !app_assoc in E.
  apply app_inj_head_len in E; [|cbn [length]; lia]. destruct E as [E1 E2]. apply app_inv_head in E2. auto.
Qed.
Lemma b2_bind w k1 k2 p1 p2 m1 m2 : w = 64 \/ w = 32 -> kind_ok w k1 -> kind_ok w k2 -> b2_params_ok w p1 -> b2_params_ok w p2 ->
  b2_iv w k1 p1 = b2_iv w k2 p2 ->
  blake2_inputs w (key_pad w (pk p1) ++ m1) = blake2_inputs w (key_pad w (pk p2) ++ m2) ->
  k1 = k2 /\ p1 = p2 /\ m1 = m2.
Proof.
  intros Hw K1 K2 (A1 & A2 & A3 & A4) (B1 & B2 & B3 & B4) E I.
  destruct (sizes_b2 w Hw) as (S1 & S2 & S3 & S4 & S5).
  apply blake2_inputs_inj in I; [|exact S2].
  assert (X : k1 = k2 /\ length (pk p1) = length (pk p2) /\ ps p1 = ps p2 /\ pp p1 = pp p2).
  { destruct k1 as [n1|l1], k2 as [n2|l2]; cbn [b2_iv kind_ok] in *; rewrite ?xfield_0 in E;
      (apply init_h_inj in E; [|exact Hw|apply seq_tree_ok|apply seq_tree_ok|assumption..]);
      try exact Hw; try lia; try assumption; try (apply (x_unknown_field w); tauto);
      try (destruct (w =? 64); reflexivity); destruct E as (E & E1 & E2); unfold seq_tree in E;
      injection E as E3 E4; try lia; repeat split; auto; try lia; f_equal; lia. }
  destruct X as (-> & L & E1 & E2). split; [reflexivity|].
  apply key_split in I; [|exact L]. destruct I as [E3 E4]. split; [|exact E4].
  destruct p1, p2; cbn in *; congruence.
Qed.

(** Nodes: the output nodes of BLAKE2X and the leaves and root of BLAKE2bp/sp.
    Specification; no code of /repo. *)
Inductive b2_node :=
| NSeq (k : b2_kind) (klen : nat)
| NOut (i : N) (j : nat) (L : N)          (* output node [i] of [j] bytes *)
| NLeaf (nn : N) (klen : nat) (i : nat)   (* leaf [i] *)
| NRoot (nn : N) (klen : nat).
(** Specification; no code of /repo. *)
Definition node_tree (w : N) (n : b2_node) : tree :=
  match n with
  | NSeq (KHash nn) klen => mktree nn (N.of_nat klen) 1 1 0 0 0 0
  | NSeq (KX L) klen => mktree (N.of_nat (hb w)) (N.of_nat klen) 1 1 0 (xfield w 0 L) 0 0
  | NOut i j L => mktree (N.of_nat j) 0 0 0 (N.of_nat (hb w)) (xfield w i L) 0 (N.of_nat (hb w))
  | NLeaf nn klen i => par_tree w nn klen (N.of_nat i) 0
  | NRoot nn klen => par_tree w nn klen 0 1
  end.
(** Specification; no code of /repo. *)
Definition node_ok (w : N) (n : b2_node) : Prop :=
  match n with
  | NSeq k klen => kind_ok w k /\ (klen <= hb w)%nat
  | NOut i j L => i < 2 ^ 32 /\ (0 < j <= hb w)%nat /\ 0 < L <= x_unknown w
  | NLeaf nn klen i => 0 < nn <= w /\ (klen <= hb w)%nat /\ (i < degree w)%nat
  | NRoot nn klen => 0 < nn <= w /\ (klen <= hb w)%nat
  end.
Lemma xfield_sum w i L : i < 2 ^ 32 -> xfield w i L = i + L * 2 ^ 32.
Proof.
  intros Hi. unfold xfield. replace (if w =? 64 then i else i mod 2 ^ 32) with i
    by (destruct (w =? 64); [reflexivity|symmetry; apply N.mod_small; exact Hi]).
  rewrite <- N.shiftl_mul_pow2. symmetry. apply N.add_nocarry_lxor.
  apply N.bits_inj. intros k. rewrite N.land_spec, N.bits_0. destruct (N.lt_ge_cases k 32) as [H|H].
  - rewrite N.shiftl_spec_low by exact H. apply andb_false_r.
  - rewrite (N.mod_small i (2 ^ 32) Hi) in * || idtac.
    destruct (N.eq_dec i 0) as [->|Hz]; [rewrite N.bits_0; reflexivity|].
    rewrite (N.bits_above_log2 i k); [reflexivity|]. apply N.log2_lt_pow2 in Hi; lia.
Qed.
Lemma node_tree_ok w n : w = 64 \/ w = 32 -> node_ok w n -> tree_ok w (node_tree w n).
Proof.
  intros Hw H. destruct (sizes_b2 w Hw) as (S1 & S2 & S3 & S4 & S5).
  assert (D : (degree w <= 8)%nat) by (destruct Hw; subst; vm_compute; lia).
  assert (O : forall x, x < 2 ^ 48 -> x < (if w =? 64 then 2 ^ 64 else 2 ^ 48)) by (intros x Hx; destruct (w =? 64); lia).
  assert (X : forall i L, i < 2 ^ 32 -> L <= x_unknown w -> i + L * 2 ^ 32 < (if w =? 64 then 2 ^ 64 else 2 ^ 48)).
  { intros i L Hi HL. unfold x_unknown in HL. destruct Hw; subst; cbn [N.eqb Pos.eqb] in HL |- *; lia. }
  destruct n as [[nn|L] klen|i j L|nn klen i|nn klen]; cbn [node_ok kind_ok] in H; unfold tree_ok, par_tree;
    cbn [node_tree par_tree t_len t_key t_fanout t_depth t_leaf t_noff t_ndepth t_inner];
    repeat split; try lia; try (apply O; lia); rewrite xfield_sum by lia; apply X; lia.
Qed.
Lemma node_tree_inj w n1 n2 : w = 64 \/ w = 32 -> node_ok w n1 -> node_ok w n2 -> node_tree w n1 = node_tree w n2 -> n1 = n2.
Proof.
  intros Hw H1 H2 E. destruct (sizes_b2 w Hw) as (S1 & S2 & S3 & S4 & S5).
  assert (D : (2 <= degree w)%nat) by (destruct Hw; subst; vm_compute; lia).
  destruct n1 as [[nn1|L1] kl1|i1 j1 L1|nn1 kl1 i1|nn1 kl1], n2 as [[nn2|L2] kl2|i2 j2 L2|nn2 kl2 i2|nn2 kl2];
    cbn [node_ok kind_ok] in *; cbn [node_tree] in E; unfold par_tree in E;
    rewrite ?xfield_sum in E by lia; injection E; intros; try lia; repeat f_equal; try lia.
Qed.
Lemma node_bind w n1 n2 s1 s2 p1 p2 : w = 64 \/ w = 32 -> node_ok w n1 -> node_ok w n2 ->
  half_ok w s1 -> half_ok w s2 -> half_ok w p1 -> half_ok w p2 ->
  init_h w (node_tree w n1) s1 p1 = init_h w (node_tree w n2) s2 p2 -> n1 = n2 /\ s1 = s2 /\ p1 = p2.
Proof.
  intros Hw H1 H2 A B C D E. apply init_h_inj in E; auto; try (apply node_tree_ok; assumption).
  destruct E as (E & E1 & E2). apply node_tree_inj in E; auto.
Qed.
(** The whole tree: equal leaves (initial values and inputs) come from equal arguments. *)
Lemma b2p_bind w nn1 nn2 p1 p2 m1 m2 : w = 64 \/ w = 32 -> 0 < nn1 <= w -> 0 < nn2 <= w -> b2_params_ok w p1 -> b2_params_ok w p2 ->
  init_h w (par_tree w nn1 (length (pk p1)) 0 0) (ps p1) (pp p1) = init_h w (par_tree w nn2 (length (pk p2)) 0 0) (ps p2) (pp p2) ->
  blake2p_inputs w (pk p1) m1 = blake2p_inputs w (pk p2) m2 -> nn1 = nn2 /\ p1 = p2 /\ m1 = m2.
Proof.
  intros Hw N1 N2 (A1 & A2 & A3 & A4) (B1 & B2 & B3 & B4) E I.
  destruct (sizes_b2 w Hw) as (S1 & S2 & S3 & S4 & S5).
  assert (D : (0 < degree w)%nat) by (destruct Hw; subst; vm_compute; lia).
  apply (node_bind w (NLeaf nn1 (length (pk p1)) 0) (NLeaf nn2 (length (pk p2)) 0)) in E; try (cbn [node_ok]; repeat split; lia); auto.
  destruct E as (E & E1 & E2). injection E as E3 E4.
  pose proof (map_eq_at _ _ _ 0%nat I ltac:(apply in_seq; lia)) as I0. cbv beta in I0.
  apply blake2_inputs_inj in I0; [|exact S2]. apply key_split in I0; [|exact E4]. destruct I0 as [E5 _].
  rewrite <- E5 in I. apply blake2p_inputs_inj in I; [|exact Hw].
  repeat split; auto. destruct p1, p2; cbn in *; congruence.
Qed.

(** ** Skein: all UBI inputs, from the zero state on *)
(** Specification; no code of /repo. *)
Definition skein_opt (nw : nat) (ty : N) (M : list N) : list (list N * N) :=
  match M with [] => [] | _ => skein_inputs nw ty M end.
(** Specification; no code of /repo. *)
Definition skein_all_inputs (nw : nat) (No : N) (p : skein_params) (m : list N) : list (list N * N) :=
  skein_opt nw T_key (sk_key p) ++ skein_inputs nw T_cfg (skein_config No) ++
  skein_opt nw T_prs (sk_pers p) ++ skein_opt nw T_non (sk_nonce p) ++ skein_inputs nw T_msg m.
(** Specification; no code of /repo. *)
Definition tweak_type (t : N) : N := t / 2 ^ 120 mod 2 ^ 6.
Lemma tweak_type_ok ty pos f l : ty < 2 ^ 6 -> tweak_type (ubi_tweak ty pos f l) = ty.
Proof.
  intros H. unfold tweak_type, ubi_tweak. pose proof (N.mod_upper_bound pos (2 ^ 64) ltac:(discriminate)) as P.
  generalize dependent (pos mod 2 ^ 64). intros a Ha.
  replace (a + ty * 2 ^ 120 + (if f then 2 ^ 126 else 0) + (if l then 2 ^ 127 else 0))
    with (a + (ty + ((if f then 1 else 0) + (if l then 2 else 0)) * 2 ^ 6) * 2 ^ 120) by (destruct f, l; lia).
  rewrite N.div_add by discriminate. rewrite N.div_small by (eapply N.lt_trans; [exact Ha|reflexivity]).
  rewrite N.add_0_l, N.mod_add by discriminate. apply N.mod_small. exact H.
Qed.
(** Specification; no code of /repo. *)
Definition of_type (ty : N) (x : list N * N) : bool := tweak_type (snd x) =? ty.
Lemma filter_inputs nw t ty M : t < 2 ^ 6 -> filter (of_type ty) (skein_inputs nw t M) = if t =? ty then skein_inputs nw t M else [].
Proof.
  intros Ht. unfold skein_inputs. cbv zeta. generalize (seq 0 (ubi_count nw (length M))) as l.
  intros l. set (k := ubi_count nw (length M)). clearbody k. induction l as [|i l IH]; cbn [map filter]; [destruct (t =? ty); reflexivity|].
  rewrite IH. unfold of_type at 1. cbn [snd]. rewrite tweak_type_ok by exact Ht. destruct (t =? ty); reflexivity.
Qed.
Lemma filter_opt nw t ty M : t < 2 ^ 6 -> filter (of_type ty) (skein_opt nw t M) = if t =? ty then skein_opt nw t M else [].
Proof. intros H. destruct M; [cbn; destruct (t =? ty); reflexivity|]. apply filter_inputs. exact H. Qed.
Lemma skein_inputs_cons nw ty M : skein_inputs nw ty M <> [].
Proof.
  unfold skein_inputs. cbv zeta. unfold ubi_count. intros E. apply (f_equal (@length _)) in E.
  rewrite map_length, seq_length in E. cbn [length] in E. lia.
Qed.
Lemma skein_opt_inj nw ty a b : (0 < nw)%nat -> ty < 2 ^ 6 -> N.of_nat (length a) < 2 ^ 64 -> N.of_nat (length b) < 2 ^ 64 ->
  skein_opt nw ty a = skein_opt nw ty b -> a = b.
Proof.
  intros Hn Ht La Lb E. destruct a as [|x a], b as [|y b]; [reflexivity| | |].
  - symmetry in E. apply skein_inputs_cons in E. destruct E.
  - apply skein_inputs_cons in E. destruct E.
  - apply (skein_inputs_inj nw ty); auto.
Qed.
(** Specification; no code of /repo. *)
Definition skein_short (p : skein_params) : Prop :=
  N.of_nat (length (sk_pers p)) < 2 ^ 64 /\ N.of_nat (length (sk_nonce p)) < 2 ^ 64 /\ N.of_nat (length (sk_key p)) < 2 ^ 64.
Lemma skein_bind nw No1 No2 p1 p2 m1 m2 : (0 < nw)%nat -> No1 < 2 ^ 64 -> No2 < 2 ^ 64 -> skein_short p1 -> skein_short p2 ->
  N.of_nat (length m1) < 2 ^ 64 -> N.of_nat (length m2) < 2 ^ 64 ->
  skein_all_inputs nw No1 p1 m1 = skein_all_inputs nw No2 p2 m2 -> No1 = No2 /\ p1 = p2 /\ m1 = m2.
Proof.
  intros Hn N1 N2 (A1 & A2 & A3) (B1 & B2 & B3) L1 L2 E.
  assert (F : forall ty, filter (of_type ty) (skein_all_inputs nw No1 p1 m1) = filter (of_type ty) (skein_all_inputs nw No2 p2 m2))
    by (intros ty; now rewrite E).
  assert (G : forall ty No p m, filter (of_type ty) (skein_all_inputs nw No p m) =
    (if T_key =? ty then skein_opt nw T_key (sk_key p) else []) ++ (if T_cfg =? ty then skein_inputs nw T_cfg (skein_config No) else []) ++
    (if T_prs =? ty then skein_opt nw T_prs (sk_pers p) else []) ++ (if T_non =? ty then skein_opt nw T_non (sk_nonce p) else []) ++
    (if T_msg =? ty then skein_inputs nw T_msg m else [])).
  { intros ty No p m. unfold skein_all_inputs. rewrite !filter_app, !filter_opt, !filter_inputs by reflexivity. reflexivity. }
  pose proof (F T_key) as K. pose proof (F T_cfg) as C. pose proof (F T_prs) as P. pose proof (F T_non) as O. pose proof (F T_msg) as M.
  rewrite !G in K, C, P, O, M. clear E F G.
  cbn [N.eqb Pos.eqb T_key T_cfg T_prs T_non T_msg] in K, C, P, O, M. cbn [app] in K, C, P, O, M. rewrite !app_nil_r in K; rewrite !app_nil_r in C; rewrite !app_nil_r in P; rewrite !app_nil_r in O.
  apply skein_opt_inj in K; auto; [|reflexivity]. apply skein_opt_inj in P; auto; [|reflexivity].
  apply skein_opt_inj in O; auto; [|reflexivity]. apply skein_inputs_inj in M; auto; [|reflexivity].
  apply skein_inputs_inj in C; [|exact Hn|reflexivity|unfold skein_config; rewrite !app_length, le_bytes_length; reflexivity..].
  unfold skein_config in C. apply app_inv_head in C. apply app_inj_head_len in C; [|rewrite !le_bytes_length; reflexivity].
  destruct C as [C _]. apply le_bytes_inj in C; [|exact N1|exact N2].
  repeat split; auto. destruct p1, p2; cbn in *; congruence.
Qed.
