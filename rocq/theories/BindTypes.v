(** * C53 for the types of the library and every history of calls. *)
From Verif Require Import Base Lemmas WordLemmas TableLemmas SpecCommon Hasher HasherSpec HasherProof Library LibraryProof XLibraryProof LibraryTypes
  LibraryTypesProof Blake2 Blake2p Blake2Spec Blake2pSpec Blake2Sim Blake2pSim BlakeSpec BlakeProof EchoSpec EchoSim SkeinSpec SkeinSim Inputs PadInj PadInjSponge Process
  ProcessTypes Bind.

(** ** What holds of the parameters in force *)
Lemma params_inv {P} (T : htype P) (S : hash_spec (p_param P)) (Q : sp_params S -> Prop) : Q (sp_default S) ->
  (forall q v p p', is_bytes v -> Q p -> sp_set S q v p = Some p' -> Q p') ->
  forall ops, hcalls T ops -> Q (params_after S ops).
Proof.
  intros H0 H1 ops Hc. unfold params_after.
  assert (K : forall ops a, hcalls T ops -> Q (fst a) -> Q (fst (ast S a ops))).
  { clear ops Hc. induction ops as [|o r IH]; intros a Hc Ha; [exact Ha|]. rewrite ast_cons.
    inversion Hc as [|? ? Ho Hr]; subst. apply IH; [exact Hr|]. destruct a as [p m]. cbn [fst] in Ha.
    destruct o as [[f d|[]|q v]|buf| |]; try exact Ha; try exact H0.
    cbn [astep abase]. destruct (sp_set S q v p) as [p'|] eqn:E; [|exact Ha]. exact (H1 q v p p' Ho Ha E). }
  exact (K ops (afresh S) Hc H0).
Qed.
Lemma xparams_inv {P} (T : xtype P) (S : xof_spec (p_param P)) (Q : xs_params S -> Prop) : Q (xs_default S) ->
  (forall q v p p', is_bytes v -> Q p -> xs_set S q v p = Some p' -> Q p') ->
  forall ops, xcalls T ops -> Q (xparams_after S ops).
Proof.
  intros H0 H1 ops Hc. unfold xparams_after.
  assert (K : forall ops sq a, xcalls_from T sq ops -> Q (fst (fst a)) -> Q (fst (fst (xst S a ops)))).
  { clear ops Hc. induction ops as [|o r IH]; intros sq a Hc Ha; [exact Ha|]. rewrite xst_cons. destruct a as [[p m] k]. cbn [fst] in Ha.
    destruct o as [[f d|[]|q v]|n|n|n]; cbn [xcalls_from base_call_ok] in Hc.
    - destruct Hc as (_ & _ & Hc). refine (IH sq _ Hc _). exact Ha.
    - destruct Hc as (_ & Hc). refine (IH false _ Hc _). exact H0.
    - destruct Hc as (_ & Hc). refine (IH false _ Hc _). exact Ha.
    - destruct Hc as (Hv & Hc). refine (IH _ _ Hc _). cbn [xstep]. destruct (xs_set S q v p) as [p'|] eqn:E; [|exact Ha]. exact (H1 q v p p' Hv Ha E).
    - destruct Hc as (_ & Hc). refine (IH true _ Hc _). exact Ha.
    - destruct Hc as (_ & Hc). refine (IH true _ Hc _). exact Ha.
    - destruct Hc as (_ & Hc). refine (IH true _ Hc _). exact Ha. }
  exact (K ops false (xfresh S) Hc H0).
Qed.

Lemma b2_set_ok w q v p p' : is_bytes v -> b2_params_ok w p -> b2_spec_set w q v p = Some p' -> b2_params_ok w p'.
Proof.
  intros Hv (K1 & K2 & K3 & K4) E. unfold b2_params_ok. destruct q; cbn [b2_spec_set] in E.
  - destruct (Nat.leb_spec (length v) (hb w)); [|discriminate]. injection E as <-. cbn [pk ps pp]. auto.
  - unfold set_field in E. destruct (Nat.eqb_spec (length v) 0); [injection E as <-; auto|].
    destruct (Nat.eqb_spec (length v) (2 * wb w)); [|discriminate]. injection E as <-. cbn [pk ps pp]. repeat split; auto; apply K4.
  - unfold set_field in E. destruct (Nat.eqb_spec (length v) 0); [injection E as <-; auto|].
    destruct (Nat.eqb_spec (length v) (2 * wb w)); [|discriminate]. injection E as <-. cbn [pk ps pp]. repeat split; auto; apply K3.
Qed.
Lemma is_bytes_zeros n : is_bytes (zeros n).
Proof. apply Forall_forall. intros x Hx. apply repeat_spec in Hx. subst. reflexivity. Qed.
Lemma b2_default_ok w : b2_params_ok w (b2_default w).
Proof.
  unfold b2_params_ok, b2_default, half_ok. cbn [pk ps pp length]. rewrite zeros_length.
  repeat split; auto using is_bytes_zeros; [constructor|lia].
Qed.

(** ** BLAKE2 and BLAKE2X *)

(** An object of word size [w] and kind [k] can come to have the parameters [p] in force
    and [m] absorbed. *)
Inductive b2_reached (w : N) : b2_kind -> b2_params -> list N -> Prop :=
| b2r_hash hs T ops : bits_up_to (8 * w) hs -> T = blake2_type w BHash hs \/ T = blake2_static_type w BHash hs -> hcalls T ops ->
    b2_reached w (KHash (hs / 8)) (params_after (blake2_spec w hs) ops) (since T ops)
| b2r_xhash hs T ops : bits_up_to (8 * w * (w / 8) * 4 - 16) hs -> T = blake2_type w BXhash hs \/ T = blake2_static_type w BXhash hs ->
    hcalls T ops -> b2_reached w (KX (N.of_nat (N.to_nat (hs / 8)))) (params_after (blake2x_spec w hs) ops) (since T ops)
| b2r_xof ops : xcalls (blake2x_xof_type w) ops ->
    b2_reached w (KX (x_unknown w)) (xparams_after (blake2x_xof_spec w) ops) (xsince (blake2x_xof_type w) ops).
Lemma bytes_of_bits max hs : bits_up_to max hs -> 0 < hs / 8 <= max / 8.
Proof.
  intros (H1 & H2 & H3). split; [|apply N.div_le_mono; [discriminate|exact H2]].
  pose proof (N.div_mod hs 8 ltac:(discriminate)) as E. rewrite H3 in E. destruct (hs / 8); lia.
Qed.
Lemma reached_ok w k p m : w = 64 \/ w = 32 -> b2_reached w k p m -> kind_ok w k /\ b2_params_ok w p.
Proof.
  intros Hw H. destruct H as [hs T ops H HT Hc|hs T ops H HT Hc|ops Hc].
  - split; [|exact (params_inv T (blake2_spec w hs) (b2_params_ok w) (b2_default_ok w) (b2_set_ok w) ops Hc)].
    cbn [kind_ok]. apply bytes_of_bits in H. rewrite (N.mul_comm 8), N.div_mul in H by discriminate. exact H.
  - split; [|exact (params_inv T (blake2x_spec w hs) (b2_params_ok w) (b2_default_ok w) (b2_set_ok w) ops Hc)].
    cbn [kind_ok]. apply bytes_of_bits in H. rewrite N2Nat.id. unfold x_unknown. destruct Hw; subst w;
      [change ((8 * 64 * (64 / 8) * 4 - 16) / 8) with 2046 in H|change ((8 * 32 * (32 / 8) * 4 - 16) / 8) with 510 in H]; cbn [N.eqb Pos.eqb]; lia.
  - split; [|exact (xparams_inv (blake2x_xof_type w) (blake2x_xof_spec w) (b2_params_ok w) (b2_default_ok w) (b2_set_ok w) ops Hc)].
    cbn [kind_ok]. unfold x_unknown. destruct (w =? 64); lia.
Qed.
Lemma b2_reached_bind w k1 k2 p1 p2 m1 m2 : w = 64 \/ w = 32 -> b2_reached w k1 p1 m1 -> b2_reached w k2 p2 m2 ->
  b2_iv w k1 p1 = b2_iv w k2 p2 ->
  blake2_inputs w (key_pad w (pk p1) ++ m1) = blake2_inputs w (key_pad w (pk p2) ++ m2) -> k1 = k2 /\ p1 = p2 /\ m1 = m2.
Proof.
  intros Hw R1 R2. destruct (reached_ok w _ _ _ Hw R1), (reached_ok w _ _ _ Hw R2). now apply b2_bind.
Qed.

(** ** BLAKE2bp and BLAKE2sp *)
Inductive b2p_reached (w : N) : N -> b2_params -> list N -> Prop :=
| b2pr hs T ops : bits_up_to (8 * w) hs -> T = blake2p_type w hs \/ T = blake2p_static_type w hs -> hcalls T ops ->
    b2p_reached w (hs / 8) (params_after (blake2p_spec w hs) ops) (since T ops)
| b2pr_omp hs sch T ops : bits_up_to (8 * w) hs -> any_schedule w sch ->
    T = blake2p_omp_type w hs sch \/ T = blake2p_omp_static_type w hs sch -> hcalls T ops ->
    b2p_reached w (hs / 8) (params_after (blake2p_spec w hs) ops) (since T ops).
Lemma b2p_reached_ok w nn p m : b2p_reached w nn p m -> 0 < nn <= w /\ b2_params_ok w p.
Proof.
  intros [hs T ops H _ Hc|hs sch T ops H _ _ Hc]; (split;
   [apply bytes_of_bits in H; rewrite (N.mul_comm 8), N.div_mul in H by discriminate; exact H
   |exact (params_inv T (blake2p_spec w hs) (b2_params_ok w) (b2_default_ok w) (b2_set_ok w) ops Hc)]).
Qed.
Lemma b2p_reached_bind w nn1 nn2 p1 p2 m1 m2 : w = 64 \/ w = 32 -> b2p_reached w nn1 p1 m1 -> b2p_reached w nn2 p2 m2 ->
  init_h w (par_tree w nn1 (length (pk p1)) 0 0) (ps p1) (pp p1) = init_h w (par_tree w nn2 (length (pk p2)) 0 0) (ps p2) (pp p2) ->
  blake2p_inputs w (pk p1) m1 = blake2p_inputs w (pk p2) m2 -> nn1 = nn2 /\ p1 = p2 /\ m1 = m2.
Proof.
  intros Hw R1 R2. destruct (b2p_reached_ok w _ _ _ R1), (b2p_reached_ok w _ _ _ R2). now apply b2p_bind.
Qed.

(** ** Skein *)
Lemma skein_all_fold nw No p m : 
  fold_left (fun H x => ubi_block nw H (snd x) (fst x)) (skein_all_inputs nw No p m) (zeros nw) =
  fold_left (fun H x => ubi_block nw H (snd x) (fst x)) (skein_inputs nw T_msg m) (skein_start nw No p).
Proof.
  assert (O : forall ty M G, fold_left (fun H x => ubi_block nw H (snd x) (fst x)) (skein_opt nw ty M) G = ubi_opt nw G M ty).
  { intros ty M G. destruct M; [reflexivity|]. unfold skein_opt, ubi_opt. symmetry. apply ubi_fold. }
  unfold skein_all_inputs. rewrite !fold_left_app, !O. f_equal. unfold skein_start. rewrite <- ubi_fold. f_equal. f_equal. f_equal.
  destruct (sk_key p); reflexivity.
Qed.
Inductive sk_reached (nw : nat) : N -> skein_params -> list N -> Prop :=
| skr_hash hs T ops : bits_up_to (2 ^ 64 - 1) hs -> T = skein_type nw hs \/ T = skein_static_type nw hs -> hcalls T ops ->
    sk_reached nw hs (params_after (skein_spec nw hs) ops) (since T ops)
| skr_xof ops : xcalls (skein_xof_type nw) ops ->
    sk_reached nw (2 ^ 64 - 1) (xparams_after (skein_xof_spec nw) ops) (xsince (skein_xof_type nw) ops).
Lemma sk_reached_bind nw No1 No2 p1 p2 m1 m2 : (0 < nw)%nat -> sk_reached nw No1 p1 m1 -> sk_reached nw No2 p2 m2 ->
  skein_short p1 -> skein_short p2 -> N.of_nat (length m1) < 2 ^ 64 -> N.of_nat (length m2) < 2 ^ 64 ->
  skein_all_inputs nw No1 p1 m1 = skein_all_inputs nw No2 p2 m2 -> No1 = No2 /\ p1 = p2 /\ m1 = m2.
Proof.
  intros Hn R1 R2. assert (L : forall No p m, sk_reached nw No p m -> No < 2 ^ 64).
  { intros No p m [hs T ops (H1 & H2 & H3) _ _|ops _]; lia. }
  apply skein_bind; eauto.
Qed.

(** ** BLAKE and ECHO: the salt goes into every compression *)
Definition salted {B} (salt : list N) (l : list B) : list (list N * B) := map (pair salt) l.
Lemma salted_inj {B} s1 s2 (l1 l2 : list B) : l1 <> [] -> salted s1 l1 = salted s2 l2 -> s1 = s2 /\ l1 = l2.
Proof.
  intros H E. destruct l1 as [|a l1]; [congruence|]. destruct l2 as [|b l2]; [discriminate|].
  pose proof E as E0. injection E0 as -> _ _. split; [reflexivity|].
  apply (f_equal (map snd)) in E. unfold salted in E. rewrite !map_map in E. cbn [snd] in E. rewrite !map_id in E. exact E.
Qed.
Lemma salted_fold {A B} (f : list N -> A -> B -> A) salt l : forall a,
  fold_left (fun a x => f (fst x) a (snd x)) (salted salt l) a = fold_left (f salt) l a.
Proof. induction l as [|x l IH]; intros a; [reflexivity|]. cbn [salted map fold_left fst snd]. apply IH. Qed.
Lemma indexed_nonempty {B} (f : nat -> B) bs (l : list N) : (0 < bs)%nat -> length l <> 0%nat -> (length l mod bs = 0)%nat ->
  map f (seq 0 (length l / bs)) <> [].
Proof.
  intros Hb Hl Hm E. apply (f_equal (@length _)) in E. rewrite map_length, seq_length in E. cbn [length] in E.
  pose proof (Nat.div_mod (length l) bs ltac:(lia)). rewrite E in H. lia.
Qed.
Lemma blake_inputs_nonempty n m : blake_inputs n m <> [].
Proof.
  unfold blake_inputs. cbv zeta. assert (Hb : (0 < bb (blake_w n))%nat) by (unfold blake_w; destruct (256 <? n); vm_compute; lia).
  apply (indexed_nonempty _ (bb (blake_w n))); auto using padb_mod. unfold padb. cbv zeta. rewrite !app_length, be_bytes_length. lia.
Qed.
Lemma echo_inputs_nonempty n m : echo_inputs n m <> [].
Proof.
  unfold echo_inputs. assert (Hb : (0 < echo_bs n)%nat) by (unfold echo_bs; destruct (n <=? 256); lia).
  apply (indexed_nonempty _ (echo_bs n)); auto; unfold echo_pad; auto using md_pad_mod. unfold md_pad. cbv zeta. rewrite !app_length. cbn [length]. lia.
Qed.
Inductive bl_reached : N -> list N -> list N -> Prop :=
| blr hs T ops : In hs [224; 256; 384; 512] -> T = blake_type hs \/ T = blake_static_type hs -> hcalls T ops ->
    bl_reached hs (params_after (blake_spec hs) ops) (since T ops).
Inductive ec_reached : N -> list N -> list N -> Prop :=
| ecr hs T ops : bits_up_to 512 hs -> T = echo_type hs \/ T = echo_static_type hs -> hcalls T ops ->
    ec_reached hs (params_after (echo_spec hs) ops) (since T ops).

(** The bytes absorbed are bytes. *)
Lemma since_bytes {P} (T : htype P) ops : hcalls T ops -> is_bytes (since T ops).
Proof.
  unfold since. assert (H : is_bytes []) by constructor. revert H. generalize (@nil N) as m.
  induction ops as [|o r IH]; intros m Hm Hc; [exact Hm|]. inversion Hc as [|? ? Ho Hr]; subst.
  destruct o as [[f d|c|q v]|buf| |]; cbn [since_from]; apply IH; auto; try constructor.
  - apply is_bytes_app; [exact Hm|]. cbn [base_call_ok] in Ho. unfold absorbed. destruct f; auto; constructor.
  - destruct (ht_accepts T q v); [constructor|exact Hm].
Qed.
Lemma bl_reached_bind hs1 hs2 s1 s2 m1 m2 : bl_reached hs1 s1 m1 -> bl_reached hs2 s2 m2 -> N.of_nat (length m1) < 2 ^ 61 -> N.of_nat (length m2) < 2 ^ 61 ->
  blake_IV hs1 = blake_IV hs2 -> salted s1 (blake_inputs hs1 m1) = salted s2 (blake_inputs hs2 m2) -> hs1 = hs2 /\ s1 = s2 /\ m1 = m2.
Proof.
  intros [h1 T1 o1 H1 E1 C1] [h2 T2 o2 H2 E2 C2] L1 L2 E I.
  assert (X : h1 = h2).
  { assert (K : forallb (fun a => forallb (fun b => (a =? b) || negb (if list_eq_dec N.eq_dec (blake_IV a) (blake_IV b) then true else false))
      [224; 256; 384; 512]) [224; 256; 384; 512] = true) by (vm_compute; reflexivity).
    rewrite forallb_forall in K. specialize (K _ H1). rewrite forallb_forall in K. specialize (K _ H2).
    destruct (N.eqb_spec h1 h2); [assumption|]. destruct (list_eq_dec N.eq_dec (blake_IV h1) (blake_IV h2)); [discriminate K|contradiction]. }
  subst h2. apply salted_inj in I; [|apply blake_inputs_nonempty]. destruct I as [S I]. split; [reflexivity|]. split; [exact S|].
  apply (blake_inputs_inj h1); auto using since_bytes.
Qed.
Lemma ec_reached_bind hs1 hs2 s1 s2 m1 m2 : ec_reached hs1 s1 m1 -> ec_reached hs2 s2 m2 ->
  repeat (le_bytes 16 hs1) (echo_words hs1) = repeat (le_bytes 16 hs2) (echo_words hs2) ->
  salted s1 (echo_inputs hs1 m1) = salted s2 (echo_inputs hs2 m2) -> hs1 = hs2 /\ s1 = s2 /\ m1 = m2.
Proof.
  intros [h1 T1 o1 H1 E1 C1] [h2 T2 o2 H2 E2 C2] E I.
  assert (X : h1 = h2).
  { assert (W : forall h, exists k, echo_words h = Datatypes.S k) by (intros h; unfold echo_words; destruct (h <=? 256); eauto).
    destruct (W h1) as [k1 W1], (W h2) as [k2 W2]. rewrite W1, W2 in E.
    assert (E0 : le_bytes 16 h1 = le_bytes 16 h2) by exact (f_equal (hd []) E).
    destruct H1 as (_ & B1 & _), H2 as (_ & B2 & _).
    apply le_bytes_inj in E0; [exact E0|eapply N.le_lt_trans; [exact B1|reflexivity]|eapply N.le_lt_trans; [exact B2|reflexivity]]. }
  subst h2. apply salted_inj in I; [|apply echo_inputs_nonempty]. destruct I as [S I]. split; [reflexivity|]. split; [exact S|].
  apply (echo_inputs_inj h1); auto using since_bytes.
Qed.
