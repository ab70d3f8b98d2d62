(** * The block functions are straight-line programs. *)
From Verif Require Import Base Lemmas Absorb Hasher MdState Oblivious ObliviousProof ObliviousRel ObliviousSpec.
From Verif Require Import Md5 Sha1 Sha2 Sm3 Keccak Ascon Esch Blake Blake2 Jh Skein Lsh.
From Verif Require Import TTable Whirlpool Groestl Kupyna Streebog Echo.

(** ** From parametricity to programs *)
Definition Rev (env : list N) (e : expr) (v : N) : Prop := eval env e = v.
Lemma Rev_alg : forall env, alg_rel (Rev env) salg nalg.
Proof. intros. constructor; unfold Rev; intros; cbn; subst; reflexivity. Qed.
Lemma Rev_look : forall env T x v, Rev env x v -> Rev env (ELook T x) (tbl T v).
Proof. unfold Rev; intros. cbn. subst. reflexivity. Qed.

Definition Rno (e e' : expr) : Prop := e = e' /\ forall env, indices env e = [].
Lemma Rno_alg : alg_rel Rno salg salg.
Proof.
  constructor; unfold Rno; intros;
    repeat match goal with H : _ /\ _ |- _ => destruct H end; subst; split; try reflexivity; intros env; cbn;
    repeat match goal with H : forall env, indices env _ = [] |- _ => rewrite (H env); clear H end; reflexivity.
Qed.

Lemma nth_env_l : forall (pre l post : list N),
  Forall2 (Rev (pre ++ l ++ post)) (vars (length pre) (length l)) l.
Proof.
  intros pre l. revert pre. induction l as [|x l IH]; intros pre post; [constructor|].
  cbn [length]. unfold vars. cbn [seq map]. constructor.
  - unfold Rev. cbn [eval]. rewrite app_nth2 by lia. rewrite Nat.sub_diag. reflexivity.
  - specialize (IH (pre ++ [x]) post). rewrite app_length in IH. cbn [length] in IH.
    rewrite Nat.add_1_r in IH. rewrite <- app_assoc in IH. exact IH.
Qed.
Lemma vars_H : forall H M : list N, Forall2 (Rev (H ++ M)) (vars 0 (length H)) H.
Proof. intros H M. exact (nth_env_l [] H M). Qed.
Lemma vars_M : forall H M : list N, Forall2 (Rev (H ++ M)) (vars (length H) (length M)) M.
Proof. intros H M. pose proof (nth_env_l H M []) as K. rewrite app_nil_r in K. exact K. Qed.

Lemma Rev_eval : forall env es l, Forall2 (Rev env) es l -> map (eval env) es = l.
Proof. intros env es l H. induction H; cbn [map]; [reflexivity|]. unfold Rev in H. congruence. Qed.
Lemma run_ok : forall env p r, res_rel (Forall2 (Rev env)) p r -> r = run env p.
Proof.
  intros env [es| |w] [l| |w'] H; cbn in H |- *; try contradiction; try congruence.
  rewrite (Rev_eval env es l H). reflexivity.
Qed.
Lemma vars_no : forall k n, Forall2 Rno (vars k n) (vars k n).
Proof.
  intros k n. revert k. induction n; intros k; unfold vars; cbn [seq map]; constructor; [|exact (IHn (S k))].
  split; [reflexivity|]. reflexivity.
Qed.
Lemma no_run : forall env p, res_rel (Forall2 Rno) p p -> run_indices env p = [].
Proof.
  intros env [es| |w] H; [|reflexivity..]. cbn in H |- *. revert H. generalize es at 2. intros es' H.
  induction H as [|e e' es es' [_ He] _ IH]; cbn [flat_map]; [reflexivity|]. rewrite He, IH. reflexivity.
Qed.

(** ** The block functions *)
Ltac sl lem eqn := intros; red; intros; cbv zeta; apply run_ok; rewrite <- eqn; cbn [res_rel];
  apply lem; [apply Rev_alg|apply vars_H|apply vars_M].
Ltac nl lem := intros; red; intros; apply no_run; cbn [res_rel]; apply lem; [apply Rno_alg|apply vars_no|apply vars_no].

Lemma md5_sl : forall t, straight_line (fun H data => Ok (md5_block H t data)) (le_words 4 16)
  (fun nH nM => Ok (gmd5_block salg (vars 0 nH) (vars nH nM))).
Proof. intros; red; intros; cbv zeta; apply run_ok; rewrite <- gmd5_block_N; cbn [res_rel]; apply gmd5_rel;
  [apply Rev_alg|apply vars_H|apply vars_M]. Qed.
Lemma md5_nl : no_lookups (fun nH nM => Ok (gmd5_block salg (vars 0 nH) (vars nH nM))).
Proof. intros; red; intros; apply no_run; cbn [res_rel]; apply gmd5_rel; [apply Rno_alg|apply vars_no|apply vars_no]. Qed.
Lemma sha1_sl : forall t, straight_line (fun H data => Ok (sha1_block H t data)) (le_words 4 16)
  (fun nH nM => Ok (gsha1_block salg (vars 0 nH) (vars nH nM))).
Proof. intros; red; intros; cbv zeta; apply run_ok; rewrite <- gsha1_block_N; cbn [res_rel]; apply gsha1_rel;
  [apply Rev_alg|apply vars_H|apply vars_M]. Qed.
Lemma sha1_nl : no_lookups (fun nH nM => Ok (gsha1_block salg (vars 0 nH) (vars nH nM))).
Proof. intros; red; intros; apply no_run; cbn [res_rel]; apply gsha1_rel; [apply Rno_alg|apply vars_no|apply vars_no]. Qed.
Lemma sha2_sl : forall T t, straight_line (fun H data => Ok (sha2_block T H t data)) (le_words (wbytes T) 16)
  (fun nH nM => Ok (gsha2_block salg T (vars 0 nH) (vars nH nM))).
Proof. intros; red; intros; cbv zeta; apply run_ok; rewrite <- gsha2_block_N; cbn [res_rel]; apply gsha2_rel;
  [apply Rev_alg|apply vars_H|apply vars_M]. Qed.
Lemma sha2_nl : forall T, no_lookups (fun nH nM => Ok (gsha2_block salg T (vars 0 nH) (vars nH nM))).
Proof. intros; red; intros; apply no_run; cbn [res_rel]; apply gsha2_rel; [apply Rno_alg|apply vars_no|apply vars_no]. Qed.
Lemma sm3_sl : forall sem t, straight_line (fun H data => sm3_block sem H t data) (le_words 4 16)
  (fun nH nM => gsm3_block salg sem (vars 0 nH) (vars nH nM)).
Proof. intros; red; intros; cbv zeta; apply run_ok; rewrite <- gsm3_block_N; cbn [res_rel]; apply gsm3_rel;
  [apply Rev_alg|apply vars_H|apply vars_M]. Qed.
Lemma sm3_nl : forall sem, no_lookups (fun nH nM => gsm3_block salg sem (vars 0 nH) (vars nH nM)).
Proof. intros; red; intros; apply no_run; cbn [res_rel]; apply gsm3_rel; [apply Rno_alg|apply vars_no|apply vars_no]. Qed.
Lemma keccak_sl : forall R r64 t, straight_line (fun H data => kc_block R r64 H t data) (le_words 8 r64)
  (fun nH nM => gkc_block salg R r64 (vars 0 nH) (vars nH nM)).
Proof. intros; red; intros; cbv zeta; apply run_ok; rewrite <- gkc_block_N; cbn [res_rel]; apply gkc_rel;
  [apply Rev_alg|apply vars_H|apply vars_M]. Qed.
Lemma keccak_nl : forall R r64, no_lookups (fun nH nM => gkc_block salg R r64 (vars 0 nH) (vars nH nM)).
Proof. intros; red; intros; apply no_run; cbn [res_rel]; apply gkc_rel; [apply Rno_alg|apply vars_no|apply vars_no]. Qed.
Lemma ascon_sl : forall t, straight_line (fun H data => Ok (ascon_block H t data)) (fun d => [le_word d])
  (fun nH nM => Ok (gascon_block salg (vars 0 nH) (vars nH nM))).
Proof. intros; red; intros; cbv zeta; apply run_ok; rewrite <- gascon_block_N; cbn [res_rel]; apply gascon_rel;
  [apply Rev_alg|apply vars_H|apply vars_M]. Qed.
Lemma ascon_nl : no_lookups (fun nH nM => Ok (gascon_block salg (vars 0 nH) (vars nH nM))).
Proof. intros; red; intros; apply no_run; cbn [res_rel]; apply gascon_rel; [apply Rno_alg|apply vars_no|apply vars_no]. Qed.
Lemma esch_sl : forall hs last t, straight_line (fun H data => Ok (esch_block hs last H t data)) (le_words 4 4)
  (fun nH nM => Ok (gesch_block salg hs last (vars 0 nH) (vars nH nM))).
Proof. intros; red; intros; cbv zeta; apply run_ok; rewrite <- gesch_block_N; cbn [res_rel]; apply gesch_rel;
  [apply Rev_alg|apply vars_H|apply vars_M]. Qed.
Lemma esch_nl : forall hs last, no_lookups (fun nH nM => Ok (gesch_block salg hs last (vars 0 nH) (vars nH nM))).
Proof. intros; red; intros; apply no_run; cbn [res_rel]; apply gesch_rel; [apply Rno_alg|apply vars_no|apply vars_no]. Qed.
Lemma blake_sl : forall w padding tb, straight_line (fun H data => Ok (bl_block w padding tb H data)) (le_words (bl_wb w) 16)
  (fun nH nM => Ok (gbl_block salg w padding tb (vars 0 nH) (vars nH nM))).
Proof. intros; red; intros; cbv zeta; apply run_ok; rewrite <- gbl_block_N; cbn [res_rel]; apply gbl_rel;
  [apply Rev_alg|apply vars_H|apply vars_M]. Qed.
Lemma blake_nl : forall w padding tb, no_lookups (fun nH nM => Ok (gbl_block salg w padding tb (vars 0 nH) (vars nH nM))).
Proof. intros; red; intros; apply no_run; cbn [res_rel]; apply gbl_rel; [apply Rno_alg|apply vars_no|apply vars_no]. Qed.
Lemma blake2_sl : forall w tb last lastn, straight_line (fun H data => Ok (b2_block w tb last lastn H data)) (le_words (b2_wb w) 16)
  (fun nH nM => Ok (gb2_block salg w tb last lastn (vars 0 nH) (vars nH nM))).
Proof. intros; red; intros; cbv zeta; apply run_ok; rewrite <- gb2_block_N; cbn [res_rel]; apply gb2_rel;
  [apply Rev_alg|apply vars_H|apply vars_M]. Qed.
Lemma blake2_nl : forall w tb last lastn, no_lookups (fun nH nM => Ok (gb2_block salg w tb last lastn (vars 0 nH) (vars nH nM))).
Proof. intros; red; intros; apply no_run; cbn [res_rel]; apply gb2_rel; [apply Rno_alg|apply vars_no|apply vars_no]. Qed.
Lemma jh_sl : forall t, straight_line (fun H data => Ok (jh_step H t data)) (le_words 8 8)
  (fun nH nM => Ok (gjh_step salg (vars 0 nH) (vars nH nM))).
Proof. intros; red; intros; cbv zeta; apply run_ok; rewrite <- gjh_step_N; cbn [res_rel]; apply gjh_rel;
  [apply Rev_alg|apply vars_H|apply vars_M]. Qed.
Lemma jh_nl : no_lookups (fun nH nM => Ok (gjh_step salg (vars 0 nH) (vars nH nM))).
Proof. intros; red; intros; apply no_run; cbn [res_rel]; apply gjh_rel; [apply Rno_alg|apply vars_no|apply vars_no]. Qed.
Lemma skein_sl : forall nw reallen, straight_line (fun H data => Ok (sk_block nw reallen H data)) (le_words 8 nw)
  (fun nH nM => Ok (gsk_block salg nw reallen (vars 0 nH) (vars nH nM))).
Proof. intros; red; intros; cbv zeta; apply run_ok; rewrite <- gsk_block_N; cbn [res_rel]; apply gsk_rel;
  [apply Rev_alg|apply vars_H|apply vars_M]. Qed.
Lemma skein_nl : forall nw reallen, no_lookups (fun nH nM => Ok (gsk_block salg nw reallen (vars 0 nH) (vars nH nM))).
Proof. intros; red; intros; apply no_run; cbn [res_rel]; apply gsk_rel; [apply Rno_alg|apply vars_no|apply vars_no]. Qed.
Lemma lsh_sl : forall sem w t, straight_line (fun H data => lsh_block sem w H t data) (le_words (lsh_wb w) 32)
  (fun nH nM => glsh_block salg sem w (vars 0 nH) (vars nH nM)).
Proof. intros; red; intros; cbv zeta; apply run_ok; rewrite <- glsh_block_N; cbn [res_rel]; apply glsh_rel;
  [apply Rev_alg|apply vars_H|apply vars_M]. Qed.
Lemma lsh_nl : forall sem w, no_lookups (fun nH nM => glsh_block salg sem w (vars 0 nH) (vars nH nM)).
Proof. intros; red; intros; apply no_run; cbn [res_rel]; apply glsh_rel; [apply Rno_alg|apply vars_no|apply vars_no]. Qed.
Lemma whirlpool_sl : forall t, straight_line (fun H data => Ok (wp_block H t data)) (le_words 8 8)
  (fun nH nM => Ok (gwp_block salg ELook (vars 0 nH) (vars nH nM))).
Proof. intros; red; intros; cbv zeta; apply run_ok; rewrite <- gwp_block_N; cbn [res_rel]; apply gwp_rel;
  [apply Rev_alg|apply Rev_look|apply vars_H|apply vars_M]. Qed.
Lemma groestl_sl : forall hs t, straight_line (fun H data => Ok (gr_step hs H t data)) (le_words 8 (cl_R hs))
  (fun nH nM => Ok (ggr_step salg ELook hs (vars 0 nH) (vars nH nM))).
Proof. intros; red; intros; cbv zeta; apply run_ok; rewrite <- ggr_step_N; cbn [res_rel]; apply ggr_rel;
  [apply Rev_alg|apply Rev_look|apply vars_H|apply vars_M]. Qed.
Lemma kupyna_sl : forall hs t, straight_line (fun H data => Ok (ku_step hs H t data)) (le_words 8 (cl_R hs))
  (fun nH nM => Ok (gku_step salg ELook hs (vars 0 nH) (vars nH nM))).
Proof. intros; red; intros; cbv zeta; apply run_ok; rewrite <- gku_step_N; cbn [res_rel]; apply gku_rel;
  [apply Rev_alg|apply Rev_look|apply vars_H|apply vars_M]. Qed.
Lemma streebog_sl : forall t, straight_line (fun H data => Ok (sb_gN H (le_words 8 8 data) t)) (le_words 8 8)
  (fun nH nM => Ok (gsb_gN salg ELook t (vars 0 nH) (vars nH nM))).
Proof. intros; red; intros; cbv zeta; apply run_ok; rewrite <- gsb_gN_N; cbn [res_rel]; apply gsb_rel;
  [apply Rev_alg|apply Rev_look|apply vars_H|apply vars_M]. Qed.
Lemma echo_sl : forall hs counter, straight_line
  (fun H data => Ok (ec_block hs (firstn 2 H) counter (skipn 2 H) data)) (le_words 8 (ec_bs hs / 8))
  (fun nH nM => Ok (gec_block salg ELook hs counter (vars 0 nH) (vars nH nM))).
Proof. intros; red; intros; cbv zeta; apply run_ok; rewrite <- gec_block_N; cbn [res_rel]; apply gec_block_rel;
  [apply Rev_alg|apply Rev_look|apply vars_H|apply vars_M]. Qed.

(** ** Lookup tables: the indices are bytes of the data *)
Lemma wp_G_indices : forall ll, length ll = 8%nat ->
  wp_G 8 ll = eval ll (gwp_G salg ELook 8 (vars 0 8)) /\
  indices ll (gwp_G salg ELook 8 (vars 0 8))
  = map (fun j => byte_at (nth ((8 - j) mod 8) ll 0) (N.of_nat (8 * j))) (seq 0 8).
Proof.
  intros ll Hl. split; [|reflexivity]. rewrite <- gwp_G_N. symmetry.
  apply (gwp_G_rel _ _ _ (Rev_alg ll) _ _ (Rev_look ll)).
  pose proof (vars_H ll []) as K. rewrite app_nil_r, Hl in K. exact K.
Qed.
Lemma wp_indices : exists H H' M, length H = 8%nat /\ length H' = 8%nat /\ length M = 8%nat /\
  run_indices (H ++ M) (Ok (gwp_block salg ELook (vars 0 8) (vars 8 8)))
  <> run_indices (H' ++ M) (Ok (gwp_block salg ELook (vars 0 8) (vars 8 8))).
Proof.
  exists (repeat 0 8), (repeat 1 8), (repeat 0 8). repeat split. intros E. apply (f_equal (@hd_error N)) in E.
  lazy in E. discriminate E.
Qed.
Lemma gr_indices : exists H M M', length H = 16%nat /\ length M = 8%nat /\ length M' = 8%nat /\
  run_indices (H ++ M) (Ok (ggr_step salg ELook 256 (vars 0 16) (vars 16 8)))
  <> run_indices (H ++ M') (Ok (ggr_step salg ELook 256 (vars 0 16) (vars 16 8))).
Proof.
  exists (repeat 0 16), (repeat 0 8), (repeat 1 8). repeat split. intros E. apply (f_equal (@hd_error N)) in E.
  lazy in E. discriminate E.
Qed.
Lemma ku_indices : exists H M M', length H = 16%nat /\ length M = 8%nat /\ length M' = 8%nat /\
  run_indices (H ++ M) (Ok (gku_step salg ELook 256 (vars 0 16) (vars 16 8)))
  <> run_indices (H ++ M') (Ok (gku_step salg ELook 256 (vars 0 16) (vars 16 8))).
Proof.
  exists (repeat 0 16), (repeat 0 8), (repeat 1 8). repeat split. intros E. apply (f_equal (@hd_error N)) in E.
  lazy in E. discriminate E.
Qed.
Lemma sb_indices : exists H H' M, length H = 8%nat /\ length H' = 8%nat /\ length M = 8%nat /\
  run_indices (H ++ M) (Ok (gsb_gN salg ELook 0 (vars 0 8) (vars 8 8)))
  <> run_indices (H' ++ M) (Ok (gsb_gN salg ELook 0 (vars 0 8) (vars 8 8))).
Proof.
  exists (repeat 0 8), (repeat 1 8), (repeat 0 8). repeat split. intros E. apply (f_equal (@hd_error N)) in E.
  lazy in E. discriminate E.
Qed.
Lemma sb_branches : exists m m' h, length m = 8%nat /\ length m' = 8%nat /\ length h = 8%nat /\
  sb_addm_branches m h <> sb_addm_branches m' h.
Proof. exists (repeat 0 8), (repeat 1 8), (repeat (N.ones 64) 8). repeat split. vm_compute. discriminate. Qed.
Lemma ec_indices : exists H M M', length H = 10%nat /\ length M = 24%nat /\ length M' = 24%nat /\
  run_indices (H ++ M) (Ok (gec_block salg ELook 256 0 (vars 0 10) (vars 10 24)))
  <> run_indices (H ++ M') (Ok (gec_block salg ELook 256 0 (vars 0 10) (vars 10 24))).
Proof.
  exists (repeat 0 10), (repeat 0 24), (repeat 1 24). repeat split. intros E. apply (f_equal (firstn 100)) in E.
  lazy in E. discriminate E.
Qed.
