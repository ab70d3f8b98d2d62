(** * Every type processes the inputs of Inputs.v. *)
From Verif Require Import Base Lemmas SpecCommon Hasher HasherSpec HasherProof Library LibraryProof XLibraryProof LibraryTypes
  LibraryTypesProof Md5Spec Sha1Spec Sha2 Sha2Spec Sha2Proof Sm3Spec WhirlpoolSpec Blake2Spec Blake2Sim BlakeSpec BlakeProof Blake2pSpec Blake2pSim EchoSpec
  GroestlSpec KupynaSpec JhSpec StreebogSpec StreebogProof LshSpec LshProof SkeinSpec SkeinSim KeccakSpec Sha3Spec
  ShakeProof KmacProof AsconSpec EschSpec K12Spec K12Proof Inputs.

Lemma fold_map {A B C} (f : A -> B -> A) (g : C -> B) l : forall a,
  fold_left f (map g l) a = fold_left (fun a x => f a (g x)) l a.
Proof. induction l as [|x l IH]; intros a; [reflexivity|]. cbn [map fold_left]. apply IH. Qed.

(** ** The message of the abstract hasher *)
Lemma ast_since {P} (T : htype P) S (G : good T S) ops : forall a, snd (ast S a ops) = since_from T (snd a) ops.
Proof.
  induction ops as [|o r IH]; intros a; [reflexivity|]. rewrite ast_cons, IH. destruct a as [p m].
  destruct o as [[f d|[]|q v]|buf| |]; try reflexivity.
  cbn [astep abase since_from]. pose proof (g_acc _ _ G q v p) as K. destruct (sp_set S q v p); rewrite K; reflexivity.
Qed.
Lemma good_processes {P} (T : htype P) S {A B} ins (step : sp_params S -> A -> B -> A) iv out :
  good T S -> (forall p m, sp_digest S p m = out p (fold_left (step p) (ins p m) (iv p))) ->
  processes T S ins step iv out.
Proof.
  intros G E g ops Hg Hc. rewrite (after_eq G g ops [HDigestIter] Hg Hc) by (repeat constructor).
  pose proof (ast_since T S G ops (afresh S)) as K. unfold since, params_after.
  change (fst (arun S (afresh S) ops)) with (ast S (afresh S) ops).
  destruct (ast S (afresh S) ops) as [p m]. cbn [fst snd afresh] in *. subst m.
  cbn [arun astep fst snd]. rewrite E. reflexivity.
Qed.

Lemma xst_since {P} (T : xtype P) S (G : xgood T S) ops : forall a,
  snd (fst (xst S a ops)) = xsince_from T (snd (fst a)) ops.
Proof.
  induction ops as [|o r IH]; intros a; [reflexivity|]. rewrite xst_cons, IH. destruct a as [[p m] k].
  destruct o as [[f d|[]|q v]|n|n|n]; try reflexivity.
  cbn [xstep xsince_from]. pose proof (xg_acc _ _ G q v p) as K. destruct (xs_set S q v p); rewrite K; reflexivity.
Qed.
Lemma xgood_processes {P} (T : xtype P) S {A B} ins (step : xs_params S -> A -> B -> A) iv out :
  xgood T S -> (forall p m n, xs_out S p m n = out p (fold_left (step p) (ins p m) (iv p)) n) ->
  xprocesses T S ins step iv out.
Proof.
  intros G E g ops n Hg Hc Hf Hn. rewrite (xafter_eq G g ops [XSqueezeIter n] Hg Hc).
  2:{ rewrite Hf. cbn. auto. }
  pose proof (xst_since T S G ops (xfresh S)) as K. pose proof (sqd_run G ops (xfresh S) Hc) as F.
  change (fold_left (xflag1 T) ops (XLibraryProof.sqd (xfresh S))) with (xflag T ops) in F. rewrite Hf in F.
  unfold xsince, xparams_after. change (fst (xrun S (xfresh S) ops)) with (xst S (xfresh S) ops).
  destruct (xst S (xfresh S) ops) as [[p m] k]. cbn [fst snd xfresh] in *. subst m.
  unfold XLibraryProof.sqd, squeezed_something in F. cbn [snd] in F. destruct k; [|discriminate F].
  cbn [xrun xstep xsq Nat.add skipn fst snd]. rewrite E. reflexivity.
Qed.

(** ** Digest functions as iterations over the inputs *)
Local Opaque echo_compress compressb F2 ubi_block sbs_g sparkle_p inject add_dom keccak_p absorb_block init_h squeeze_stream
  words_bytes be_bytes le_bytes le_words be_words N.div echo_pad padb.
Lemma echo_fold n salt m : echo_hash n salt m = firstn (N.to_nat (n / 8)) (concat
  (fold_left (fun V x => echo_compress n salt V (fst x) (snd x)) (echo_inputs n m) (repeat (le_bytes 16 n) (echo_words n)))).
Proof. unfold echo_inputs. rewrite fold_map. reflexivity. Qed.
Lemma blake_fold n salt m : blake_hash n salt m = firstn (N.to_nat (n / 8)) (flat_map (be_bytes (wb (blake_w n)))
  (fold_left (fun h x => compressb (blake_w n) h (be_words (wb (blake_w n)) 4 salt) (be_words (wb (blake_w n)) 16 (fst x)) (snd x))
     (blake_inputs n m) (blake_IV n))).
Proof. unfold blake_inputs. cbv zeta. rewrite fold_map. reflexivity. Qed.

(** One call of the BLAKE2 compression function; [fn] is the last-node flag.
    Specification; no code of /repo. *)
Definition b2_step (w : N) (fn : bool) (h : list N) (x : list N * N * bool) : list N :=
  F2 w h (le_words (wb w) 16 (fst (fst x))) (snd (fst x)) (snd x) (if snd x then fn else false).
Lemma blake2_core_fold w fn h0 d : blake2_core w fn h0 d = fold_left (b2_step w fn) (blake2_inputs w d) h0.
Proof. unfold blake2_inputs. cbv zeta. rewrite fold_left_app, fold_map. reflexivity. Qed.

(** Specification; no code of /repo. *)
Definition skein_start (nw : nat) (No : N) (p : skein_params) : list N :=
  let K := match sk_key p with [] => zeros nw | k => ubi nw (zeros nw) k T_key end in
  ubi_opt nw (ubi_opt nw (ubi nw K (skein_config No) T_cfg) (sk_pers p) T_prs) (sk_nonce p) T_non.
Lemma ubi_fold nw G M ty : ubi nw G M ty = fold_left (fun H x => ubi_block nw H (snd x) (fst x)) (skein_inputs nw ty M) G.
Proof. unfold skein_inputs. cbv zeta. rewrite fold_map. reflexivity. Qed.

Lemma streebog_fold addN addS n m : sbs_hash_with addN addS n m = skipn (64 - N.to_nat (n / 8))
  (fold_left (fun h x => sbs_g (fst x) h (snd x)) (streebog_inputs addN addS m) (sbs_iv n)).
Proof.
  unfold sbs_hash_with, streebog_inputs. cbv zeta. rewrite (fold_left_app (fun h x => sbs_g (fst x) h (snd x))). cbn [fold_left fst snd].
  rewrite (fold_map (fun h x => sbs_g (fst x) h (snd x))). cbn [fst snd].
  assert (K : forall l pre h Sg,
    fold_left (sbs_stage2 addN addS) l (h, fold_left addN (repeat 512 (length pre)) 0, Sg) =
    (fold_left (fun h i => sbs_g (fold_left addN (repeat 512 i) 0) h (nth i (pre ++ l) [])) (seq (length pre) (length l)) h,
     fold_left addN (repeat 512 (length pre + length l)) 0, fold_left addS (map le_word l) Sg)).
  { induction l as [|b l IH]; intros pre h Sg.
    - cbn [fold_left length seq map]. rewrite Nat.add_0_r. reflexivity.
    - cbn [fold_left length seq map sbs_stage2]. rewrite app_nth2, Nat.sub_diag by lia. cbn [nth].
      specialize (IH (pre ++ [b])). rewrite app_length, Nat.add_1_r, <- app_assoc in IH. cbn [app] in IH.
      replace (length pre + Datatypes.S (length l))%nat with (Datatypes.S (length pre) + length l)%nat by lia.
      assert (R : fold_left addN (repeat 512 (Datatypes.S (length pre))) 0 = addN (fold_left addN (repeat 512 (length pre)) 0) 512).
      { cbn [repeat]. rewrite (repeat_cons (length pre) 512), fold_left_app. reflexivity. }
      rewrite <- R. apply IH. }
  specialize (K (sbs_full m) [] (sbs_iv n) 0). cbn [length repeat fold_left app Nat.add] in K. rewrite K.
  rewrite map_app, fold_left_app. reflexivity.
Qed.

(** Specification; no code of /repo. *)
Definition esch_step (h : nat) (B : list (N * N)) (x : option N * list N) : list (N * N) :=
  match fst x with
  | None => esch_absorb h B (snd x)
  | Some d => sparkle_p (big h) (inject h (add_dom h d B) (snd x))
  end.
Lemma esch_fold h xof m : esch_state h xof m = fold_left (esch_step h) (esch_inputs xof m) (repeat (0, 0) (2 * h)).
Proof. unfold esch_inputs. cbv zeta. rewrite fold_left_app, fold_map. reflexivity. Qed.

Lemma cshake_fold r64 sec p m n : (8 * r64 = 200 - 2 * sec)%nat -> cshake_code r64 sec p m n =
  squeeze_stream (keccak_p 24) (words_bytes 8) (200 - 2 * sec) n
    (fold_left (absorb_block 24 (200 - 2 * sec)) (cshake_inputs code_bytepad sec p m) (zeros 25)).
Proof.
  intros E. destruct p as [f c]. unfold cshake_code, cshake_inputs, hdr, hdr_z, code_bytepad. cbn [fst snd]. rewrite E.
  destruct f; [destruct c|]; reflexivity.
Qed.

(** One TurboSHAKE call; the last one gives the output. Specification; no code of /repo. *)
Definition kt_step (nr r : nat) (_ : list N) (bs : list (list N)) : list N := fold_left (absorb_block nr r) bs (zeros 25).
Lemma kt_fold nr sec cs c m n : kt nr sec cs m c n =
  squeeze_stream (keccak_p nr) (words_bytes 8) (200 - 2 * sec) n
    (fold_left (kt_step nr (200 - 2 * sec)) (kt_inputs nr sec cs c m) (zeros 25)).
Proof.
  unfold kt, kt_inputs. cbv zeta. destruct (_ <=? _)%nat; [reflexivity|]. rewrite fold_left_app. reflexivity.
Qed.

(** The digests of the BLAKE2bp/BLAKE2sp leaves so far. Specification; no code of /repo. *)
Definition leaf_step (w nn : N) (p : b2_params) (leaves : list (list N)) (ins : list (list N * N * bool)) : list (list N) :=
  let i := length leaves in
  leaves ++ [words_bytes (wb w) (fold_left (b2_step w (i =? degree w - 1)%nat) ins
    (init_h w (par_tree w nn (length (pk p)) (N.of_nat i) 0) (ps p) (pp p)))].
Lemma blake2p_fold w nn p m : blake2p_hash w nn (pk p) (ps p) (pp p) m =
  firstn (N.to_nat nn) (blake2_tree w true (par_tree w nn (length (pk p)) 0 1) (ps p) (pp p)
    (concat (fold_left (leaf_step w nn p) (blake2p_inputs w (pk p) m) []))).
Proof.
  unfold blake2p_hash, blake2p_inputs. rewrite fold_map.
  assert (K : forall n (l : list (list N)),
    fold_left (fun a i => leaf_step w nn p a (blake2_inputs w (key_pad w (pk p) ++ leaf_part w i m))) (seq (length l) n) l =
    l ++ map (leaf_hash w nn (pk p) (ps p) (pp p) m) (seq (length l) n)).
  { induction n as [|n IH]; intros l; [cbn; rewrite app_nil_r; reflexivity|]. cbn [seq fold_left map].
    unfold leaf_step at 2. cbv zeta. rewrite <- blake2_core_fold.
    match goal with |- context [fold_left _ _ (l ++ [?x])] => specialize (IH (l ++ [x])) end.
    rewrite app_length, Nat.add_1_r in IH. rewrite IH, <- app_assoc. reflexivity. }
  specialize (K (degree w) []). cbn [length app] in K. rewrite K. exact (f_equal (fun x => firstn (N.to_nat nn) (blake2_tree w true (par_tree w nn (length (pk p)) 0 1) (ps p) (pp p) x))
    (flat_map_concat_map _ _)).
Qed.

(** BLAKE2X: the nodes derived from the root digest [h0]. Specification; no code of /repo. *)
Definition x_hash_out (w : N) (n : nat) (p : b2_params) (h0 : list N) : list N :=
  flat_map (fun i => x_node w (N.of_nat n) (ps p) (pp p) i (Nat.min (hb w) (n - i * hb w)) h0) (seq 0 ((n + hb w - 1) / hb w)).
(** Specification; no code of /repo. *)
Definition x_stream_out (w : N) (p : b2_params) (h0 : list N) (n : nat) : list N :=
  squeeze_stream S (fun i => x_node w (x_unknown w) (ps p) (pp p) i (hb w) h0) (hb w) n 0%nat.
