(** * Equal digests of the types of the library (C56). *)
From Verif Require Import Base Lemmas WordLemmas TableLemmas SpecCommon Hasher HasherSpec HasherProof Library LibraryProof XLibraryProof LibraryTypes
  LibraryTypesProof Md5Spec Sha1Spec Sha2 Sha2Spec Sha2Proof Sm3Spec WhirlpoolSpec StreebogSpec StreebogProof Blake2 Blake2Spec Blake2pSpec Blake2Sim Blake2pSim BlakeSpec BlakeProof EchoSpec
  EchoSim GroestlSpec KupynaSpec JhSpec LshSpec LshProof SkeinSpec SkeinSim KeccakSpec Sha3Spec K12Spec AsconSpec EschSpec Inputs PadInj PadInjSponge Process ProcessTypes
  Bind BindTypes Inj InjArx InjCols InjCode CollideSpec Collide CollideSponge CollideSponge2 CollideWords PropertiesPad.

(** ** Decidable equality *)
Lemma pair_dec {A B} : dec A -> dec B -> dec (A * B).
Proof. intros a b [x y] [u v]. destruct (a x u), (b y v); subst; auto; right; congruence. Qed.
Definition n_dec : dec N := N.eq_dec.
Definition r4_dec : dec (N * N * N * N) := pair_dec (pair_dec (pair_dec n_dec n_dec) n_dec) n_dec.
Definition r5_dec : dec (N * N * N * N * N) := pair_dec r4_dec n_dec.
Definition r8_dec : dec (N * N * N * N * N * N * N * N) := pair_dec (pair_dec (pair_dec r5_dec n_dec) n_dec) n_dec.
Definition ctr_dec : dec (list N * N) := pair_dec ns_dec n_dec.
Definition b2_dec : dec (list N * N * bool) := pair_dec ctr_dec Bool.bool_dec.
Definition sb_dec : dec (N * list N) := pair_dec n_dec ns_dec.

(** ** MD5, SHA-1, SHA-2, SM3, Whirlpool, Streebog: the whole chaining value *)
Lemma be_md k : (8 <= k)%nat -> forall x y, x < 2 ^ 64 -> y < 2 ^ 64 -> be_bytes k x = be_bytes k y -> x = y.
Proof.
  intros Hk x y Hx Hy. assert (P : 2 ^ 64 <= 256 ^ N.of_nat k) by (change (2 ^ 64) with (256 ^ 8); apply N.pow_le_mono_r; [discriminate|lia]).
  apply be_bytes_inj; lia.
Qed.
Lemma le_md k : (8 <= k)%nat -> forall x y, x < 2 ^ 64 -> y < 2 ^ 64 -> le_bytes k x = le_bytes k y -> x = y.
Proof.
  intros Hk x y Hx Hy. assert (P : 2 ^ 64 <= 256 ^ N.of_nat k) by (change (2 ^ 64) with (256 ^ 8); apply N.pow_le_mono_r; [discriminate|lia]).
  apply le_bytes_inj; lia.
Qed.
Lemma md_be_suffix bs k : (0 < bs)%nat -> (8 <= k)%nat -> suffix_free (2 ^ 61) (md_inputs bs (be_bytes k)).
Proof. intros Hb Hk. apply md_suffix; [exact Hb|intros x y; rewrite !be_bytes_length; reflexivity|exact (be_md k Hk)]. Qed.
Lemma md_le_suffix bs k : (0 < bs)%nat -> (8 <= k)%nat -> suffix_free (2 ^ 61) (md_inputs bs (le_bytes k)).
Proof. intros Hb Hk. apply md_suffix; [exact Hb|intros x y; rewrite !le_bytes_length; reflexivity|exact (le_md k Hk)]. Qed.

Lemma md5_collide : equal_digests md5_type md5_spec (below (2 ^ 61)) (fun _ => md_inputs 64 (le_bytes 8)) (fun _ => in_step rfc_md5_compress rfc_md5_iv).
Proof.
  eapply (full_collide _ _ _ _ (fun _ => rfc_md5_compress) (fun _ => rfc_md5_iv) _ (wreg4 32));
    [| |intros p; exact md5_out_inj|exact (processes_collide _ _ _ _ _ _ (2 ^ 61) r4_dec ns_dec C47_md5 (fun _ _ => md_le_suffix 64 8 ltac:(lia) ltac:(lia)))].
  - intros _ _. repeat split; reflexivity.
  - intros. apply md5_words.
Qed.
Lemma sha1_collide : equal_digests sha1_type sha1_spec (below (2 ^ 61)) (fun _ => md_inputs 64 (be_bytes 8)) (fun _ => in_step fips_sha1_compress fips_sha1_iv).
Proof.
  eapply (full_collide _ _ _ _ (fun _ => fips_sha1_compress) (fun _ => fips_sha1_iv) _ (wreg5 32));
    [| |intros p; exact sha1_out_inj|exact (processes_collide _ _ _ _ _ _ (2 ^ 61) r5_dec ns_dec C47_sha1 (fun _ _ => md_be_suffix 64 8 ltac:(lia) ltac:(lia)))].
  - intros _ _. repeat split; reflexivity.
  - intros. apply sha1_words.
Qed.
Lemma regs_all P n r : n = (p_k P * 8)%nat -> firstn n (regs_bytes P r) = regs_bytes P r.
Proof. intros ->. apply firstn_all2. rewrite regs_bytes_length. reflexivity. Qed.
Lemma sha256_collide : equal_digests sha256_type sha256_spec (below (2 ^ 61)) (fun _ => md_inputs 64 (be_bytes 8)) (fun _ => in_step (fips_sha2_compress params256) iv_256).
Proof.
  eapply (full_collide _ _ _ _ (fun _ => fips_sha2_compress params256) (fun _ => iv_256) (fun _ r => firstn 32 (regs_bytes params256 r)) (wreg8 32));
    [| | |exact (processes_collide _ _ _ _ _ _ (2 ^ 61) r8_dec ns_dec (proj1 (proj2 C47_sha2)) (fun _ _ => md_be_suffix 64 8 ltac:(lia) ltac:(lia)))].
  - intros _ _. repeat split; reflexivity.
  - intros. apply (sha2_words params256).
  - intros p r1 r2 H1 H2 E. rewrite !(regs_all params256) in E by reflexivity. exact (sha2_out_inj params256 r1 r2 eq_refl H1 H2 E).
Qed.
Lemma sha512_collide T : T = sha512_type 512 \/ T = sha512_static_type 512 ->
  equal_digests T (sha2_spec W64 512) (below (2 ^ 61)) (fun _ => md_inputs 128 (be_bytes 16)) (fun _ => in_step (fips_sha2_compress params512) (iv_of W64 512)).
Proof.
  intros HT. assert (B : bits_up_to 512 512) by (repeat split; discriminate).
  eapply (full_collide _ _ _ _ (fun _ => fips_sha2_compress params512) (fun _ => iv_of W64 512) (fun _ r => firstn (N.to_nat (512 / 8)) (regs_bytes params512 r)) (wreg8 64)).
  - intros _ _. repeat split; reflexivity.
  - intros. apply (sha2_words params512).
  - intros p r1 r2 H1 H2 E. rewrite !(regs_all params512) in E by reflexivity. exact (sha2_out_inj params512 r1 r2 eq_refl H1 H2 E).
  - apply (processes_collide _ _ _ _ _ _ (2 ^ 61) r8_dec ns_dec); [|intros; apply md_be_suffix; lia].
    pose proof (proj2 (proj2 (proj2 C47_sha2)) 512 B) as [X Y]. destruct HT; subst T; assumption.
Qed.
Lemma sm3_collide : equal_digests sm3_type sm3_spec (below (2 ^ 61)) (fun _ => md_inputs 64 (be_bytes 8)) (fun _ => in_step gb_compress gb_iv).
Proof.
  eapply (full_collide _ _ _ _ (fun _ => gb_compress) (fun _ => gb_iv) (fun _ => flat_map (be_bytes 4)) (wlen 32 8));
    [| | |exact (processes_collide _ _ _ _ _ _ (2 ^ 61) ns_dec ns_dec C47_sm3 (fun _ _ => md_be_suffix 64 8 ltac:(lia) ltac:(lia)))].
  - intros _ _. split; [reflexivity|repeat constructor].
  - intros. apply sm3_words. assumption.
  - intros p r1 r2 [L1 W1] [L2 W2] E. apply (be_flat_inj 4) in E; auto. lia.
Qed.
Lemma whirlpool_collide : equal_digests whirlpool_type whirlpool_spec (below (2 ^ 61)) (fun _ => md_inputs 64 (be_bytes 32)) (fun _ => in_step wp_compress (repeat 0 64)).
Proof.
  eapply (full_collide _ _ _ _ (fun _ => wp_compress) (fun _ => repeat 0 64) (fun _ h => h) (fun _ => True));
    [auto|auto|auto|exact (processes_collide _ _ _ _ _ _ (2 ^ 61) ns_dec ns_dec C47_whirlpool (fun _ _ => md_be_suffix 64 32 ltac:(lia) ltac:(lia)))].
Qed.
Lemma streebog_collide T : T = streebog_type 512 \/ T = streebog_static_type 512 -> equal_digests T (sb_code_spec 512) (below (2 ^ 61)) (fun _ => streebog_inputs add64 sb_sum)
  (fun _ => in_step (fun h x => sbs_g (fst x) h (snd x)) (sbs_iv 512)).
Proof.
  intros HT. eapply (full_collide _ _ _ _ (fun _ h x => sbs_g (fst x) h (snd x)) (fun _ => sbs_iv 512) (fun _ => skipn (64 - N.to_nat (512 / 8))) (fun _ => True)); auto.
  apply (processes_collide _ _ _ _ _ _ (2 ^ 61) ns_dec sb_dec); [|intros; apply streebog_suffix].
  pose proof (C47_streebog 512 (or_intror (or_introl eq_refl))) as [X Y]. destruct HT; subst T; assumption.
Qed.

(** ** Functions whose digest may show only part of the chaining value *)
Lemma fold_returns {A B} (step : A -> B -> A) (dA : dec A) (dB : dec B) iv out l1 l2 : l1 <> l2 ->
  out (fold_left step l1 iv) = out (fold_left step l2 iv) -> in_step_returns_or_out step iv out l1 l2.
Proof.
  intros N E. destruct (dA (fold_left step l1 iv) (fold_left step l2 iv)) as [X|X]; [|right; right; split; assumption].
  destruct (fold_collide step dA dB iv l1 l2 X N); [left|right; left]; assumption.
Qed.
Lemma lsh_collide w hs : wide w -> bits_up_to (8 * w) hs -> both_equal (lsh_type w hs) (lsh_static_type w hs) (lsh_spec w hs) any_length
  (fun _ => lsh_inputs w) (fun _ => in_step_returns_or_out (lss_CF w) (lss_iv w hs)
     (fun cv => firstn (N.to_nat (hs / 8)) (words_bytes (N.to_nat (w / 8)) (map (fun l => N.lxor (nth l cv 0) (nth (l + 8) cv 0)) (seq 0 8))))).
Proof.
  intros Hw H. destruct (C43_lsh_inputs w hs Hw H) as [X Y].
  assert (Z : 0 < w) by (destruct Hw; subst w; reflexivity).
  assert (K : forall m1 m2, is_bytes m1 -> is_bytes m2 -> m1 <> m2 -> lsh_inputs w m1 <> lsh_inputs w m2).
  { intros m1 m2 M1 M2 N E. apply N. exact (C43_lsh w Z m1 m2 M1 M2 E). }
  split; [eapply (processes_equal _ _ _ _ _ _ any_length); [exact X|]|eapply (processes_equal _ _ _ _ _ _ any_length); [exact Y|]];
    intros ops m1 m2 C p M1 M2 L1 L2 N E; apply fold_returns; auto using ns_dec.
Qed.

(** ** BLAKE *)
Lemma be_words_ok k n : forall d, bytes_ok d -> words_ok (8 * N.of_nat k) (be_words k n d).
Proof.
  induction n as [|n IH]; intros d Hd; cbn [be_words]; [constructor|]. constructor; [|apply IH, Forall_skipn, Hd].
  unfold be_word. assert (F : bytes_ok (rev (firstn k d))) by (apply Forall_rev, Forall_firstn, Hd). pose proof (le_word_lt _ F) as L.
  eapply N.lt_le_trans; [exact L|]. rewrite rev_length, firstn_length. replace (2 ^ (8 * N.of_nat k)) with (256 ^ N.of_nat k) by (rewrite N.pow_mul_r; reflexivity).
  apply N.pow_le_mono_r; [discriminate|lia].
Qed.
Lemma blake_salt hs (T : htype Blake.blake) ops : hcalls T ops -> is_bytes (params_after (blake_spec hs) ops).
Proof.
  apply (params_inv T (blake_spec hs) is_bytes); [apply is_bytes_zeros|]. intros q v p p' Hv Hp E. cbn in E. unfold blake_set in E.
  destruct (length v =? 0)%nat; [injection E as <-; apply is_bytes_zeros|]. destruct (length v =? _)%nat; [injection E as <-; exact Hv|discriminate].
Qed.
Definition blake_step (hs : N) (salt : list N) (h : list N) (x : list N * N) : list N :=
  compressb (blake_w hs) h (be_words (wb (blake_w hs)) 4 salt) (be_words (wb (blake_w hs)) 16 (fst x)) (snd x).
Lemma blake_any hs : In hs [224; 256; 384; 512] -> both_equal (blake_type hs) (blake_static_type hs) (blake_spec hs) (below (2 ^ 61)) (fun _ => blake_inputs hs)
  (fun salt => in_step_or_out (blake_step hs salt) (blake_IV hs) (fun h => firstn (N.to_nat (hs / 8)) (flat_map (be_bytes (wb (blake_w hs))) h))).
Proof. intros H. exact (both_collide _ _ _ _ _ _ _ (2 ^ 61) ns_dec ctr_dec (C47_blake hs H) (fun _ => blake_suffix hs)). Qed.
Lemma blake_collide hs : In hs [256; 512] -> both_equal (blake_type hs) (blake_static_type hs) (blake_spec hs) (below (2 ^ 61)) (fun _ => blake_inputs hs)
  (fun salt => in_step (blake_step hs salt) (blake_IV hs)).
Proof.
  intros H. assert (H' : In hs [224; 256; 384; 512]) by (destruct H as [<-|[<-|[]]]; cbn; auto). destruct (blake_any hs H') as [X Y].
  assert (W : blake_w hs = 64 \/ blake_w hs = 32) by (destruct H as [<-|[<-|[]]]; cbn; auto).
  assert (E8 : 8 * N.of_nat (wb (blake_w hs)) = blake_w hs) by (destruct W as [-> | ->]; reflexivity).
  assert (Z : N.to_nat (hs / 8) = (8 * wb (blake_w hs))%nat) by (destruct H as [<-|[<-|[]]]; reflexivity).
  assert (I : wlen (blake_w hs) 8 (blake_IV hs)) by (destruct H as [<-|[<-|[]]]; (split; [reflexivity|repeat constructor])).
  assert (G : forall T : htype Blake.blake, equal_digests T (blake_spec hs) (below (2 ^ 61)) (fun _ => blake_inputs hs)
    (fun salt => in_step_or_out (blake_step hs salt) (blake_IV hs) (fun h => firstn (N.to_nat (hs / 8)) (flat_map (be_bytes (wb (blake_w hs))) h))) ->
    equal_digests T (blake_spec hs) (below (2 ^ 61)) (fun _ => blake_inputs hs) (fun salt => in_step (blake_step hs salt) (blake_IV hs))).
  { intros T D. eapply (full_collide T (blake_spec hs) (below (2 ^ 61)) (fun _ => blake_inputs hs) (blake_step hs) (fun _ => blake_IV hs)
      (fun _ h => firstn (N.to_nat (hs / 8)) (flat_map (be_bytes (wb (blake_w hs))) h)) (wlen (blake_w hs) 8)); [auto| | |exact D].
    - intros ops m b h C _ _ Hb [_ Hh]. unfold blake_step. apply compressb_words; auto.
      + rewrite <- E8 at 1. apply be_words_ok. exact (blake_salt hs T ops C).
      + unfold blake_inputs in Hb. cbv zeta in Hb. apply in_map_iff in Hb. destruct Hb as (i & <- & _). cbn [snd]. unfold ctrb.
        destruct (_ <? _)%nat; [apply N.mod_lt; discriminate|reflexivity].
    - intros p h1 h2 [L1 W1] [L2 W2] F. rewrite Z in F.
      assert (A : forall h, length h = 8%nat -> firstn (8 * wb (blake_w hs)) (flat_map (be_bytes (wb (blake_w hs))) h) = flat_map (be_bytes (wb (blake_w hs))) h).
      { intros h L. apply firstn_all2. rewrite flat_be_bytes_length, L. lia. }
      rewrite !A in F by assumption. apply be_flat_inj in F; [exact F|lia|rewrite E8; assumption..]. }
  split; apply G; assumption.
Qed.

(** ** BLAKE2 *)
Lemma b2_key w p : w = 64 \/ w = 32 -> b2_params_ok w p -> (length (pk p) <= 128)%nat.
Proof. intros Hw (_ & L & _). destruct (sizes_b2 w Hw) as (H & _). lia. Qed.
Lemma blake2_params w ty hs (T : htype (blake2 w ty)) ops : hcalls T ops -> b2_params_ok w (params_after (blake2_spec w hs) ops).
Proof. exact (params_inv T (blake2_spec w hs) (b2_params_ok w) (b2_default_ok w) (b2_set_ok w) ops). Qed.
Lemma init_h_words w t s p : w = 64 \/ w = 32 -> tree_ok w t -> half_ok w s -> half_ok w p -> wlen w 8 (init_h w t s p).
Proof.
  intros Hw Ht Hs Hp. destruct (param_block_ok w t s p Hw Ht Hs Hp) as [B _]. unfold init_h.
  assert (E8 : 8 * N.of_nat (wb w) = w) by (destruct Hw as [-> | ->]; reflexivity).
  pose proof (le_words_lt (wb w) 8 (param_block w t s p) B) as W. rewrite E8 in W. pose proof (le_words_length (wb w) 8 (param_block w t s p)) as L.
  assert (I : words_ok w (IV2 w) /\ length (IV2 w) = 8%nat) by (destruct Hw; subst w; (split; [repeat constructor|reflexivity])). destruct I as [I LI].
  split; [rewrite map2_length; lia|]. revert W. generalize (le_words (wb w) 8 (param_block w t s p)) as l. clear - I. revert I. generalize (IV2 w) as a.
  induction a as [|x a IH]; intros I [|y l] W; try constructor; inversion I; inversion W; subst; [apply lxor_lt|apply IH]; assumption.
Qed.
Lemma seq_tree_ok w nn p noff : w = 64 \/ w = 32 -> nn <= w -> b2_params_ok w p -> noff < (if w =? 64 then 2 ^ 64 else 2 ^ 48) -> tree_ok w (seq_tree nn (pk p) noff).
Proof.
  intros Hw Hn (_ & L & _) Ho. destruct (sizes_b2 w Hw) as (H & _ & _ & H2 & _). unfold seq_tree, tree_ok.
  cbn [t_len t_key t_fanout t_depth t_leaf t_noff t_ndepth t_inner]. repeat split; try lia.
Qed.
Lemma b2_step_words w fn h d x : w = 64 \/ w = 32 -> In x (blake2_inputs w d) -> words_ok w h -> wlen w 8 (b2_step w fn h x).
Proof.
  intros Hw Hx Hh. unfold b2_step. apply F2_words; auto.
  assert (C : forall n, ctr2 n < 2 ^ 61) by (intros n; apply N.mod_lt; discriminate).
  destruct (sizes_b2 w Hw) as (_ & Hb & _). unfold blake2_inputs in Hx. cbv zeta in Hx. apply in_app_or in Hx. destruct Hx as [Hx|[<-|[]]].
  - apply in_map_iff in Hx. destruct Hx as (i & <- & _). cbn [fst snd]. specialize (C (i * bb w)%nat). lia.
  - cbn [fst snd]. specialize (C (length d)). lia.
Qed.
Lemma b2_fold_words w fn l : forall h, (forall x, In x l -> forall h, words_ok w h -> wlen w 8 (b2_step w fn h x)) -> wlen w 8 h -> wlen w 8 (fold_left (b2_step w fn) l h).
Proof.
  induction l as [|x l IH]; intros h H Hh; [exact Hh|]. cbn [fold_left]. apply IH; [intros; apply H; [right|]; assumption|].
  apply H; [left; reflexivity|apply Hh].
Qed.
Lemma b2_bytes_inj w h1 h2 : w = 64 \/ w = 32 -> wlen w 8 h1 -> wlen w 8 h2 -> words_bytes (wb w) h1 = words_bytes (wb w) h2 -> h1 = h2.
Proof.
  intros Hw [L1 W1] [L2 W2] E. apply (le_flat_inj (wb w)); [lia| | |exact E]; (replace (8 * N.of_nat (wb w)) with w by (destruct Hw; subst w; reflexivity); assumption).
Qed.
Lemma blake2_any w hs : w = 64 \/ w = 32 -> bits_up_to (8 * w) hs ->
  both_equal (blake2_type w BHash hs) (blake2_static_type w BHash hs) (blake2_spec w hs) (below (2 ^ 61 - 128)) (fun p m => blake2_inputs w (key_pad w (pk p) ++ m))
    (fun p => in_step_or_out (b2_step w false) (init_h w (seq_tree (hs / 8) (pk p) 0) (ps p) (pp p)) (fun h => firstn (N.to_nat (hs / 8)) (words_bytes (wb w) h))).
Proof.
  intros Hw H. destruct (C47_blake2 w hs Hw H) as [X Y].
  split; [eapply (processes_collide _ _ _ _ _ _ (2 ^ 61 - 128) ns_dec b2_dec X)|eapply (processes_collide _ _ _ _ _ _ (2 ^ 61 - 128) ns_dec b2_dec Y)];
    intros ops C; apply (blake2_suffix w); auto; apply (b2_key w); auto; eapply blake2_params; exact C.
Qed.
Lemma blake2_collide w : w = 64 \/ w = 32 ->
  both_equal (blake2_type w BHash (8 * w)) (blake2_static_type w BHash (8 * w)) (blake2_spec w (8 * w)) (below (2 ^ 61 - 128)) (fun p m => blake2_inputs w (key_pad w (pk p) ++ m))
    (fun p => in_step (b2_step w false) (init_h w (seq_tree w (pk p) 0) (ps p) (pp p))).
Proof.
  intros Hw. assert (B : bits_up_to (8 * w) (8 * w)) by (destruct Hw; subst w; repeat split; discriminate).
  assert (D8 : 8 * w / 8 = w) by (rewrite N.mul_comm; apply N.div_mul; discriminate).
  destruct (blake2_any w (8 * w) Hw B) as [X Y].
  assert (G : forall T : htype (blake2 w BHash), 
    equal_digests T (blake2_spec w (8 * w)) (below (2 ^ 61 - 128)) (fun p m => blake2_inputs w (key_pad w (pk p) ++ m))
     (fun p => in_step_or_out (b2_step w false) (init_h w (seq_tree (8 * w / 8) (pk p) 0) (ps p) (pp p)) (fun h => firstn (N.to_nat (8 * w / 8)) (words_bytes (wb w) h))) ->
    equal_digests T (blake2_spec w (8 * w)) (below (2 ^ 61 - 128)) (fun p m => blake2_inputs w (key_pad w (pk p) ++ m))
     (fun p => in_step (b2_step w false) (init_h w (seq_tree w (pk p) 0) (ps p) (pp p)))).
  { intros T D. rewrite D8 in D.
    apply (full_collide T (blake2_spec w (8 * w)) (below (2 ^ 61 - 128)) (fun p m => blake2_inputs w (key_pad w (pk p) ++ m)) (fun _ => b2_step w false)
      (fun p => init_h w (seq_tree w (pk p) 0) (ps p) (pp p)) (fun _ h => firstn (N.to_nat w) (words_bytes (wb w) h)) (wlen w 8)); [| | |exact D].
    - intros ops C. pose proof (blake2_params w BHash (8 * w) T ops C) as P. apply init_h_words; auto; try apply P.
      apply seq_tree_ok; auto; [lia|destruct (w =? 64); reflexivity].
    - intros ops m b h C _ _ Hb [_ Hh]. eapply b2_step_words; eauto.
    - intros p h1 h2 W1 W2 F. apply (b2_bytes_inj w); auto.
      rewrite !firstn_all2 in F; [exact F|..]; rewrite words_bytes_length; [rewrite (proj1 W2)|rewrite (proj1 W1)]; destruct Hw; subst w; vm_compute; lia. }
  split; apply G; assumption.
Qed.
Lemma blake2x_collide w hs : w = 64 \/ w = 32 -> bits_up_to (8 * w * (w / 8) * 4 - 16) hs ->
  both_equal (blake2_type w BXhash hs) (blake2_static_type w BXhash hs) (blake2x_spec w hs) (below (2 ^ 61 - 128)) (fun p m => blake2_inputs w (key_pad w (pk p) ++ m))
    (fun p => in_step_or_out (b2_step w false) (init_h w (seq_tree (N.of_nat (hb w)) (pk p) (xfield w 0 (N.of_nat (N.to_nat (hs / 8))))) (ps p) (pp p))
      (fun h => x_hash_out w (N.to_nat (hs / 8)) p (words_bytes (wb w) h))).
Proof.
  intros Hw H. destruct (C47_blake2x w hs Hw H) as [X Y].
  split; [eapply (processes_collide _ _ _ _ _ _ (2 ^ 61 - 128) ns_dec b2_dec X)|eapply (processes_collide _ _ _ _ _ _ (2 ^ 61 - 128) ns_dec b2_dec Y)];
    intros ops C; apply (blake2_suffix w); auto; apply (b2_key w); auto.
  - exact (params_inv (blake2_type w BXhash hs) (blake2x_spec w hs) (b2_params_ok w) (b2_default_ok w) (b2_set_ok w) ops C).
  - exact (params_inv (blake2_static_type w BXhash hs) (blake2x_spec w hs) (b2_params_ok w) (b2_default_ok w) (b2_set_ok w) ops C).
Qed.
Lemma blake2x_xof_collide w : w = 64 \/ w = 32 ->
  equal_streams (blake2x_xof_type w) (blake2x_xof_spec w) (below (2 ^ 61 - 128)) (fun p m => blake2_inputs w (key_pad w (pk p) ++ m))
    (fun n p => in_step_or_out (b2_step w false) (init_h w (seq_tree (N.of_nat (hb w)) (pk p) (xfield w 0 (x_unknown w))) (ps p) (pp p))
      (fun h => x_stream_out w p (words_bytes (wb w) h) n)).
Proof.
  intros Hw. eapply (xprocesses_collide _ _ _ _ _ _ (2 ^ 61 - 128) ns_dec b2_dec (C47_blake2x_xof w Hw)).
  intros ops C. apply (blake2_suffix w); auto. apply (b2_key w); auto.
  exact (xparams_inv (blake2x_xof_type w) (blake2x_xof_spec w) (b2_params_ok w) (b2_default_ok w) (b2_set_ok w) ops C).
Qed.

(** ** BLAKE2bp and BLAKE2sp *)
Lemma concat_len_inj {A} k (a : list (list A)) : forall b, length a = length b -> Forall (fun d => length d = k) a -> Forall (fun d => length d = k) b -> concat a = concat b -> a = b.
Proof.
  induction a as [|x a IH]; intros [|y b] L Fa Fb E; try discriminate; [reflexivity|]. inversion Fa; inversion Fb; subst. cbn [concat] in E.
  apply app_inj_head_len in E; [|congruence]. destruct E as [-> E]. f_equal. apply IH; auto.
Qed.
Lemma concat_length_all {A} k (a : list (list A)) : Forall (fun d => length d = k) a -> length (concat a) = (length a * k)%nat.
Proof. induction 1 as [|x a H _ IH]; [reflexivity|]. cbn [concat length]. rewrite app_length, IH, H. reflexivity. Qed.
Lemma filter_length_le {A} f (l : list A) : (length (filter f l) <= length l)%nat.
Proof. induction l as [|x l IH]; [reflexivity|]. cbn [filter]. destruct (f x); cbn [length]; lia. Qed.
Lemma differing {A} n (f g : nat -> A) : dec A -> {i | (i < n)%nat /\ f i <> g i} + {forall i, (i < n)%nat -> f i = g i}.
Proof.
  intros D. induction n as [|n [(i & Hi & H)|H]]; [right; lia|left; exists i; split; [lia|exact H]|].
  destruct (D (f n) (g n)) as [E|E]; [right|left; exists n; split; [lia|exact E]].
  intros i Hi. destruct (Nat.eq_dec i n) as [->|]; [exact E|apply H; lia].
Qed.
Section Tree.
  Variables (w nn : N) (p : b2_params).
  Hypotheses (Hw : w = 64 \/ w = 32) (Hn : 0 < nn <= w) (Hp : b2_params_ok w p).
  Let iv i d := init_h w (par_tree w nn (length (pk p)) i d) (ps p) (pp p).
  Let F i ins := words_bytes (wb w) (fold_left (b2_step w (i =? degree w - 1)%nat) ins (iv (N.of_nat i) 0)).
  Lemma leaf_fold l : forall acc, length (fold_left (leaf_step w nn p) l acc) = (length acc + length l)%nat /\
    (forall i, (i < length acc)%nat -> nth i (fold_left (leaf_step w nn p) l acc) [] = nth i acc []) /\
    forall i, (i < length l)%nat -> nth (length acc + i) (fold_left (leaf_step w nn p) l acc) [] = F (length acc + i) (nth i l []).
  Proof.
    induction l as [|x l IH]; intros acc; cbn [fold_left].
    - split; [cbn; lia|]. split; [reflexivity|]. intros i Hi. cbn in Hi. lia.
    - set (a := leaf_step w nn p acc x). assert (La : length a = S (length acc)) by (unfold a, leaf_step; rewrite app_length; cbn; lia).
      destruct (IH a) as (I1 & I2 & I3). split; [rewrite I1, La; cbn [length]; lia|]. split.
      + intros i Hi. rewrite I2 by lia. unfold a, leaf_step. apply app_nth1. exact Hi.
      + intros [|i] Hi.
        * rewrite I2 by lia. unfold a, leaf_step. rewrite app_nth2, Nat.add_0_r, Nat.sub_diag by lia. reflexivity.
        * cbn [length] in Hi. specialize (I3 i ltac:(lia)). rewrite La in I3. replace (length acc + S i)%nat with (S (length acc) + i)%nat by lia. exact I3.
  Qed.
  Lemma leaf_words i d : (i < 8)%nat -> wlen w 8 (fold_left (b2_step w (i =? degree w - 1)%nat) (blake2_inputs w d) (iv (N.of_nat i) 0)).
  Proof.
    intros Hi. apply b2_fold_words; [intros x Hx h Hh; eapply b2_step_words; eauto|]. destruct Hp as (_ & L & S & P).
    destruct (sizes_b2 w Hw) as (H & _ & _ & H2 & H3). apply init_h_words; auto. unfold par_tree, tree_ok.
    cbn [t_len t_key t_fanout t_depth t_leaf t_noff t_ndepth t_inner]. destruct Hw; subst w; vm_compute in H3; repeat split; try reflexivity; try lia;
      cbn [N.eqb Pos.eqb]; lia.
  Qed.
  Lemma nth_inputs i m : (i < degree w)%nat -> nth i (blake2p_inputs w (pk p) m) [] = blake2_inputs w (key_pad w (pk p) ++ leaf_part w i m).
  Proof.
    intros Hi. unfold blake2p_inputs.
    rewrite (nth_indep _ [] (blake2_inputs w (key_pad w (pk p) ++ leaf_part w 0 m))) by (rewrite map_length, seq_length; exact Hi).
    rewrite (map_nth (fun i => blake2_inputs w (key_pad w (pk p) ++ leaf_part w i m)) (seq 0 (degree w)) 0%nat i), seq_nth by exact Hi. reflexivity.
  Qed.
  Lemma degree_8 : (degree w <= 8)%nat.
  Proof. destruct Hw; subst w; vm_compute; lia. Qed.
  Lemma leaf_nth i m : (i < degree w)%nat -> nth i (fold_left (leaf_step w nn p) (blake2p_inputs w (pk p) m) []) [] = F i (blake2_inputs w (key_pad w (pk p) ++ leaf_part w i m)).
  Proof.
    intros Hi. destruct (leaf_fold (blake2p_inputs w (pk p) m) []) as (_ & _ & H). specialize (H i). cbn [length Nat.add] in H.
    rewrite H, nth_inputs by (auto; unfold blake2p_inputs; rewrite map_length, seq_length; exact Hi). reflexivity.
  Qed.
  Lemma leaf_len m : length (fold_left (leaf_step w nn p) (blake2p_inputs w (pk p) m) []) = degree w.
  Proof. destruct (leaf_fold (blake2p_inputs w (pk p) m) []) as (H & _). rewrite H. unfold blake2p_inputs. rewrite map_length, seq_length. reflexivity. Qed.
  Lemma leaves_all m : Forall (fun d => is_bytes d /\ length d = (wb w * 8)%nat) (fold_left (leaf_step w nn p) (blake2p_inputs w (pk p) m) []).
  Proof.
    apply Forall_nth. intros i d Hi. rewrite leaf_len in Hi. rewrite (nth_indep _ d []) by (rewrite leaf_len; exact Hi). rewrite leaf_nth by exact Hi.
    pose proof degree_8 as H8. split; [apply words_bytes_ok|]. unfold F. rewrite words_bytes_length, (proj1 (leaf_words i _ ltac:(lia))). reflexivity.
  Qed.
  Lemma leaf_part_bytes i m : is_bytes m -> is_bytes (leaf_part w i m).
  Proof.
    intros M. unfold is_bytes in *. rewrite Forall_forall in *. intros b Hb. unfold leaf_part in Hb. apply in_map_iff in Hb. destruct Hb as ((k & c) & <- & Hc).
    apply filter_In in Hc. destruct Hc as [Hc _]. apply in_combine_r in Hc. exact (M c Hc).
  Qed.
  Lemma leaf_part_length i m : (length (leaf_part w i m) <= length m)%nat.
  Proof.
    unfold leaf_part. rewrite map_length. etransitivity; [apply filter_length_le|]. rewrite combine_length, seq_length. lia.
  Qed.
  Lemma tree_equal m1 m2 : is_bytes m1 -> is_bytes m2 -> below (2 ^ 61 - 128) m1 -> below (2 ^ 61 - 128) m2 -> m1 <> m2 ->
    let out m := firstn (N.to_nat nn) (blake2_tree w true (par_tree w nn (length (pk p)) 0 1) (ps p) (pp p)
      (concat (fold_left (leaf_step w nn p) (blake2p_inputs w (pk p) m) []))) in
    out m1 = out m2 -> tree_collide w nn p (blake2p_inputs w (pk p) m1) (blake2p_inputs w (pk p) m2).
  Proof.
    intros M1 M2 L1 L2 N out E. pose proof (leaves_all m1) as A1. pose proof (leaves_all m2) as A2. pose proof degree_8 as H8.
    unfold tree_collide. cbv zeta. destruct (ns_dec (concat (fold_left (leaf_step w nn p) (blake2p_inputs w (pk p) m1) [])) (concat (fold_left (leaf_step w nn p) (blake2p_inputs w (pk p) m2) []))) as [C|C].
    - left. assert (EL : fold_left (leaf_step w nn p) (blake2p_inputs w (pk p) m1) [] = fold_left (leaf_step w nn p) (blake2p_inputs w (pk p) m2) []).
      { apply (concat_len_inj (wb w * 8)); auto; [rewrite !leaf_len; reflexivity| |]; eapply Forall_impl; try eassumption; intros ? []; assumption. }
      destruct (differing (degree w) (fun i => nth i (blake2p_inputs w (pk p) m1) []) (fun i => nth i (blake2p_inputs w (pk p) m2) []) (list_eq_dec b2_dec)) as [(i & Hi & Hd)|Hs].
      2:{ exfalso. apply N. apply (blake2p_inputs_inj w (pk p)); [exact Hw|].
          assert (LL : forall m, length (blake2p_inputs w (pk p) m) = degree w) by (intros; unfold blake2p_inputs; rewrite map_length, seq_length; reflexivity).
          apply (nth_ext _ _ [] []); [rewrite !LL; reflexivity|]. rewrite LL. exact Hs. }
      exists i. split; [exact Hi|]. split; [exact Hd|]. rewrite !nth_inputs in * by exact Hi.
      assert (EF : F i (blake2_inputs w (key_pad w (pk p) ++ leaf_part w i m1)) = F i (blake2_inputs w (key_pad w (pk p) ++ leaf_part w i m2)))
        by (rewrite <- !leaf_nth, EL by exact Hi; reflexivity).
      apply b2_bytes_inj in EF; [|exact Hw|apply leaf_words; lia..].
      pose proof (leaf_part_length i m1). pose proof (leaf_part_length i m2). unfold below in *.
      apply (suffix_collide _ ns_dec b2_dec _ (2 ^ 61 - 128) (fun m => blake2_inputs w (key_pad w (pk p) ++ m))); auto using leaf_part_bytes; try lia.
      + apply blake2_suffix; auto. apply (b2_key w); auto.
      + intros X. apply Hd. rewrite X. reflexivity.
    - right. assert (B : forall m, below (2 ^ 61 - 128) (concat (fold_left (leaf_step w nn p) (blake2p_inputs w (pk p) m) []))).
      { intros m. unfold below. assert (Q : length (concat (fold_left (leaf_step w nn p) (blake2p_inputs w (pk p) m) [])) = (degree w * (wb w * 8))%nat).
        { rewrite <- (leaf_len m). apply concat_length_all. eapply Forall_impl; [|apply leaves_all]; intros ? []; assumption. }
        rewrite Q. destruct Hw; subst w; vm_compute; reflexivity. }
      assert (BB : forall m, is_bytes (concat (fold_left (leaf_step w nn p) (blake2p_inputs w (pk p) m) []))).
      { intros m. apply Forall_concat. eapply Forall_impl; [|apply leaves_all]. intros ? []; assumption. }
      split.
      + intros X. apply C. assert (Hb : (0 < bb w <= 128)%nat) by (destruct Hw; subst w; vm_compute; lia). apply (blake2_inputs_inj w) in X; auto.
      + unfold out in E. unfold blake2_tree in E. rewrite !blake2_core_fold in E.
        exact (step_or_out (b2_step w true) ns_dec b2_dec _ (fun h => firstn (N.to_nat nn) (words_bytes (wb w) h)) (2 ^ 61 - 128) (fun m => blake2_inputs w (key_pad w [] ++ m))
          _ _ (blake2_suffix w [] Hw ltac:(cbn; lia)) (BB m1) (BB m2) (B m1) (B m2) C E).
  Qed.
End Tree.
Lemma blake2p_any w hs (T : htype (Blake2p.blake2p w)) : w = 64 \/ w = 32 -> bits_up_to (8 * w) hs ->
  processes T (blake2p_spec w hs) (fun p m => blake2p_inputs w (pk p) m) (leaf_step w (hs / 8)) (fun _ => [])
    (fun p l => firstn (N.to_nat (hs / 8)) (blake2_tree w true (par_tree w (hs / 8) (length (pk p)) 0 1) (ps p) (pp p) (concat l))) ->
  equal_digests T (blake2p_spec w hs) (below (2 ^ 61 - 128)) (fun p m => blake2p_inputs w (pk p) m) (fun p => tree_collide w (hs / 8) p).
Proof.
  intros Hw (H0 & Hb & H8) X. apply (processes_equal _ _ _ _ _ _ _ _ X). intros ops m1 m2 C p M1 M2 L1 L2 N E.
  assert (Hn : 0 < hs / 8 <= w) by (apply N.mod_divide in H8; [|discriminate]; destruct H8 as [k ->]; rewrite N.div_mul by discriminate; lia).
  exact (tree_equal w (hs / 8) p Hw Hn (params_inv T (blake2p_spec w hs) (b2_params_ok w) (b2_default_ok w) (b2_set_ok w) ops C) m1 m2 M1 M2 L1 L2 N E).
Qed.
Lemma blake2p_omp_any w hs sch (T : htype (Blake2p.blake2p_omp w sch)) : w = 64 \/ w = 32 -> bits_up_to (8 * w) hs ->
  processes T (blake2p_spec w hs) (fun p m => blake2p_inputs w (pk p) m) (leaf_step w (hs / 8)) (fun _ => [])
    (fun p l => firstn (N.to_nat (hs / 8)) (blake2_tree w true (par_tree w (hs / 8) (length (pk p)) 0 1) (ps p) (pp p) (concat l))) ->
  equal_digests T (blake2p_spec w hs) (below (2 ^ 61 - 128)) (fun p m => blake2p_inputs w (pk p) m) (fun p => tree_collide w (hs / 8) p).
Proof.
  intros Hw (H0 & Hb & H8) X. apply (processes_equal _ _ _ _ _ _ _ _ X). intros ops m1 m2 C p M1 M2 L1 L2 N E.
  assert (Hn : 0 < hs / 8 <= w) by (apply N.mod_divide in H8; [|discriminate]; destruct H8 as [k ->]; rewrite N.div_mul by discriminate; lia).
  exact (tree_equal w (hs / 8) p Hw Hn (params_inv T (blake2p_spec w hs) (b2_params_ok w) (b2_default_ok w) (b2_set_ok w) ops C) m1 m2 M1 M2 L1 L2 N E).
Qed.
Lemma blake2p_collide w hs : w = 64 \/ w = 32 -> bits_up_to (8 * w) hs ->
  both_equal (blake2p_type w hs) (blake2p_static_type w hs) (blake2p_spec w hs) (below (2 ^ 61 - 128)) (fun p m => blake2p_inputs w (pk p) m) (fun p => tree_collide w (hs / 8) p).
Proof. intros Hw H. destruct (C47_blake2p w hs Hw H) as [X Y]. exact (conj (blake2p_any w hs _ Hw H X) (blake2p_any w hs _ Hw H Y)). Qed.
Lemma blake2p_omp_collide w hs sch : w = 64 \/ w = 32 -> bits_up_to (8 * w) hs -> any_schedule w sch ->
  both_equal (blake2p_omp_type w hs sch) (blake2p_omp_static_type w hs sch) (blake2p_spec w hs) (below (2 ^ 61 - 128)) (fun p m => blake2p_inputs w (pk p) m) (fun p => tree_collide w (hs / 8) p).
Proof. intros Hw H Hs. destruct (C47_blake2p_omp w hs sch Hw H Hs) as [X Y]. exact (conj (blake2p_omp_any w hs sch _ Hw H X) (blake2p_omp_any w hs sch _ Hw H Y)). Qed.
