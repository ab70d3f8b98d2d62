(** * Skein: every history of calls. *)
From Verif Require Import Base Absorb Lemmas WordLemmas TableLemmas AbsorbProof Hasher HasherSpec HasherProof
  MdState MdProof BufProof SpecCommon SqueezeProof Skein SkeinSpec SkeinProof Validate.
Local Open Scope nat_scope.
Global Opaque threefish.

(** ** Specifications of the types *)
Definition skein_set (q : sk_param) (v : list N) (p : skein_params) : option skein_params :=
  Some match q with
       | SkPers => mkskein v (sk_nonce p) (sk_key p)
       | SkNonce => mkskein (sk_pers p) v (sk_key p)
       | SkKey => mkskein (sk_pers p) (sk_nonce p) v
       end.
Definition skein_default : skein_params := mkskein [] [] [].

(** skein256/512/1024 with [hs] output bits. *)
Definition skein_spec (nw : nat) (hs : N) : hash_spec sk_param :=
  {| sp_params := skein_params; sp_default := skein_default; sp_set := skein_set;
     sp_size := N.to_nat (hs / 8);
     sp_digest := skein_digest nw hs (N.to_nat (hs / 8)) |}.
(** The extendable-output forms: the output length field is all ones (section 4.7:
    output of unknown length). *)
Definition skein_xof_spec (nw : nat) : xof_spec sk_param :=
  {| xs_params := skein_params; xs_default := skein_default; xs_set := skein_set;
     xs_out := fun p msg n => skein_digest nw (2 ^ 64 - 1) n p msg |}.

Section Sim.
  Variable nw : nat.
  Hypothesis Hnw : nw = 4 \/ nw = 8 \/ nw = 16.
  Variables (xof : bool) (hs : N).
  Let bs := 8 * nw.
  Definition sk_No : N := if xof then (2 ^ 64 - 1)%N else hs.

  Lemma bsp : 0 < bs.
  Proof. unfold bs. lia. Qed.

  (** Chaining value before the message. *)
  Definition sk_G (p : skein_params) : list N :=
    let K := match sk_key p with [] => zeros nw | k => ubi nw (zeros nw) k T_key end in
    let G := ubi nw K (skein_config sk_No) T_cfg in
    let G := ubi_opt nw G (sk_pers p) T_prs in
    ubi_opt nw G (sk_nonce p) T_non.
  Definition sk_chain (p : skein_params) (msg : list N) : list N := ubi nw (sk_G p) msg T_msg.

  Lemma ubi_opt_length G M ty : length G = nw -> length (ubi_opt nw G M ty) = nw.
  Proof. intros. destruct M; [exact H|]. apply ubi_length; auto. Qed.
  Lemma key_length p : length (match sk_key p with [] => zeros nw | k => ubi nw (zeros nw) k T_key end) = nw.
  Proof. destruct (sk_key p); [apply zeros_length|]. apply ubi_length; auto. apply zeros_length. Qed.
  Lemma sk_G_length p : length (sk_G p) = nw.
  Proof. unfold sk_G. cbv zeta. repeat apply ubi_opt_length. apply ubi_length; auto. apply key_length. Qed.
  Lemma sk_chain_length p msg : length (sk_chain p msg) = nw.
  Proof. apply ubi_length; auto. apply sk_G_length. Qed.

  Definition sk_par (s : sk_st) (p : skein_params) : Prop :=
    skp s = sk_pers p /\ skn s = sk_nonce p /\ skk s = sk_key p /\ skhs s = hs.
  Definition sk_wf (s : sk_st) : Prop := length (sh (skc s)) = 2 + nw /\ length (sm (skc s)) = bs.
  Definition sk_R (s : sk_st) (p : skein_params) (msg : list N) : Prop :=
    sk_par s p /\ sksq s = false /\ ubi_inv nw T_msg (sk_G p) (skc s) msg.

  (** inject_parameter from a state between UBI calls. *)
  Lemma inject_opt par ty G m : In ty sk_types -> length G = nw -> length m = bs ->
    exists m', sk_inject nw par ty (mkst (iv_of T_msg G) m 0 0) = Ok (mkst (iv_of T_msg (ubi_opt nw G par ty)) m' 0 0)
      /\ length m' = bs.
  Proof.
    intros Hty HG Hm. destruct par as [|x par]; [exists m; auto|].
    exact (sk_inject_ok nw Hnw (x :: par) ty (mkst (iv_of T_msg G) m 0 0) G _ Hty HG ltac:(discriminate) eq_refl Hm eq_refl eq_refl).
  Qed.

  (** The configuration block. *)
  Lemma config_block K : length K = nw ->
    md_transform1 (sk_step nw 32) bs ([0%N; N.lor (sk_tw1 4) sk_lastbit] ++ K)
      (skein_config sk_No ++ zeros (bs - 32)) 0
    = Ok ([32%N; clear_first (tw T_cfg true true)] ++ ubi nw K (skein_config sk_No) T_cfg).
  Proof.
    intros HK. unfold md_transform1.
    assert (Hl : length (skein_config sk_No) = 32) by (unfold skein_config; rewrite !app_length, le_bytes_length; reflexivity).
    assert (Hb : 32 <= bs) by (unfold bs; lia).
    rewrite load_all by (rewrite app_length, zeros_length; lia). cbn [bind block_loop].
    rewrite firstn_all2 by (rewrite app_length, zeros_length; lia). f_equal. unfold sk_step.
    change (N.lor (sk_tw1 4) sk_lastbit) with (tw T_cfg true true).
    rewrite sk_block_ubi by auto.
    pose proof (ubi_split nw Hnw K [] (skein_config sk_No) T_cfg 0 eq_refl) as E. cbn [app] in E.
    rewrite E by (unfold okrem; rewrite Hl; fold bs; lia).
    rewrite Hl. fold bs. reflexivity.
  Qed.

  Lemma stores m : length m = bs ->
    (m <- store (zero_memory m) 0 0x53 ;;
     m <- store m 1 0x48 ;; m <- store m 2 0x41 ;; m <- store m 3 0x33 ;; m <- store m 4 0x01 ;;
     memcpy m 8 (le_bytes 8 sk_No) 8) = Ok (skein_config sk_No ++ zeros (bs - 32)).
  Proof.
    intros Hm. unfold zero_memory. rewrite Hm.
    unfold bs. generalize sk_No. intros x. destruct Hnw as [E|[E|E]]; rewrite E; reflexivity.
  Qed.

  Lemma sk_init_ok s p : sk_par s p -> sk_wf s ->
    exists s', sk_init nw xof s = Ok s' /\ sk_R s' p [].
  Proof.
    intros (Pp & Pn & Pk & Ph) (Hsh & Hsm). unfold sk_init. cbv zeta. unfold sk_H.
    assert (Ez : zero_memory (skipn 2 (sh (skc s))) = zeros nw).
    { unfold zero_memory. rewrite skipn_length, Hsh. f_equal. lia. }
    rewrite Ez, Pk, Pp, Pn.
    assert (Ek : exists t1 m, sk_inject nw (sk_key p) 0 (mkst ([0%N; nthN 1 (sh (skc s))] ++ zeros nw) (sm (skc s)) 0 0)
      = Ok (mkst ([0%N; t1] ++ match sk_key p with [] => zeros nw | k => ubi nw (zeros nw) k T_key end) m 0 0) /\ length m = bs).
    { destruct (sk_key p) as [|x k]; [do 2 eexists; split; [reflexivity|exact Hsm]|].
      destruct (sk_inject_ok nw Hnw (x :: k) T_key
        (mkst ([0%N; nthN 1 (sh (skc s))] ++ zeros nw) (sm (skc s)) 0 0) (zeros nw) _ ltac:(cbn; auto) (zeros_length nw) ltac:(discriminate)
        eq_refl Hsm eq_refl eq_refl) as (m & E & Hm).
      do 2 eexists. split; [exact E|exact Hm]. }
    destruct Ek as (t1 & m & -> & Hm). cbn [bind sh sm].
    pose proof (key_length p) as HK.
    pose proof (stores m Hm) as Es. 
    assert (ENo : (if xof then (2 ^ 64 - 1)%N else skhs s) = sk_No) by (rewrite Ph; reflexivity).
    rewrite ENo. clear ENo.
    destruct (store (zero_memory m) 0 83) as [m1| |]; try discriminate Es. cbn [bind] in Es |- *.
    destruct (store m1 1 72) as [m2| |]; try discriminate Es. cbn [bind] in Es |- *.
    destruct (store m2 2 65) as [m3| |]; try discriminate Es. cbn [bind] in Es |- *.
    destruct (store m3 3 51) as [m4| |]; try discriminate Es. cbn [bind] in Es |- *.
    destruct (store m4 4 1) as [m5| |]; try discriminate Es. cbn [bind] in Es |- *.
    rewrite Es. cbn [bind]. fold bs. 
    change (nthN 0 ([0%N; t1] ++ _)) with 0%N. change (skipn 2 ([0%N; t1] ++ ?x)) with x.
    rewrite config_block by exact HK. cbn [bind].
    change (skipn 2 ([32%N; clear_first (tw T_cfg true true)] ++ ?x)) with x.
    assert (Hm' : length (skein_config sk_No ++ zeros (bs - 32)) = bs).
    { unfold skein_config. rewrite !app_length, le_bytes_length, !zeros_length. cbn [length]. unfold bs. lia. }
    assert (HG : length (ubi nw match sk_key p with [] => zeros nw | k => ubi nw (zeros nw) k T_key end
        (skein_config sk_No) T_cfg) = nw) by (apply ubi_length; auto).
    destruct (inject_opt (sk_pers p) T_prs _ _ ltac:(cbn; auto 8) HG Hm') as (m6 & E6 & Hm6).
    unfold iv_of at 1 in E6. change (tw T_msg true false) with (sk_tw1 48) in E6. unfold T_prs at 1 in E6.
    rewrite E6. cbn [bind].
    destruct (inject_opt (sk_nonce p) T_non _ _ ltac:(cbn; auto 8) (ubi_opt_length _ (sk_pers p) T_prs HG) Hm6) as (m7 & E7 & Hm7).
    unfold T_non at 1 in E7. rewrite E7. cbn [bind].
    eexists. split; [reflexivity|]. unfold sk_R, sk_par. cbn [skp skn skk skhs sksq skc].
    split; [auto|]. split; [reflexivity|]. apply buf_inv_start; [exact bsp|apply le_n|exact Hm7].
  Qed.

  Lemma sk_update_ok s p msg d : sk_R s p msg -> exists s', sk_update nw s d = Ok s' /\ sk_R s' p (msg ++ d).
  Proof.
    intros (Hp & Hq & I). unfold sk_update.
    destruct (sk_upd_ok nw Hnw T_msg (sk_G p) (skc s) msg d I) as (c & E & R). rewrite E. cbn [bind].
    eexists. split; [reflexivity|]. split; [exact Hp|]. split; [exact Hq|exact R].
  Qed.

  Lemma ubi_inv_wf s p msg : sk_R s p msg -> sk_wf s.
  Proof.
    intros (_ & _ & (B & T & J & n & Emsg & HB & HT & Hc & Ht & Hm & Hl & Hp)). split; [|exact Hl].
    rewrite Hc. unfold iv_of. rewrite (sk_loop_ubi nw Hnw) by (auto using sk_G_length; cbn; auto 8).
    cbn [app length]. rewrite ubi_pre_length by (auto using sk_G_length). reflexivity.
  Qed.

  (** ** Output *)
  Definition emit (h0 : list N) (i : nat) : list N := words_bytes 8 (ubi nw h0 (le_bytes 8 (N.of_nat i)) T_out).
  Lemma emit_length h0 i : length h0 = nw -> length (emit h0 i) = bs.
  Proof. intros. unfold emit. rewrite words_bytes_length, ubi_length by auto. unfold bs. lia. Qed.

  Lemma le_bytes_mod k : forall x, le_bytes k (x mod 256 ^ N.of_nat k) = le_bytes k x.
  Proof.
    induction k; intros x; [reflexivity|]. cbn [le_bytes].
    rewrite Nat2N.inj_succ, N.pow_succ_r'. rewrite N.mod_mul_r by (try discriminate; apply N.pow_nonzero; discriminate).
    rewrite !land255_mod, !N.shiftr_div_pow2. change (2 ^ 8)%N with 256%N. f_equal.
    - rewrite (N.mul_comm 256), N.mod_add by discriminate. apply N.mod_mod. discriminate.
    - rewrite (N.mul_comm 256), N.div_add by discriminate.
      rewrite N.div_small by (apply N.mod_lt; discriminate). rewrite N.add_0_l. apply IHk.
  Qed.

  Definition obuf (m : list N) : Prop := exists x, length x = 8 /\ m = x ++ zeros (bs - 8).

  Lemma out_block h0 i m : length h0 = nw -> obuf m ->
    memcpy m 0 (le_bytes 8 (trunc 64 (N.of_nat i))) 8 = Ok (le_bytes 8 (N.of_nat i) ++ zeros (bs - 8)) /\
    md_transform1 (sk_step nw 8) bs ([0%N; shlw 64 255 56] ++ h0) (le_bytes 8 (N.of_nat i) ++ zeros (bs - 8)) (trunc 64 (N.of_nat i))
    = Ok ([8%N; clear_first (tw T_out true true)] ++ ubi nw h0 (le_bytes 8 (N.of_nat i)) T_out).
  Proof.
    intros Hh (x & Hx & ->).
    assert (Hb : 32 <= bs) by (unfold bs; lia).
    rewrite trunc_mod. change (2 ^ 64)%N with (256 ^ N.of_nat 8)%N. rewrite le_bytes_mod. split.
    - rewrite memcpy_ok by (rewrite ?app_length, ?le_bytes_length; lia). unfold overlay.
      rewrite (firstn_all2 (le_bytes 8 (N.of_nat i))) by (rewrite le_bytes_length; lia). rewrite le_bytes_length.
      change (0 + 8) with 8. rewrite skipn_app_exact by auto. reflexivity.
    - unfold md_transform1. rewrite load_all by (rewrite app_length, zeros_length, le_bytes_length; lia). cbn [bind block_loop].
      rewrite firstn_all2 by (rewrite app_length, zeros_length, le_bytes_length; lia). f_equal. unfold sk_step.
      change (shlw 64 255 56) with (tw T_out true true).
      rewrite sk_block_ubi by auto.
      pose proof (ubi_split nw Hnw h0 [] (le_bytes 8 (N.of_nat i)) T_out 0 eq_refl) as E. cbn [app] in E.
      rewrite E by (unfold okrem; rewrite le_bytes_length; fold bs; lia).
      rewrite le_bytes_length. fold bs. reflexivity.
  Qed.

  Lemma iter_S a : Nat.iter a S 0 = a.
  Proof. induction a as [|a IH]; [reflexivity|]. change (Nat.iter (S a) S 0) with (S (Nat.iter a S 0)). rewrite IH. reflexivity. Qed.

  Definition strm (h0 : list N) : nat -> nat -> list N := seg S (emit h0) bs 0.
  Lemma strm_block h0 a b n : length h0 = nw -> b + n <= bs ->
    firstn n (skipn b (emit h0 a)) = strm h0 (a * bs + b) n.
  Proof.
    intros Hh H. unfold strm.
    rewrite <- (seg_block S (emit h0) bs (fun _ => True) bsp
      (fun c _ => eq_ind_r (fun x => bs <= x) (le_n _) (emit_length h0 c Hh)) (fun _ _ => I) 0 a b n I H).
    rewrite iter_S. reflexivity.
  Qed.

  (** [k > 0] bytes of the stream have been produced. *)
  Definition sqd (h0 : list N) (k : nat) (c : st) : Prop :=
    exists a t0 t1, k = a * bs + spos c /\ 0 < spos c <= bs /\
      sh c = [t0; t1] ++ ubi nw h0 (le_bytes 8 (N.of_nat a)) T_out /\ stotal c = trunc 64 (N.of_nat (S a)).

  Lemma sk_loop_done hbk fuel c n out : sk_loop nw hbk fuel c n n out = Ok (c, out).
  Proof. destruct fuel; cbn [sk_loop]; rewrite Nat.ltb_irrefl; reflexivity. Qed.

  Lemma sk_loop_ok h0 : length h0 = nw -> forall fuel c i n processed out,
    obuf (sm c) -> stotal c = trunc 64 (N.of_nat i) -> processed < n -> n - processed <= fuel ->
    exists c', sk_loop nw h0 fuel c n processed out = Ok (c', out ++ strm h0 (i * bs) (n - processed)) /\
      obuf (sm c') /\ sqd h0 (i * bs + (n - processed)) c'.
  Proof.
    intros Hh. induction fuel; intros c i n processed out Hm Ht Hlt Hf; [lia|].
    cbn [sk_loop]. destruct (Nat.ltb_spec processed n); [|lia]. cbv zeta. fold bs.
    destruct (out_block h0 i (sm c) Hh Hm) as (E1 & E2).
    rewrite Ht, E1. cbn [bind]. rewrite E2. cbn [bind].
    change (skipn 2 ([8%N; clear_first (tw T_out true true)] ++ ?x)) with x. fold (emit h0 i).
    set (q := Nat.min (n - processed) bs). pose proof bsp as Hb.
    rewrite load_ok by (rewrite emit_length by auto; lia). cbn [bind].
    rewrite strm_block by (auto; lia). rewrite Nat.add_0_r.
    assert (Eo : obuf (le_bytes 8 (N.of_nat i) ++ zeros (bs - 8))) by (eexists; split; [apply le_bytes_length|reflexivity]).
    assert (Et : trunc 64 (trunc 64 (N.of_nat i) + 1) = trunc 64 (N.of_nat (S i))) by (rewrite trunc_add_l; f_equal; lia).
    destruct (Nat.eq_dec (processed + q) n) as [E|E].
    - rewrite E, sk_loop_done. eexists. replace (n - processed) with q by lia.
      split; [reflexivity|]. split; [exact Eo|].
      exists i. do 2 eexists. cbn [spos sh stotal]. repeat split; try lia.
    - assert (q = bs) by lia.
      match goal with |- context [sk_loop nw h0 fuel ?c1 n ?pr ?o] =>
        destruct (IHfuel c1 (S i) n pr o) as (c' & E' & H1 & H2) end.
      { exact Eo. } { exact Et. } { lia. } { lia. }
      exists c'. rewrite E'. split; [|split; [exact H1|]].
      + f_equal. f_equal. rewrite <- app_assoc. f_equal. unfold strm.
        replace (n - processed) with (q + (n - (processed + q))) by lia.
        rewrite seg_app. f_equal. f_equal. lia.
      + replace (i * bs + (n - processed)) with (S i * bs + (n - (processed + q))) by lia. exact H2.
  Qed.

  (** State after [k] squeezed bytes. *)
  Definition sk_XR (s : sk_st) (p : skein_params) (msg : list N) (k : nat) : Prop :=
    if k =? 0 then sk_R s p msg
    else sk_par s p /\ sksq s = true /\ skhb s = sk_chain p msg /\ obuf (sm (skc s)) /\ sqd (sk_chain p msg) k (skc s).

  Lemma sk_squeeze_ok s p msg k n : 0 < n -> sk_XR s p msg k ->
    exists s', sk_squeeze nw s n = Ok (s', strm (sk_chain p msg) k n) /\ sk_XR s' p msg (k + n).
  Proof.
    intros Hn H. unfold sk_XR in *. destruct (Nat.eqb_spec (k + n) 0); [lia|].
    pose proof bsp as Hb. pose proof (sk_chain_length p msg) as Hh.
    destruct (Nat.eqb_spec k 0) as [K|K].
    - subst k. pose proof H as (Hp & Hq & I). unfold sk_squeeze. rewrite Hq.
      destruct (sk_finish_ok nw Hnw T_msg (sk_G p) (skc s) msg (sk_G_length p) ltac:(cbn; auto 8) I) as (c1 & t0 & t1 & E & Hs1 & Hm1).
      rewrite E. cbn [bind]. fold (sk_chain p msg) in Hs1. unfold sk_H. rewrite Hs1.
      change (skipn 2 ([t0; t1] ++ ?x)) with x.
      fold bs in Hm1. fold bs.
      assert (Em : memset (sm c1) 0 0 bs = Ok (zeros bs)).
      { pose proof (memset_app [] (sm c1) 0 0 bs eq_refl ltac:(lia)) as E'. cbn [app] in E'. rewrite E'.
        rewrite skipn_all2 by lia. rewrite app_nil_r. reflexivity. }
      rewrite Em. cbn [bind].
      match goal with |- context [sk_loop nw _ n ?c n 0 []] =>
        destruct (sk_loop_ok (sk_chain p msg) Hh n c 0 n 0 []) as (c' & E' & H1 & H2) end.
      { exists (zeros 8). split; [reflexivity|]. cbn [sm]. unfold zeros. rewrite <- repeat_app. f_equal. unfold bs. lia. }
      { reflexivity. } { lia. } { lia. }
      rewrite E'. cbn [bind app Nat.add Nat.mul] in *. rewrite Nat.sub_0_r in *.
      eexists. split; [reflexivity|]. unfold sk_par. cbn [skp skn skk skhs sksq skc skhb].
      destruct Hp as (P1 & P2 & P3 & P4). auto 10.
    - destruct H as (Hp & Hq & Hhb & Hm & (a & t0 & t1 & Hk & Hpos & Hsh & Hxo)). unfold sk_squeeze.
      rewrite Hq, Hhb. fold bs. unfold sk_H. rewrite Hsh. change (skipn 2 ([t0; t1] ++ ?x)) with x.
      fold (emit (sk_chain p msg) a).
      pose proof Hp as (P1 & P2 & P3 & P4).
      destruct (Nat.ltb_spec (spos (skc s)) bs) as [L|L].
      + set (q := Nat.min n (bs - spos (skc s))).
        rewrite load_ok by (rewrite emit_length by auto; lia). cbn [bind].
        rewrite strm_block by (auto; lia). rewrite <- Hk.
        destruct (Nat.eq_dec q n) as [E|E].
        * rewrite E, sk_loop_done. cbn [bind]. eexists. split; [reflexivity|].
          unfold sk_par. cbn [skp skn skk skhs sksq skc skhb sm].
          split; [auto|]. split; [reflexivity|]. split; [reflexivity|]. split; [exact Hm|].
          exists a, t0, t1. cbn [spos sh stotal]. repeat split; auto; lia.
        * match goal with |- context [sk_loop nw _ n ?c n q ?o] =>
            destruct (sk_loop_ok (sk_chain p msg) Hh n c (S a) n q o) as (c' & E' & H1 & H2) end.
          { exact Hm. } { exact Hxo. } { lia. } { lia. }
          rewrite E'. cbn [bind]. eexists. split.
          -- f_equal. f_equal. unfold strm. replace (S a * bs) with (k + q) by lia.
             rewrite <- seg_app. f_equal. lia.
          -- unfold sk_par. cbn [skp skn skk skhs sksq skc skhb].
             split; [auto|]. split; [reflexivity|]. split; [reflexivity|]. split; [exact H1|].
             replace (k + n) with (S a * bs + (n - q)) by lia. exact H2.
      + cbn [bind].
        destruct (sk_loop_ok (sk_chain p msg) Hh n (skc s) (S a) n 0 []) as (c' & E' & H1 & H2).
        { exact Hm. } { exact Hxo. } { lia. } { lia. }
        rewrite E'. cbn [bind app]. rewrite Nat.sub_0_r in *. eexists. split.
        -- f_equal. f_equal. f_equal. lia.
        -- unfold sk_par. cbn [skp skn skk skhs sksq skc skhb].
           split; [auto|]. split; [reflexivity|]. split; [reflexivity|]. split; [exact H1|].
           replace (k + n) with (S a * bs + n) by lia. exact H2.
  Qed.

  Lemma sk_XR_wf s p msg k : sk_XR s p msg k -> sk_par s p /\ sk_wf s.
  Proof.
    unfold sk_XR. destruct (Nat.eqb_spec k 0).
    - intros R. split; [exact (proj1 R)|exact (ubi_inv_wf s p msg R)].
    - intros (Hp & _ & _ & (x & Hx & Hm) & (a & t0 & t1 & _ & _ & Hs & _)). split; [exact Hp|]. split.
      + rewrite Hs. cbn [app length]. rewrite ubi_length by (auto using sk_chain_length). reflexivity.
      + rewrite Hm, app_length, zeros_length. unfold bs in *. lia.
  Qed.

  Lemma sk_clear_ok s p : sk_par s p -> sk_wf s ->
    exists s1, sk_clear s = Ok s1 /\ sk_par s1 skein_default /\ sk_wf s1.
  Proof.
    intros (P1 & P2 & P3 & P4) (Hs & Hm). eexists. split; [reflexivity|]. split.
    - unfold sk_par. cbn. auto.
    - unfold sk_wf, sk_wipe, zero_memory. cbn [skc sh sm]. rewrite !zeros_length. auto.
  Qed.

  Lemma sk_set_ok q v s p : sk_par s p -> sk_wf s ->
    exists s1 s2 p', sk_set q v s = Done s1 /\ skein_set q v p = Some p' /\ sk_init nw xof s1 = Ok s2 /\ sk_R s2 p' [].
  Proof.
    intros (P1 & P2 & P3 & P4) (Hs & Hm).
    assert (G : forall s1 p', sk_set q v s = Done s1 -> skein_set q v p = Some p' -> sk_par s1 p' -> sk_wf s1 ->
      exists s1 s2 p', sk_set q v s = Done s1 /\ skein_set q v p = Some p' /\ sk_init nw xof s1 = Ok s2 /\ sk_R s2 p' []).
    { intros s1 p' E1 E2 A B. destruct (sk_init_ok s1 p' A B) as (s2 & E3 & R). eauto 8. }
    destruct q; eapply G; try reflexivity; unfold sk_par, sk_wf; cbn; auto.
  Qed.

  Lemma output_strm h0 n : length h0 = nw -> skein_output nw h0 n = strm h0 0 n.
  Proof.
    intros Hh. unfold skein_output, strm. fold (emit h0). fold bs.
    apply (squeeze_stream_seg S (emit h0) bs (fun _ => True) bsp); auto.
    intros c _. rewrite emit_length; auto.
  Qed.
  Lemma digest_strm p msg n : skein_digest nw sk_No n p msg = strm (sk_chain p msg) 0 n.
  Proof. exact (output_strm (sk_chain p msg) n (sk_chain_length p msg)). Qed.
  Lemma strm_bytes h0 a n : bytes_ok (strm h0 a n).
  Proof. apply seg_bytes. intros c. apply words_bytes_ok. Qed.
End Sim.

Section Types.
  Variable nw : nat.
  Hypothesis Hnw : nw = 4 \/ nw = 8 \/ nw = 16.

  Lemma skein_sim hs : (0 < hs / 8)%N -> sim (skein nw) (skein_spec nw hs) (sk_R nw false hs) true.
  Proof.
    intros H0. constructor; unfold skein; cbn [hp hp_final hp_size].
    - intros s p msg R. exact (sk_init_ok nw Hnw false hs s p (proj1 R) (ubi_inv_wf nw Hnw false hs s p msg R)).
    - intros s p msg d _ R. exact (sk_update_ok nw Hnw false hs s p msg d R).
    - intros _ s p msg R.
      destruct (sk_clear_ok nw hs s p (proj1 R) (ubi_inv_wf nw Hnw false hs s p msg R)) as (s1 & E & A & B).
      destruct (sk_init_ok nw Hnw false hs s1 _ A B) as (s2 & E2 & R2). exists s1, s2. auto.
    - intros q v s p msg _ R.
      destruct (sk_set_ok nw Hnw false hs q v s p (proj1 R) (ubi_inv_wf nw Hnw false hs s p msg R))
        as (s1 & s2 & p' & E1 & E2 & E3 & R2).
      change (sp_set (skein_spec nw hs) q v p) with (skein_set q v p). rewrite E2. eauto.
    - intros s p msg R. pose proof R as ((_ & _ & _ & Hh) & _). unfold sk_final. rewrite Hh.
      destruct (sk_squeeze_ok nw Hnw false hs s p msg 0 (N.to_nat (hs / 8)) ltac:(lia) R) as (s' & E & _).
      exists s'. cbn [sp_digest skein_spec].
      pose proof (digest_strm nw Hnw false hs p msg (N.to_nat (hs / 8))) as E'. unfold sk_No in E'. rewrite E'. exact E.
    - intros s p msg ((_ & _ & _ & Hh) & _). rewrite Hh. cbn [sp_size skein_spec]. rewrite N2Nat.id. reflexivity.
    - intros s p msg _. cbn [sp_digest sp_size skein_spec].
      pose proof (digest_strm nw Hnw false hs p msg (N.to_nat (hs / 8))) as E. unfold sk_No in E. rewrite E. apply seg_length.
    - intros s p msg _. cbn [sp_digest sp_size skein_spec].
      pose proof (digest_strm nw Hnw false hs p msg (N.to_nat (hs / 8))) as E. unfold sk_No in E. rewrite E. apply strm_bytes.
    - cbn [sp_size skein_spec]. lia.
  Qed.

  Lemma skein_xof_sim hs : xsim (skein_xof nw) (skein_xof_spec nw) (sk_XR nw true hs) true.
  Proof.
    constructor; unfold skein_xof; cbn [xp xp_squeeze].
    - intros s p msg k R. destruct (sk_XR_wf nw Hnw true hs s p msg k R) as (Hp & Hw).
      exact (sk_init_ok nw Hnw true hs s p Hp Hw).
    - intros s p msg d _ R. exact (sk_update_ok nw Hnw true hs s p msg d R).
    - intros _ s p msg k R. destruct (sk_XR_wf nw Hnw true hs s p msg k R) as (Hp & Hw).
      destruct (sk_clear_ok nw hs s p Hp Hw) as (s1 & E & A & B).
      destruct (sk_init_ok nw Hnw true hs s1 _ A B) as (s2 & E2 & R2). exists s1, s2. auto.
    - intros q v s p msg k _ R. destruct (sk_XR_wf nw Hnw true hs s p msg k R) as (Hp & Hw).
      destruct (sk_set_ok nw Hnw true hs q v s p Hp Hw) as (s1 & s2 & p' & E1 & E2 & E3 & R2).
      change (xs_set (skein_xof_spec nw) q v p) with (skein_set q v p). rewrite E2. eauto.
    - intros s p msg k n Hn R.
      destruct (sk_squeeze_ok nw Hnw true hs s p msg k n Hn R) as (s' & E & R').
      exists s'. split; [|exact R']. cbn [xs_out skein_xof_spec].
      pose proof (digest_strm nw Hnw true hs p msg (k + n)) as E'. unfold sk_No in E'. rewrite E'.
      unfold strm in *. rewrite seg_skip. exact E.
    - intros s p msg k n _. cbn [xs_out skein_xof_spec].
      pose proof (digest_strm nw Hnw true hs p msg n) as E'. unfold sk_No in E'. rewrite E'. apply seg_length.
    - intros s p msg k n _. cbn [xs_out skein_xof_spec].
      pose proof (digest_strm nw Hnw true hs p msg n) as E'. unfold sk_No in E'. rewrite E'. apply strm_bytes.
  Qed.

  (** Uninitialised object memory of the right size. *)
  Definition sk_mem (g : st) : Prop := length (sh g) = 2 + nw /\ length (sm g) = 8 * nw.

  Lemma sk_new_ok xof hs g hb sq : sk_mem g ->
    exists s, sk_init nw xof (mksk g hb hs sq [] [] []) = Ok s /\ sk_R nw xof hs s skein_default [].
  Proof.
    intros H. apply (sk_init_ok nw Hnw xof hs); [unfold sk_par; cbn; auto|exact H].
  Qed.
  Lemma sk_ctor_eq hs g hb sq : (0 < hs < 2 ^ 64)%N -> (hs mod 8 = 0)%N ->
    sk_ctor hs g hb sq = sk_ctor_static hs g hb sq.
  Proof.
    intros H0 H8. unfold sk_ctor, validate_max. rewrite H8. destruct (N.eqb_spec hs 0); [lia|].
    destruct (N.ltb_spec (2 ^ 64 - 1) hs); [lia|]. reflexivity.
  Qed.

  Theorem skein_implements hs g hb sq : (0 < hs < 2 ^ 64)%N -> (hs mod 8 = 0)%N -> sk_mem g ->
    implements (skein nw) (skein_spec nw hs) true (fresh_of (sk_ctor hs g hb sq) (sk_init nw false)) /\
    implements (skein nw) (skein_spec nw hs) true (fresh_of (sk_ctor_static hs g hb sq) (sk_init nw false)).
  Proof.
    intros H0 H8 Hg. rewrite sk_ctor_eq by auto.
    assert (0 < hs / 8)%N by (pose proof (N.div_mod' hs 8); lia).
    destruct (sk_new_ok false hs g hb sq Hg) as (s & Es & R).
    unfold fresh_of, sk_ctor_static. cbn [bind]. rewrite Es.
    split; exact (sim_implements _ _ _ true (skein_sim hs ltac:(assumption)) s R).
  Qed.
  Theorem skein_xof_implements hs g hb sq : (0 < hs < 2 ^ 64)%N -> (hs mod 8 = 0)%N -> sk_mem g ->
    ximplements (skein_xof nw) (skein_xof_spec nw) true (fresh_of (sk_ctor hs g hb sq) (sk_init nw true)).
  Proof.
    intros H0 H8 Hg. rewrite sk_ctor_eq by auto.
    destruct (sk_new_ok true hs g hb sq Hg) as (s & Es & R).
    unfold fresh_of, sk_ctor_static. cbn [bind]. rewrite Es.
    exact (xsim_implements _ _ _ true (skein_xof_sim hs) s R).
  Qed.
End Types.

(** The extendable-output types of skein.hpp are constructed with the state size. *)
Lemma skein_xof_conforms nw g hb sq : nw = 4%nat \/ nw = 8%nat \/ nw = 16%nat ->
  length (sh g) = (2 + nw)%nat /\ length (sm g) = (8 * nw)%nat ->
  ximplements (skein_xof nw) (skein_xof_spec nw) true
    (fresh_of (sk_ctor (64 * N.of_nat nw) g hb sq) (sk_init nw true)).
Proof.
  intros Hn Hg. apply skein_xof_implements; [exact Hn | | | exact Hg];
    destruct Hn as [E|[E|E]]; rewrite E; (reflexivity || (split; reflexivity)).
Qed.
