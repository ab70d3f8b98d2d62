(** * squeeze(nullptr, 0), for the types of the library. *)
From Coq Require Import Lia.
From Verif Require Import Base Hasher Library LibraryTypes AnyCalls NullOut NullOutProof PropertiesAny.

Lemma xlibrary_squeeze P (T : xtype P) : xlibrary T -> exists Z r, null_squeeze P Z r.
Proof.
  intros H. destruct H.
  - exact (ex_intro _ _ (ex_intro _ _ nz_shake128)).
  - exact (ex_intro _ _ (ex_intro _ _ nz_shake256)).
  - exact (ex_intro _ _ (ex_intro _ _ nz_cshake128)).
  - exact (ex_intro _ _ (ex_intro _ _ nz_cshake256)).
  - exact (ex_intro _ _ (ex_intro _ _ nz_kmac128)).
  - exact (ex_intro _ _ (ex_intro _ _ nz_kmac256)).
  - exact (ex_intro _ _ (ex_intro _ _ nz_k12)).
  - exact (ex_intro _ _ (ex_intro _ _ nz_m14)).
  - exact (ex_intro _ _ (ex_intro _ _ nz_kt256)).
  - exact (ex_intro _ _ (ex_intro _ _ nz_ascon_xof)).
  - exact (ex_intro _ _ (ex_intro _ _ nz_ascon_cxof)).
  - exact (ex_intro _ _ (ex_intro _ _ nz_esch_xof)).
  - exact (ex_intro _ _ (ex_intro _ _ nz_esch_xof)).
  - exact (ex_intro _ _ (ex_intro _ _ nz_blake2xb)).
  - exact (ex_intro _ _ (ex_intro _ _ nz_blake2xs)).
  - assert (Hn : (0 < nw)%nat) by (cbn in H; lia). exact (ex_intro _ _ (ex_intro _ _ (nz_skein nw Hn))).
Qed.
Lemma fresh_inits {S} (c : res S) (init : S -> res S) s : fresh_of c init = Ok s -> exists s0, init s0 = Ok s.
Proof. unfold fresh_of. intros H. apply bind_inv in H. destruct H as (x & _ & H). exists x. exact H. Qed.
Lemma xnew_inits P (T : xtype P) : xlibrary T -> forall g s, xt_new T g = Ok s -> exists s0, p_init P s0 = Ok s.
Proof. intros H. destruct H; intros g s E; exact (fresh_inits _ _ s E). Qed.

Section Runs.
  Context {P : xof_provider} {Z : bool -> pst P -> res (pst P)} {r : nat} (F : nfacts P Z r).

  Lemma zstep_lax s o : zstep P Z false s o = xof_step P s (zplain o).
  Proof.
    destruct o as [o|]; [reflexivity|]. cbn [zstep zplain xof_step]. unfold squeeze_buf. rewrite (f_zero P Z r F), !bind_bind.
    apply bind_ext. intros s'. reflexivity.
  Qed.
  Lemma zrun_lax ops : forall s, zrun P Z false s ops = xof_run P s (map zplain ops).
  Proof.
    induction ops as [|o ops IH]; intros s; cbn [zrun map xof_run]; [reflexivity|].
    rewrite zstep_lax. apply bind_ext. intros [s1 x]. rewrite IH. reflexivity.
  Qed.
  Lemma zrun_plain b ops : forall s, zrun P Z b s (map Plain ops) = xof_run P s ops.
  Proof.
    induction ops as [|o ops IH]; intros s; cbn [zrun map xof_run]; [reflexivity|].
    cbn [zstep]. apply bind_ext. intros [s1 x]. rewrite IH. reflexivity.
  Qed.
  Lemma zrun_app b o2 : forall o1 s, zrun P Z b s (o1 ++ o2) =
    (' (s, x) <- zrun P Z b s o1 ;; ' (s, y) <- zrun P Z b s o2 ;; Ok (s, x ++ y)).
  Proof.
    induction o1 as [|o o1 IH]; intros s; cbn [zrun app bind].
    - destruct (zrun P Z b s o2) as [[s2 y]| |]; reflexivity.
    - rewrite !bind_bind. apply bind_ext. intros [s1 x]. rewrite IH, !bind_bind. apply bind_ext. intros [s2 y]. cbn [bind].
      rewrite !bind_bind. apply bind_ext. intros [s3 w]. reflexivity.
  Qed.
  Lemma zrun_strict ops : forall s, zrun P Z true s ops = zrun P Z false s ops \/ zrun P Z true s ops = UB NullPointer.
  Proof.
    induction ops as [|o ops IH]; intros s; cbn [zrun]; [auto|].
    assert (E : zstep P Z true s o = zstep P Z false s o \/ zstep P Z true s o = UB NullPointer).
    { destruct o as [o|]; [auto|]. cbn [zstep]. destruct (f_or P Z r F s) as [-> | ->]; auto. }
    destruct E as [-> | ->]; [|auto]. destruct (zstep P Z false s o) as [[s1 x]| |]; cbn [bind]; auto.
    destruct (IH s1) as [-> | ->]; auto.
  Qed.

  Lemma absorb_idle f s d s' : absorb P f s d = Ok s' -> idle P Z r F s -> idle P Z r F s'.
  Proof.
    pose proof (f_update P Z r F) as U. destruct f; cbn [absorb]; intros H I.
    - exact (U _ _ _ H I).
    - unfold absorb_str in H. destruct d; [injection H as <-; exact I|exact (U _ _ _ H I)].
    - revert H. generalize (length d) as fuel. intros fuel. revert s d I. induction fuel as [|fuel IH]; intros s d I H; cbn [absorb_stream] in H.
      + dif H; [injection H as <-; exact I|]. cbv zeta in H. dif H; [injection H as <-; exact I|exact (U _ _ _ H I)].
      + dif H; [|cbv zeta in H; dif H; [injection H as <-; exact I|exact (U _ _ _ H I)]].
        apply bind_inv in H. destruct H as (s1 & E & H). exact (IH _ _ (U _ _ _ E I) H).
    - injection H as <-. exact I.
    - revert s H I. induction d as [|x d IH]; intros s H I; cbn [absorb_iter] in H; [injection H as <-; exact I|].
      apply bind_inv in H. destruct H as (s1 & E & H). exact (IH _ H (U _ _ _ E I)).
  Qed.
  Lemma run_idle ops : forall now s s' l, (now = true -> idle P Z r F s) -> xof_run P s ops = Ok (s', l) ->
    unread now ops = true -> idle P Z r F s'.
  Proof.
    induction ops as [|o ops IH]; intros now s s' l I H U; cbn [xof_run unread] in *.
    - injection H as <- _. exact (I U).
    - apply bind_inv in H. destruct H as ([s1 x] & E & H). apply bind_inv in H. destruct H as ([s2 xs] & E2 & H). injection H as <- _.
      destruct o as [[f d|b|q v]|n|n|n]; try (refine (IH false _ _ _ _ E2 U); discriminate).
      + refine (IH now _ _ _ _ E2 U). intros N. cbn [xof_step base_step] in E. apply bind_inv in E. destruct E as (s3 & E & E').
        injection E' as <- _. exact (absorb_idle _ _ _ _ E (I N)).
      + refine (IH true _ _ _ _ E2 U). intros _. cbn [xof_step base_step] in E. apply bind_inv in E. destruct E as (s3 & E & E').
        injection E' as <- _. unfold reset in E. apply bind_inv in E. destruct E as (s4 & _ & E). exact (f_init P Z r F _ _ E).
      + refine (IH now _ _ _ _ E2 U). intros N. cbn [xof_step base_step] in E. apply bind_inv in E. destruct E as ([s3 t] & E & E').
        injection E' as <- _. unfold set_param in E. destruct (p_set P q v s) as [s4|s4|w] eqn:Q; [| |discriminate E].
        * apply bind_inv in E. destruct E as (s5 & E & E'). injection E' as <- _. exact (f_init P Z r F _ _ E).
        * injection E as <- _. exact (f_raised P Z r F _ _ _ _ Q (I N)).
  Qed.
End Runs.

Section Types.
  Context {P : xof_provider} (T : xtype P) {Z : bool -> pst P -> res (pst P)} {r : nat}.
  Hypothesis HT : xlibrary T.
  Hypothesis HZ : null_squeeze P Z r.

  Lemma z_lax g pre post : zafter T Z false g pre post = xafter T g (map zplain pre) (map zplain post).
  Proof.
    destruct (all_facts P Z r HZ) as [F _]. unfold zafter, xafter. apply bind_ext. intros s.
    rewrite (zrun_lax F). apply bind_ext. intros [s1 x]. rewrite (zrun_lax F). reflexivity.
  Qed.
  Lemma z_strict g pre post : zafter T Z true g pre post = zafter T Z false g pre post \/ zafter T Z true g pre post = UB NullPointer.
  Proof.
    destruct (all_facts P Z r HZ) as [F _]. unfold zafter.
    destruct (xt_new T g) as [s| |]; cbn [bind]; auto.
    destruct (zrun_strict F pre s) as [-> | ->]; [|auto]. destruct (zrun P Z false s pre) as [[s1 x]| |]; cbn [bind]; auto.
    destruct (zrun_strict F post s1) as [-> | ->]; auto.
  Qed.
  Lemma z_first b g pre post : unread true pre = true ->
    zafter T Z b g (map Plain pre) (NullSqueeze :: map Plain post) = xafter T g pre (XSqueezeBuf 0 :: post).
  Proof.
    destruct (all_facts P Z r HZ) as [F _]. intros U. unfold zafter, xafter.
    destruct (xt_new T g) as [s| |] eqn:E; [|reflexivity|reflexivity]. cbn [bind].
    destruct (xnew_inits P T HT g s E) as [s0 E0]. pose proof (f_init P Z r F _ _ E0) as I.
    rewrite zrun_plain. destruct (xof_run P s pre) as [[s1 x]| |] eqn:E1; [|reflexivity|reflexivity]. cbn [bind].
    pose proof (run_idle F pre true s s1 x (fun _ => I) E1 U) as J.
    cbn [zrun xof_run]. change (@XSqueezeBuf (p_param P) 0) with (zplain (@NullSqueeze (xof_op (p_param P)))). rewrite <- (zstep_lax F s1 NullSqueeze). cbn [zstep]. rewrite (f_same P Z r F b s1 J).
    rewrite !bind_bind. apply bind_ext. intros s2. cbn [bind]. rewrite zrun_plain. reflexivity.
  Qed.
  Lemma z_later g pre n o post rest : xt_mem_ok T g -> xany pre -> unread true pre = true -> squeezes n o -> (n mod r <> 0)%nat ->
    zafter T Z true g (map Plain (pre ++ [o]) ++ NullSqueeze :: post) rest = UB NullPointer.
  Proof.
    destruct (all_facts P Z r HZ) as [F _]. intros Hg A U Ho Hn.
    assert (Hr : (r <> 0)%nat).
    { destruct HZ; try discriminate. lia. }
    assert (Hp : (0 < n)%nat) by (exact (mod_pos n r Hn Hr)).
    assert (Ao : xany [o]).
    { constructor; [|constructor]. destruct Ho as [->|[->| ->]]; cbn; auto. }
    destruct (C08_any_history_xof P T HT g pre [o] Hg A Ao) as (l & E & _). unfold xafter in E. unfold zafter.
    apply bind_inv in E. destruct E as (s & E & H). apply bind_inv in H. destruct H as ([s1 x] & E1 & H). apply bind_inv in H. destruct H as ([s2 y] & E2 & _).
    destruct (xnew_inits P T HT g s E) as [s0 E0]. pose proof (f_init P Z r F _ _ E0) as I.
    pose proof (run_idle F pre true s s1 x (fun _ => I) E1 U) as J.
    rewrite E. cbn [bind]. rewrite zrun_app, map_app, zrun_app, zrun_plain, E1. cbn [bind]. rewrite zrun_plain.
    rewrite E2. cbn [bind zrun zstep].
    cbn [xof_run] in E2. apply bind_inv in E2. destruct E2 as ([s3 w] & E2 & E3). cbn [bind] in E3. injection E3 as <- _.
    assert (K : exists v, xp_squeeze P s1 n = Ok (s3, v)).
    { destruct n as [|n]; [lia|].
      destruct Ho as [->|[->| ->]]; cbn [xof_step] in E2; unfold squeeze_iter, squeeze_buf in E2;
      apply bind_inv in E2; destruct E2 as ([s4 w4] & E2 & E4); injection E4 as <- _;
      apply bind_inv in E2; destruct E2 as ([s5 w5] & E2 & E5); apply bind_inv in E5; destruct E5 as (b5 & _ & E5); injection E5 as <- _;
      exists w5; exact E2. }
    destruct K as [v K]. rewrite (f_mid P Z r F s1 n s3 v J Hn K). reflexivity.
  Qed.
End Types.
