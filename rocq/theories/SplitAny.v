(** * C07, C11 and C44 in arbitrary histories. *)
From Coq Require Import Lia.
From Verif Require Import Base Lemmas Hasher HasherSpec HasherProof Library LibraryTypes LibraryProof XLibraryProof LibraryMore AnyCalls AnyProof
  LibraryAny SplitSqueeze SplitTypes Shake Helpers.
Local Open Scope nat_scope.

Lemma xlibrary_splits P (T : xtype P) : xlibrary T -> splits P /\ emits_bytes P.
Proof.
  intros [].
  - pose proof (shake_streams 128 24 ltac:(cbv; lia)) as H; exact (conj (streams_split _ _ _ _ _ _ _ _ H) (streams_bytes _ _ _ _ _ _ _ _ H)).
  - pose proof (shake_streams 256 24 ltac:(cbv; lia)) as H; exact (conj (streams_split _ _ _ _ _ _ _ _ H) (streams_bytes _ _ _ _ _ _ _ _ H)).
  - pose proof (cshake_streams 128 24 ltac:(cbv; lia)) as H; exact (conj (streams_split _ _ _ _ _ _ _ _ H) (streams_bytes _ _ _ _ _ _ _ _ H)).
  - pose proof (cshake_streams 256 24 ltac:(cbv; lia)) as H; exact (conj (streams_split _ _ _ _ _ _ _ _ H) (streams_bytes _ _ _ _ _ _ _ _ H)).
  - pose proof (kmac_streams 128 ltac:(cbv; lia)) as H; exact (conj (streams_split _ _ _ _ _ _ _ _ H) (streams_bytes _ _ _ _ _ _ _ _ H)).
  - pose proof (kmac_streams 256 ltac:(cbv; lia)) as H; exact (conj (streams_split _ _ _ _ _ _ _ _ H) (streams_bytes _ _ _ _ _ _ _ _ H)).
  - pose proof (k12_streams 128 12 ltac:(cbv; lia)) as H; exact (conj (streams_split _ _ _ _ _ _ _ _ H) (streams_bytes _ _ _ _ _ _ _ _ H)).
  - pose proof (k12_streams 256 14 ltac:(cbv; lia)) as H; exact (conj (streams_split _ _ _ _ _ _ _ _ H) (streams_bytes _ _ _ _ _ _ _ _ H)).
  - pose proof (k12_streams 256 12 ltac:(cbv; lia)) as H; exact (conj (streams_split _ _ _ _ _ _ _ _ H) (streams_bytes _ _ _ _ _ _ _ _ H)).
  - exact (conj (streams_split _ _ _ _ _ _ _ _ ascon_xof_streams) (streams_bytes _ _ _ _ _ _ _ _ ascon_xof_streams)).
  - exact (conj (streams_split _ _ _ _ _ _ _ _ ascon_cxof_streams) (streams_bytes _ _ _ _ _ _ _ _ ascon_cxof_streams)).
  - exact (conj (streams_split _ _ _ _ _ _ _ _ esch_streams) (streams_bytes _ _ _ _ _ _ _ _ esch_streams)).
  - exact (conj (streams_split _ _ _ _ _ _ _ _ esch_streams) (streams_bytes _ _ _ _ _ _ _ _ esch_streams)).
  - pose proof (blake2x_streams 64 (or_introl eq_refl)) as H; exact (conj (streams_split _ _ _ _ _ _ _ _ H) (streams_bytes _ _ _ _ _ _ _ _ H)).
  - pose proof (blake2x_streams 32 (or_intror eq_refl)) as H; exact (conj (streams_split _ _ _ _ _ _ _ _ H) (streams_bytes _ _ _ _ _ _ _ _ H)).
  - assert (Hn : 0 < nw) by (destruct H as [<-|[<-|[<-|[]]]]; lia).
    pose proof (skein_streams nw Hn) as K; exact (conj (streams_split _ _ _ _ _ _ _ _ K) (streams_bytes _ _ _ _ _ _ _ _ K)).
Qed.

(** The calls that write raw bytes: squeeze(buf, n), or squeeze(n, it) if the flag is set. *)
Definition piece {param} (p : bool * nat) : xof_op param :=
  if fst p then XSqueezeIter (snd p) else XSqueezeBuf (snd p).
Definition sizes (ps : list (bool * nat)) : nat := fold_right (fun p a => snd p + a) 0 ps.

Section Any.
  Context {P : xof_provider} {T : xtype P}.
  Hypothesis H : xlibrary T.
  Let SP : splits P := proj1 (xlibrary_splits P T H).
  Let EB : emits_bytes P := proj2 (xlibrary_splits P T H).

  Lemma squeeze_buf_eq s n : 0 < n -> squeeze_buf P s n = xp_squeeze P s n.
  Proof.
    intros Hn. unfold squeeze_buf. destruct (xp_squeeze P s n) as [[t w]| |] eqn:E; cbn [bind]; [|reflexivity|reflexivity].
    destruct (EB _ _ _ _ Hn E) as [_ L]. rewrite memcpy_ok by (rewrite ?zeros_length; lia). cbn [bind].
    unfold overlay. rewrite firstn_all. cbn [firstn app Nat.add]. rewrite skipn_all2 by (rewrite zeros_length; lia).
    rewrite app_nil_r. reflexivity.
  Qed.
  Lemma piece_step s p : 0 < snd p ->
    xof_step P s (piece p) = (' (s, w) <- xp_squeeze P s (snd p) ;; Ok (s, OBytes w)).
  Proof.
    destruct p as [[] n]; cbn [snd]; intros Hn; unfold piece; cbn [fst snd xof_step].
    - destruct n; [lia|]. cbn [squeeze_iter]. rewrite squeeze_buf_eq by lia. reflexivity.
    - rewrite squeeze_buf_eq by lia. reflexivity.
  Qed.
  Lemma pieces_run ps : forall s u w, ps <> [] -> Forall (fun p => 0 < snd p) ps -> xp_squeeze P s (sizes ps) = Ok (u, w) ->
    exists l, xof_run P s (map piece ps) = Ok (u, l) /\ out_concat l = w /\ length l = length ps.
  Proof.
    induction ps as [|p ps IH]; intros s u w Hne Hp E; [contradiction|]. inversion_clear Hp as [|? ? P1 P2].
    cbn [map xof_run sizes fold_right] in *. fold (sizes ps) in E. rewrite piece_step by exact P1.
    destruct ps as [|q ps].
    - cbn [sizes fold_right] in E. rewrite Nat.add_0_r in E. rewrite E. cbn [bind map xof_run].
      exists [OBytes w]. unfold out_concat. cbn [flat_map]. rewrite app_nil_r. auto.
    - assert (P3 : 0 < sizes (q :: ps)) by (inversion_clear P2; cbn [sizes fold_right]; lia).
      destruct (SP _ _ _ _ _ P1 P3 E) as (t & w1 & w2 & E1 & E2 & ->).
      destruct (IH t u w2 ltac:(discriminate) P2 E2) as (l & A1 & A2 & A3).
      exists (OBytes w1 :: l). rewrite E1. cbn [bind]. rewrite A1. cbn [bind].
      unfold out_concat in *. cbn [flat_map length]. rewrite A2, A3. auto.
  Qed.

  Variables (g : xt_mem T) (pre : list (xof_op (p_param P))).
  Hypothesis Hg : xt_mem_ok T g.
  Hypothesis Hpre : xany pre.
  Lemma reached post : xany post -> exists s0 l0 s u l, xt_new T g = Ok s0 /\ xof_run P s0 pre = Ok (s, l0) /\
    xof_run P s post = Ok (u, l).
  Proof.
    intros Hq. destruct (xlibrary_rob P T H) as (X & [R]).
    destruct (xany_defined R g pre post Hg Hpre Hq) as (rr & E & _). unfold xafter in E.
    destruct (xt_new T g) as [s0| |]; [|discriminate E|discriminate E]. cbn [bind] in E.
    destruct (xof_run P s0 pre) as [[s l0]| |] eqn:E0; [|discriminate E|discriminate E]. cbn [bind] in E.
    destruct (xof_run P s post) as [[u l]| |] eqn:E1; [|discriminate E|discriminate E]. eauto 10.
  Qed.

  Theorem any_pieces ps post : ps <> [] -> Forall (fun p => 0 < snd p) ps -> xany post ->
    exists l b r, xafter T g pre (map piece ps ++ post) = Ok (l ++ r) /\
      xafter T g pre (XSqueezeBuf (sizes ps) :: post) = Ok (OBytes b :: r) /\
      length l = length ps /\ out_concat l = b /\ length b = sizes ps /\ is_bytes b.
  Proof.
    intros Hne Hps Hpost.
    assert (Hs : 0 < sizes ps) by (destruct ps; [contradiction|]; inversion_clear Hps; cbn [sizes fold_right]; lia).
    destruct (reached (XSqueezeBuf (sizes ps) :: post)) as (s0 & l0 & s & u & l & E0 & E1 & E2); [constructor; [exact I|exact Hpost]|].
    unfold xafter. rewrite E0. cbn [bind]. rewrite E1. cbn [bind]. rewrite E2. cbn [bind].
    cbn [xof_run xof_step] in E2. rewrite squeeze_buf_eq in E2 by exact Hs.
    destruct (xp_squeeze P s (sizes ps)) as [[t w]| |] eqn:Eq; [|discriminate E2|discriminate E2]. cbn [bind] in E2.
    destruct (xof_run P t post) as [[u' r]| |] eqn:Er; [|discriminate E2|discriminate E2]. cbn [bind] in E2.
    apply Ok_eq in E2. injection E2 as <- <-.
    destruct (pieces_run ps s t w Hne Hps Eq) as (l & A1 & A2 & A3).
    exists l, w, r. rewrite xof_run_app, A1. cbn [bind]. rewrite Er. cbn [bind].
    destruct (EB _ _ _ _ Hs Eq) as [B1 B2]. repeat split; auto.
  Qed.

  Theorem any_forms n post : 0 < n -> xany post ->
    exists b r, xafter T g pre (XSqueezeBuf n :: post) = Ok (OBytes b :: r) /\
      xafter T g pre (XSqueezeIter n :: post) = Ok (OBytes b :: r) /\
      xafter T g pre (XHexSqueeze n :: post) = Ok (OBytes (spec_hex b) :: r) /\ length b = n /\ is_bytes b.
  Proof.
    intros Hn Hpost.
    destruct (reached (XSqueezeBuf n :: post)) as (s0 & l0 & s & u & l & E0 & E1 & E2); [constructor; [exact I|exact Hpost]|].
    unfold xafter. rewrite E0. cbn [bind]. rewrite E1. cbn [bind].
    destruct n as [|n]; [lia|]. cbn [xof_run xof_step squeeze_iter] in *. rewrite !squeeze_buf_eq in * by lia.
    destruct (xp_squeeze P s (S n)) as [[t w]| |] eqn:Eq; [|discriminate E2|discriminate E2]. cbn [bind] in *.
    destruct (xof_run P t post) as [[u' r]| |] eqn:Er; [|discriminate E2|discriminate E2]. cbn [bind] in *.
    destruct (EB _ _ _ _ Hn Eq) as [B1 B2].
    exists w, r. rewrite hex_string_spec by exact B1. repeat split; auto.
  Qed.

  Theorem any_prefix n m : 0 < n <= m ->
    exists b c, xafter T g pre [XSqueezeBuf n] = Ok [OBytes b] /\ xafter T g pre [XSqueezeBuf m] = Ok [OBytes (b ++ c)] /\
      length b = n.
  Proof.
    intros [Hn Hm].
    destruct (reached [XSqueezeBuf m]) as (s0 & l0 & s & u & l & E0 & E1 & E2); [constructor; [exact I|constructor]|].
    unfold xafter. rewrite E0. cbn [bind]. rewrite E1. cbn [bind].
    cbn [xof_run xof_step] in *. rewrite !squeeze_buf_eq in * by lia.
    destruct (xp_squeeze P s m) as [[t w]| |] eqn:Eq; [|discriminate E2|discriminate E2]. cbn [bind].
    destruct (Nat.eq_dec n m) as [->|Hd].
    - exists w, []. rewrite Eq, app_nil_r. destruct (EB _ _ _ _ Hn Eq). auto.
    - replace m with (n + (m - n)) in Eq by lia.
      destruct (SP _ _ (m - n) _ _ Hn ltac:(lia) Eq) as (t1 & w1 & w2 & F1 & F2 & ->).
      exists w1, w2. rewrite F1. destruct (EB _ _ _ _ Hn F1). auto.
  Qed.
End Any.
