(** * Buffering providers whose buffer may be larger than the block, eager or lazy. *)
From Verif Require Import Base Absorb Lemmas AbsorbProof MdState MdProof SpecCommon.
Local Open Scope nat_scope.

Section Buf.
  Variable step : list N -> N -> list N -> list N.
  Variables (bs cap : nat) (lazy : bool).
  Hypothesis bs_pos : 0 < bs.
  Hypothesis bs_cap : bs <= cap.

  (** [s] has absorbed [msg] since the chaining value was [iv]. *)
  Definition buf_inv (iv : list N) (s : st) (msg : list N) : Prop :=
    absorbed_state step bs cap lazy iv 0 msg (sh s) (sm s) (spos s) (stotal s).

  Lemma buf_inv_start iv m : length m = cap -> buf_inv iv (mkst iv m 0 0) [].
  Proof. intros. apply absorbed_start; auto; reflexivity. Qed.

  Lemma buf_inv_sm iv s msg : buf_inv iv s msg -> length (sm s) = cap.
  Proof. intros (B & T & J & n & _ & _ & _ & _ & _ & _ & H & _). exact H. Qed.

  Lemma buf_update_ok iv s msg d : buf_inv iv s msg ->
    exists s', md_update step bs (bschk bs lazy) s d = Ok s' /\ buf_inv iv s' (msg ++ d).
  Proof.
    intros H. unfold md_update.
    assert (Htf : forall (c m : list N) t data n,
      length m = cap -> length data = n * bs -> (t < 2 ^ 64)%N ->
      exists m', Ok (block_loop step bs c t data n, m) = Ok (block_loop step bs c t data n, m')
                 /\ length m' = cap) by (intros; eauto).
    destruct (absorb_bytes_ok step (fun h m t d n => Ok (block_loop step bs h t d n, m))
                bs cap lazy bs_pos bs_cap Htf iv 0%N msg d _ _ _ _ eq_refl H)
      as (c' & m' & p' & t' & E & A).
    rewrite E. cbn [bind]. eexists. split; [reflexivity|]. exact A.
  Qed.
End Buf.
