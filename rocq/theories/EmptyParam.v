(** * Setting a parameter to the empty string is as if it had never been set. *)
From Verif Require Import Base Lemmas Hasher HasherSpec HasherProof Library LibraryProof XLibraryProof.

Section Good.
  Context {P : hash_provider} {T : htype P} {S : hash_spec (p_param P)}.
  Hypothesis G : good T S.
  Variables (q : p_param P) (is_q : p_param P -> bool).
  Hypothesis Hq : forall r, is_q r = true <-> r = q.
  Hypothesis E0 : sp_set S q [] (sp_default S) = Some (sp_default S).
  Hypothesis Eo : forall v p p1, sp_set S q v p = Some p1 -> sp_set S q [] p1 = sp_set S q [] p.

  Definition is_set (o : hash_op (p_param P)) : bool := match o with HBase (SetParam _ _) => true | _ => false end.
  Definition others : list (hash_op (p_param P)) -> list (hash_op (p_param P)) :=
    filter (fun o => match o with HBase b => sets_other is_q b | _ => true end).

  Lemma setters_all ops : forall acc, forallb is_set acc = true -> forallb is_set (setters_from acc ops) = true.
  Proof.
    induction ops as [|o r IH]; intros acc H; [exact H|].
    destruct o as [[f d|[]|k v]|b| |]; cbn [setters_from]; apply IH; auto.
    rewrite forallb_app, H. reflexivity.
  Qed.

  Lemma others_erase ops : forallb is_set ops = true -> forall p p' m m',
    sp_set S q [] p = Some p' ->
    sp_set S q [] (fst (ast S (p, m) ops)) = Some (fst (ast S (p', m') (others ops))).
  Proof.
    induction ops as [|o r IH]; intros Hs p p' m m' H; [exact H|].
    cbn [forallb] in Hs. apply andb_true_iff in Hs. destruct Hs as [Ho Hr]. rewrite ast_cons.
    destruct o as [[f d|b|k v]|b| |]; try discriminate Ho. cbn [astep abase fst].
    cbn [others filter sets_other]. fold (others r).
    destruct (is_q k) eqn:Ek; cbn [negb].
    - apply Hq in Ek. subst k. destruct (sp_set S q v p) as [p1|] eqn:E.
      + apply IH; [exact Hr|]. rewrite (Eo _ _ _ E). exact H.
      + apply IH; [exact Hr|exact H].
    - assert (Hk : k <> q) by (intros ->; rewrite (proj2 (Hq q) eq_refl) in Ek; discriminate).
      rewrite ast_cons. cbn [astep abase fst].
      pose proof (g_acc _ _ G k v p) as A1. pose proof (g_acc _ _ G k v p') as A2.
      destruct (sp_set S k v p) as [p1|] eqn:E1, (sp_set S k v p') as [p1'|] eqn:E2; try congruence.
      + apply IH; [exact Hr|]. rewrite (g_comm _ _ G k q v [] p p1 p' Hk E1 H). exact E2.
      + apply IH; [exact Hr|exact H].
  Qed.

  Theorem empty_param : empty_is_none T q is_q.
  Proof.
    intros g pre post Hg H1 H2.
    assert (Hs : hcalls T [HBase (SetParam q [])]) by (constructor; [constructor|constructor]).
    assert (Hset : hcalls T (setters pre)) by (apply (setters_ok (T := T)); auto; constructor).
    assert (Hoth : hcalls T (others (setters pre))).
    { unfold hcalls in *. rewrite Forall_forall in *. intros o Ho. apply filter_In in Ho. apply Hset, Ho. }
    eexists. split; [apply (after_eq G); auto; apply hcalls_app; auto|].
    rewrite (after_eq G) by auto. do 3 f_equal. rewrite ast_app. fold (others (setters pre)).
    pose proof (setters_all pre [] eq_refl) as Ha.
    pose proof (others_erase (setters pre) Ha _ _ [] [] E0) as E.
    pose proof (ast_setters (S := S) pre (afresh S) [] eq_refl) as E1. unfold setters in *.
    assert (E2 : snd (ast S (afresh S) (others (setters_from [] pre))) = []).
    { pose proof (eq_refl : snd (afresh S) = []) as Z. revert Z Ha. generalize (afresh S). generalize (setters_from [] pre).
      induction l as [|o r IH]; intros [p m] Z Ha; [exact Z|]. cbn [forallb] in Ha. apply andb_true_iff in Ha.
      destruct Ha as [Ho Hr]. destruct o as [[f d|b|k v]|b| |]; try discriminate Ho.
      cbn [others filter sets_other]. fold (others r).
      cbn [snd] in Z. subst m. destruct (negb (is_q k)); [|apply IH; auto].
      rewrite ast_cons. cbn [astep abase fst]. destruct (sp_set S k v p); apply IH; auto. }
    unfold afresh in *. rewrite ast_cons. cbn [fst].
    destruct (ast S (sp_default S, []) pre) as [p m]. destruct (ast S (sp_default S, []) (setters_from [] pre)) as [p1 m1].
    destruct (ast S (sp_default S, []) (others (setters_from [] pre))) as [p2 m2]. cbn [fst snd astep abase] in *.
    subst p1 m2. rewrite E. reflexivity.
  Qed.
End Good.

Section XGood.
  Context {P : xof_provider} {T : xtype P} {S : xof_spec (p_param P)}.
  Hypothesis G : xgood T S.
  Variables (q : p_param P) (is_q : p_param P -> bool).
  Hypothesis Hq : forall r, is_q r = true <-> r = q.
  Hypothesis E0 : xs_set S q [] (xs_default S) = Some (xs_default S).
  Hypothesis Eo : forall v p p1, xs_set S q v p = Some p1 -> xs_set S q [] p1 = xs_set S q [] p.

  Definition x_is_set (o : xof_op (p_param P)) : bool := match o with XBase (SetParam _ _) => true | _ => false end.
  Definition xothers : list (xof_op (p_param P)) -> list (xof_op (p_param P)) :=
    filter (fun o => match o with XBase b => sets_other is_q b | _ => true end).

  Lemma xsetters_all ops : forall acc, forallb x_is_set acc = true -> forallb x_is_set (xsetters_from acc ops) = true.
  Proof.
    induction ops as [|o r IH]; intros acc H; [exact H|].
    destruct o as [[f d|[]|k v]|b|b|b]; cbn [xsetters_from]; apply IH; auto.
    rewrite forallb_app, H. reflexivity.
  Qed.
  Definition par (a : xstate S) : xs_params S := fst (fst a).

  Lemma xothers_erase ops : forallb x_is_set ops = true -> forall p p' m m' k k',
    xs_set S q [] p = Some p' ->
    xs_set S q [] (par (xst S (p, m, k) ops)) = Some (par (xst S (p', m', k') (xothers ops))).
  Proof.
    induction ops as [|o r IH]; intros Hs p p' m m' n n' H; [exact H|].
    cbn [forallb] in Hs. apply andb_true_iff in Hs. destruct Hs as [Ho Hr]. rewrite xst_cons.
    destruct o as [[f d|b|k v]|b|b|b]; try discriminate Ho. cbn [xstep fst].
    cbn [xothers filter sets_other]. fold (xothers r).
    destruct (is_q k) eqn:Ek; cbn [negb].
    - apply Hq in Ek. subst k. destruct (xs_set S q v p) as [p1|] eqn:E.
      + apply IH; [exact Hr|]. rewrite (Eo _ _ _ E). exact H.
      + apply IH; [exact Hr|exact H].
    - assert (Hk : k <> q) by (intros ->; rewrite (proj2 (Hq q) eq_refl) in Ek; discriminate).
      rewrite xst_cons. cbn [xstep fst].
      pose proof (xg_acc _ _ G k v p) as A1. pose proof (xg_acc _ _ G k v p') as A2.
      destruct (xs_set S k v p) as [p1|] eqn:E1, (xs_set S k v p') as [p1'|] eqn:E2; try congruence.
      + apply IH; [exact Hr|]. rewrite (xg_comm _ _ G k q v [] p p1 p' Hk E1 H). exact E2.
      + apply IH; [exact Hr|exact H].
  Qed.
  Lemma xothers_fresh l : forallb x_is_set l = true -> forall p,
    snd (fst (xst S (p, [], 0%nat) (xothers l))) = [] /\ snd (xst S (p, [], 0%nat) (xothers l)) = 0%nat.
  Proof.
    induction l as [|o r IH]; intros Ha p; [split; reflexivity|]. cbn [forallb] in Ha. apply andb_true_iff in Ha.
    destruct Ha as [Ho Hr]. destruct o as [[f d|b|k v]|b|b|b]; try discriminate Ho.
    cbn [xothers filter sets_other]. fold (xothers r).
    destruct (negb (is_q k)); [|apply IH; auto].
    rewrite xst_cons. cbn [xstep fst]. destruct (xs_set S k v p); apply IH; auto.
  Qed.
  Lemma xothers_calls l : forallb x_is_set l = true -> xcalls_from T false l ->
    xcalls_from T false (xothers l) /\ fold_left (xflag1 T) (xothers l) false = false.
  Proof.
    induction l as [|o r IH]; intros Ha H; [split; [exact I|reflexivity]|].
    cbn [forallb] in Ha. apply andb_true_iff in Ha.
    destruct Ha as [Ho Hr]. destruct o as [[f d|b|k v]|b|b|b]; try discriminate Ho.
    cbn [xothers filter sets_other]. fold (xothers r). cbn [xcalls_from] in H. destruct H as [Hv H].
    assert (F : (if xt_accepts T k v then false else false) = false) by (destruct (xt_accepts T k v); reflexivity).
    rewrite F in H. destruct (IH Hr H) as [H1 H2].
    destruct (negb (is_q k)); [|auto]. cbn [xcalls_from fold_left xflag1]. rewrite F. auto.
  Qed.

  Theorem xempty_param : xempty_is_none T q is_q.
  Proof.
    intros g pre post Hg H1 H2.
    assert (Ea : xt_accepts T q [] = true).
    { pose proof (xg_acc _ _ G q [] (xs_default S)) as A. rewrite E0 in A. exact A. }
    destruct (xsetters_calls (T := T) pre [] false I eq_refl H1) as [H4 F4].
    pose proof (xsetters_all pre [] eq_refl) as Ha.
    destruct (xothers_calls (xsetters pre) Ha H4) as [H5 F5].
    assert (H3 : xcalls T (pre ++ [XBase (SetParam q [])])).
    { apply xcalls_app. split; [exact H1|]. cbn. repeat constructor. }
    assert (F : xflag T (pre ++ [XBase (SetParam q [])]) = false).
    { unfold xflag. rewrite fold_left_app. cbn. rewrite Ea. reflexivity. }
    eexists. split; [apply (xafter_eq G); rewrite ?F; auto|].
    rewrite (xafter_eq G); [|auto|exact H5|]. 2:{ unfold xflag. fold (xothers (xsetters pre)). rewrite F5. exact H2. }
    do 3 f_equal. rewrite xst_app. fold (xothers (xsetters pre)).
    pose proof (xothers_erase (xsetters pre) Ha _ _ [] [] 0%nat 0%nat E0) as E.
    pose proof (xst_setters (S := S) pre (xfresh S) [] eq_refl) as E1. unfold xsetters in *.
    destruct (xothers_fresh (xsetters_from [] pre) Ha (xs_default S)) as [E2 E3].
    unfold xfresh, par in *. rewrite xst_cons. cbn [fst].
    destruct (xst S (xs_default S, [], 0%nat) pre) as [[p m] k].
    destruct (xst S (xs_default S, [], 0%nat) (xsetters_from [] pre)) as [[p1 m1] k1].
    destruct (xst S (xs_default S, [], 0%nat) (xothers (xsetters_from [] pre))) as [[p2 m2] k2]. cbn [fst snd xstep] in *.
    subst p1 m2 k2. rewrite E. reflexivity.
  Qed.
End XGood.
