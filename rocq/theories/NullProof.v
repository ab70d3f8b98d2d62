(** * Proofs about empty data behind a null pointer. *)
From Coq Require Import Lia.
From Verif Require Import Base Absorb Hasher HasherSpec MdState Library LibraryTypes Md5 Sha1 Sha2 Sm3 Whirlpool Keccak Sha3 Shake
  Kmac K12 Ascon Esch TTable Groestl Kupyna Streebog Jh Lsh Skein Blake Blake2 Blake2p Echo Null.

(** [a] with the null pointer, [b] with an empty array. *)
Definition agrees {A} (strict : bool) (a b : res A) : Prop :=
  if strict then forall r, b = Ok r -> a = UB NullPointer else forall r, a = Ok r <-> b = Ok r.

Lemma agrees_bind {A B} strict (a b : res A) (f : A -> res B) : agrees strict a b -> agrees strict (bind a f) (bind b f).
Proof.
  destruct strict; cbn; intros H.
  - intros r. destruct b as [x| |w]; cbn; try discriminate. intros _. rewrite (H x eq_refl). reflexivity.
  - intros r. destruct a as [x| |w], b as [y| |v]; cbn; try tauto.
    + pose proof (proj1 (H x) eq_refl) as E. injection E as <-. tauto.
    + pose proof (proj1 (H x) eq_refl). discriminate.
    + pose proof (proj1 (H x) eq_refl). discriminate.
    + pose proof (proj2 (H y) eq_refl). discriminate.
    + split; discriminate.
    + pose proof (proj2 (H y) eq_refl). discriminate.
    + split; discriminate.
    + split; discriminate.
Qed.
Lemma agrees_refl {A} (a : res A) : agrees false a a.
Proof. cbn. tauto. Qed.
Lemma agrees_ub {A} v w : @agrees A false (UB v) (UB w).
Proof. cbn. split; discriminate. Qed.

Lemma overlay_nil m pos : overlay m pos [] = m.
Proof.
  unfold overlay. cbn [length app]. rewrite Nat.add_0_r. apply firstn_skipn.
Qed.
Lemma memcpy_nil0 m pos : memcpy_null false m pos 0 = memcpy m pos [] 0.
Proof.
  unfold memcpy_null, memcpy. cbn [Nat.eqb]. rewrite Nat.add_0_r.
  destruct (pos <=? length m)%nat; cbn [andb Nat.leb length firstn]; [rewrite overlay_nil|]; reflexivity.
Qed.
Lemma memcpy_nil m pos k : agrees false (memcpy_null false m pos k) (memcpy m pos [] k).
Proof.
  destruct k as [|k].
  - rewrite memcpy_nil0. apply agrees_refl.
  - unfold memcpy_null, memcpy. cbn [Nat.eqb length]. rewrite Bool.andb_comm. cbn [andb Nat.leb]. apply agrees_ub.
Qed.

Section Absorb.
  Context {C : Type}.
  Variable tf : C -> list N -> N -> list N -> nat -> res (C * list N).

  Lemma absorb_null_lax bs bschk c m pos total :
    agrees false (absorb_null false tf bs bschk c m pos total) (absorb_bytes tf bs bschk [] c m pos total).
  Proof.
    unfold absorb_null, absorb_bytes. cbn [length]. rewrite !Nat.add_0_r.
    assert (Hend : forall c m pos total, agrees false
      (' (c, m, total) <- (if (bschk <=? 0)%nat then
           blk <- load_null ((bs - bschk) / bs * bs) ;;
           ' (c, m) <- tf c m total blk ((bs - bschk) / bs) ;;
           Ok (c, m, trunc 64 (total + N.of_nat ((bs - bschk) / bs * bs * 8)))
         else Ok (c, m, total)) ;;
       m <- memcpy_null false m pos 0 ;; Ok (c, m, pos, total))
      (' (c, m, data, total) <- (if (bschk <=? 0)%nat then
           blk <- load [] 0 ((bs - bschk) / bs * bs) ;;
           ' (c, m) <- tf c m total blk ((bs - bschk) / bs) ;;
           Ok (c, m, skipn ((bs - bschk) / bs * bs) [], trunc 64 (total + N.of_nat ((bs - bschk) / bs * bs * 8)))
         else Ok (c, m, [], total)) ;;
       m <- memcpy m pos data (length data) ;; Ok (c, m, (pos + length data)%nat, total))).
    { intros c1 m1 p1 t1. destruct (bschk <=? 0)%nat.
      - unfold load_null, load. destruct ((bs - bschk) / bs * bs)%nat as [|j] eqn:E; cbn [Nat.eqb].
        + cbn [bind Nat.leb Nat.add length skipn firstn].
          destruct (tf c1 m1 t1 [] ((bs - bschk) / bs)) as [[c2 m2]| |]; cbn [bind]; try apply agrees_refl.
          cbn [length]. rewrite Nat.add_0_r. apply agrees_bind, memcpy_nil.
        + cbn [Nat.leb Nat.add length bind]. apply agrees_ub.
      - cbn [bind length]. rewrite Nat.add_0_r. apply agrees_bind, memcpy_nil. }
    destruct (negb (pos =? 0)%nat && (bschk <=? pos)%nat).
    - destruct (size_sub bs pos) as [k| |]; cbn [bind]; try apply agrees_refl.
      destruct k as [|k].
      + rewrite memcpy_nil0. destruct (memcpy m pos [] 0) as [m1| |]; cbn [bind]; try apply agrees_refl.
        destruct (load m1 0 bs) as [blk| |]; cbn [bind]; try apply agrees_refl.
        destruct (tf c m1 total blk 1) as [[c2 m3]| |]; cbn [bind]; try apply agrees_refl.
        apply Hend.
      + unfold memcpy_null, memcpy. cbn [Nat.eqb length]. rewrite Bool.andb_comm. cbn [andb Nat.leb bind]. apply agrees_ub.
    - cbn [bind]. apply Hend.
  Qed.

  Lemma absorb_null_strict bs bschk c m pos total :
    agrees true (absorb_null true tf bs bschk c m pos total) (absorb_bytes tf bs bschk [] c m pos total).
  Proof.
    intros r. unfold absorb_null, absorb_bytes. cbn [length]. rewrite !Nat.add_0_r.
    destruct (negb (pos =? 0)%nat && (bschk <=? pos)%nat).
    - destruct (size_sub bs pos) as [k| |]; cbn [bind]; intros E; try discriminate E; reflexivity.
    - cbn [bind]. destruct bschk as [|b]; cbn [Nat.leb]; [|intros _; reflexivity]. cbv zeta. rewrite Nat.add_0_l.
      unfold load_null, load. destruct ((bs - 0) / bs * bs)%nat as [|j].
      + cbn [Nat.eqb Nat.leb Nat.add length bind firstn skipn].
        destruct (tf c m total [] ((bs - 0) / bs)) as [[c2 m2]| |]; cbn [bind]; intros E; try discriminate E; reflexivity.
      + intros _. reflexivity.
  Qed.
  Lemma absorb_null_agrees strict bs bschk c m pos total :
    agrees strict (absorb_null strict tf bs bschk c m pos total) (absorb_bytes tf bs bschk [] c m pos total).
  Proof. destruct strict; [apply absorb_null_strict|apply absorb_null_lax]. Qed.
End Absorb.

Lemma md_null_agrees strict step bs bschk s : agrees strict (md_null strict step bs bschk s) (md_update step bs bschk s []).
Proof. exact (agrees_bind strict _ _ _ (absorb_null_agrees _ strict _ _ _ _ _ _)). Qed.
Lemma md_null_res_agrees strict step bs bschk s :
  agrees strict (md_null_res strict step bs bschk s) (md_update_res step bs bschk s []).
Proof. exact (agrees_bind strict _ _ _ (absorb_null_agrees _ strict _ _ _ _ _ _)). Qed.

(** ** Every provider *)
Lemma shake_null_agrees strict B s : agrees strict (shake_null strict B 24 s) (shake_update B 24 s []).
Proof. exact (agrees_bind strict _ _ _ (md_null_res_agrees strict _ _ _ _)). Qed.
Lemma kmac_null_agrees strict B s : agrees strict (kmac_null strict B s) (kmac_update B s []).
Proof. exact (agrees_bind strict _ _ _ (shake_null_agrees strict B _)). Qed.
Lemma k12_null_agrees strict B R s : agrees strict (k12_null strict B R s) (k12_update B R s []).
Proof. exact (agrees_bind strict _ _ _ (absorb_null_agrees _ strict _ _ _ _ _ _)). Qed.
Lemma ascon_null_agrees strict s : agrees strict (ascon_null strict s) (ascon_update s []).
Proof. exact (agrees_bind strict _ _ _ (md_null_agrees strict _ _ _ _)). Qed.
Lemma esch_null_agrees strict s : agrees strict (esch_null strict s) (esch_update s []).
Proof. exact (agrees_bind strict _ _ _ (md_null_agrees strict _ _ _ _)). Qed.
Lemma sk_null_agrees strict nw s : agrees strict (sk_null strict nw s) (sk_update nw s []).
Proof. exact (agrees_bind strict _ _ _ (md_null_agrees strict _ _ _ _)). Qed.
Lemma b2_null_agrees strict w s : agrees strict (b2_null strict w s) (b2_update w s []).
Proof. exact (agrees_bind strict _ _ _ (md_null_agrees strict _ _ _ _)). Qed.
Lemma b2p_null_agrees strict tf s : agrees strict (b2p_null strict tf s) (b2p_update tf s []).
Proof. exact (agrees_bind strict _ _ _ (absorb_null_agrees _ strict _ _ _ _ _ _)). Qed.
Lemma sha2_null_agrees strict T s : agrees strict (sha2_null strict T s) (sha2_update T s []).
Proof. exact (agrees_bind strict _ _ _ (md_null_agrees strict _ _ _ _)). Qed.

Lemma update_agrees P U d : null_calls P U d -> forall strict s, agrees strict (n_update U strict s) (p_update P s []).
Proof.
  intros H. destruct H; intros strict s.
  - exact (md_null_agrees strict md5_block 64 64 s).
  - exact (md_null_agrees strict sha1_block 64 64 s).
  - exact (sha2_null_agrees strict W32 s).
  - exact (sha2_null_agrees strict W64 s).
  - exact (md_null_res_agrees strict (sm3_block sem) 64 64 s).
  - exact (md_null_agrees strict wp_block 64 64 s).
  - exact (agrees_bind strict _ _ _ (md_null_res_agrees strict _ _ _ _)).
  - exact (shake_null_agrees strict B s).
  - exact (shake_null_agrees strict B s).
  - exact (kmac_null_agrees strict B s).
  - exact (kmac_null_agrees strict B s).
  - exact (k12_null_agrees strict B R s).
  - exact (ascon_null_agrees strict s).
  - exact (ascon_null_agrees strict s).
  - exact (ascon_null_agrees strict s).
  - exact (esch_null_agrees strict s).
  - exact (esch_null_agrees strict s).
  - exact (agrees_bind strict _ _ _ (md_null_agrees strict _ _ _ _)).
  - exact (agrees_bind strict _ _ _ (md_null_agrees strict _ _ _ _)).
  - exact (agrees_bind strict _ _ _ (md_null_agrees strict _ _ _ _)).
  - exact (agrees_bind strict _ _ _ (md_null_agrees strict _ _ _ _)).
  - exact (agrees_bind strict _ _ _ (md_null_res_agrees strict _ _ _ _)).
  - exact (sk_null_agrees strict nw s).
  - exact (sk_null_agrees strict nw s).
  - exact (agrees_bind strict _ _ _ (absorb_null_agrees _ strict _ _ _ _ _ _)).
  - exact (agrees_bind strict _ _ _ (md_null_agrees strict _ _ _ _)).
  - exact (b2_null_agrees strict w s).
  - exact (b2_null_agrees strict w s).
  - exact (b2p_null_agrees strict tf s).
Qed.

Lemma b2_set_null_lax w q s : b2_set_null false w q s = b2_set w q [] s.
Proof. destruct q, s; reflexivity. Qed.
Lemma b2_set_null_ok strict w q s : strict && salt_or_pers q = false -> b2_set_null strict w q s = b2_set w q [] s.
Proof. destruct strict; [|intros _; apply b2_set_null_lax]. destruct q; [intros _; reflexivity|discriminate|discriminate]. Qed.
Lemma b2_set_all_null_ok strict w q l : strict && salt_or_pers q = false -> b2_set_all_null strict w q l = b2_set_all w q [] l.
Proof.
  intros H. induction l as [|x l IH]; [reflexivity|]. cbn [b2_set_all_null b2_set_all].
  rewrite (b2_set_null_ok strict w q x H), IH. reflexivity.
Qed.
Lemma b2p_set_null_ok strict w q s : strict && salt_or_pers q = false -> b2p_set_null strict w q s = b2p_set w q [] s.
Proof.
  intros H. unfold b2p_set_null, b2p_set. rewrite (b2_set_null_ok strict w q _ H), (b2_set_all_null_ok strict w q _ H). reflexivity.
Qed.

Lemma set_same P U d : null_calls P U d -> forall strict q s, strict && d q = false -> n_set U strict q s = p_set P q [] s.
Proof.
  intros H. destruct H; intros strict q s E; try exact eq_refl.
  - exact (b2_set_null_ok strict w q s E).
  - exact (b2_set_null_ok strict w q s E).
  - exact (b2p_set_null_ok strict w q s E).
Qed.
Lemma set_strict P U d : null_calls P U d -> forall q s, d q = true -> n_set U true q s = SetUB NullPointer.
Proof.
  intros H. destruct H; intros q s E; try discriminate E.
  - destruct q; [discriminate E|reflexivity|reflexivity].
  - destruct q; [discriminate E|reflexivity|reflexivity].
  - destruct q; [discriminate E|reflexivity|reflexivity].
Qed.

(** ** Histories *)
Section Runs.
  Variables (P : provider) (U : nulls P) (d : p_param P -> bool).
  Hypothesis HU : null_calls P U d.
  Variables (op : Type) (step : pst P -> op -> res (pst P * out)) (base : base_op (p_param P) -> op).
  Hypothesis Hbase : forall s b, step s (base b) = base_step P s b.
  Variable run : pst P -> list op -> res (pst P * list out).
  Hypothesis run_nil : forall s, run s [] = Ok (s, []).
  Hypothesis run_cons : forall s o r, run s (o :: r) = (' (s, x) <- step s o ;; ' (s, xs) <- run s r ;; Ok (s, x :: xs)).

  Definition plain_op (o : nop op (p_param P)) : op :=
    match o with Given o => o | NullAbsorb => base (Absorb FPtr []) | NullSet q => base (SetParam q []) end.

  Lemma bind_ok {A B} (a b : res A) (f g : A -> res B) :
    (forall r, a = Ok r <-> b = Ok r) -> (forall x r, f x = Ok r <-> g x = Ok r) -> forall r, bind a f = Ok r <-> bind b g = Ok r.
  Proof.
    intros H G r. destruct a as [x| |], b as [y| |]; cbn [bind];
      try (pose proof (proj1 (H _) eq_refl) as E; try discriminate E);
      try (pose proof (proj2 (H _) eq_refl) as E'; try discriminate E'); try (split; discriminate).
    injection E as <-. apply G.
  Qed.

  Lemma nstep_same strict s o : strict && copies_null d o = false ->
    forall r, nstep P U strict op step s o = Ok r <-> step s (plain_op o) = Ok r.
  Proof.
    destruct o as [o| |q]; cbn [nstep plain_op copies_null]; intros E r.
    - tauto.
    - rewrite Hbase. cbn [base_step absorb]. destruct strict; [discriminate E|].
      exact (agrees_bind false _ _ _ (update_agrees P U d HU false s) r).
    - rewrite Hbase. cbn [base_step]. unfold set_param. rewrite (set_same P U d HU strict q s E).
      destruct (p_set P q [] s) as [s'|s'|w]; [|cbn; tauto|cbn; split; discriminate].
      destruct (p_init P s') as [x| |]; cbn; tauto || (split; discriminate).
  Qed.
  Lemma nrun_same strict ops : forallb (fun o => negb (strict && copies_null d o)) ops = true ->
    forall s r, nrun P U strict op step s ops = Ok r <-> run s (map plain_op ops) = Ok r.
  Proof.
    induction ops as [|o ops IH]; intros H s r; cbn [nrun map].
    - rewrite run_nil. tauto.
    - cbn [forallb] in H. apply andb_prop in H as [H1 H2]. apply Bool.negb_true_iff in H1. rewrite run_cons.
      apply bind_ok; [exact (nstep_same strict s o H1)|]. intros [s1 x] r1. apply bind_ok; [exact (IH H2 s1)|]. intros [s2 xs] r2. tauto.
  Qed.
  Lemma nstep_strict s o r : copies_null d o = true -> step s (plain_op o) = Ok r -> nstep P U true op step s o = UB NullPointer.
  Proof.
    destruct o as [o| |q]; cbn [nstep plain_op copies_null]; intros E; [discriminate E| |].
    - rewrite Hbase. cbn [base_step absorb]. pose proof (update_agrees P U d HU true s) as A. cbn in A.
      destruct (p_update P s []) as [x| |]; cbn [bind]; intros H; try discriminate H. rewrite (A x eq_refl). reflexivity.
    - intros _. rewrite (set_strict P U d HU q s E). reflexivity.
  Qed.
  Lemma nrun_app strict a b s : nrun P U strict op step s (a ++ b) =
    (' (s1, x) <- nrun P U strict op step s a ;; ' (s2, y) <- nrun P U strict op step s1 b ;; Ok (s2, x ++ y)).
  Proof.
    revert s. induction a as [|o a IH]; intros s; cbn [nrun app bind].
    - destruct (nrun P U strict op step s b) as [[s1 y]| |]; reflexivity.
    - destruct (nstep P U strict op step s o) as [[s1 x]| |]; cbn [bind]; try reflexivity. rewrite IH.
      destruct (nrun P U strict op step s1 a) as [[s2 y]| |]; cbn [bind]; try reflexivity.
      destruct (nrun P U strict op step s2 b) as [[s3 z]| |]; reflexivity.
  Qed.
End Runs.
