(** * Threads over the types of the library. *)
From Verif Require Import Base Hasher Library LibraryTypes Objects ObjectsProof Construct AnyCalls AnyProof LibraryAny
  Threads ThreadsProof.

Lemma m_run_hash P ops : forall s, m_run (hash_machine P) s ops = hash_run P s ops.
Proof.
  induction ops as [|o r IH]; intros s; [reflexivity|]. cbn [m_run hash_run hash_machine m_step].
  destruct (hash_step P s o) as [[s1 x]| |]; cbn [bind]; [|reflexivity|reflexivity].
  rewrite IH. reflexivity.
Qed.
Lemma m_run_xof P ops : forall s, m_run (xof_machine P) s ops = xof_run P s ops.
Proof.
  induction ops as [|o r IH]; intros s; [reflexivity|]. cbn [m_run xof_run xof_machine m_step].
  destruct (xof_step P s o) as [[s1 x]| |]; cbn [bind]; [|reflexivity|reflexivity].
  rewrite IH. reflexivity.
Qed.

Lemma obj_const_keeps o op s s' x : obj_const o op = true -> m_step (obj_machine o) s op = Ok (s', x) -> s' = s.
Proof.
  destruct o as [P T|P T]; cbn [obj_const obj_machine m_step hash_machine]; [|intros E; discriminate E].
  destruct op as [b|buf| |]; cbn [is_digest hash_step]; intros E; [discriminate E|..]; intros H.
  - destruct (digest_buf P s buf) as [r| |]; try discriminate H. injection H as <- _. reflexivity.
  - destruct (digest_iter P s) as [r| |]; try discriminate H. injection H as <- _. reflexivity.
  - destruct (digest_iter P s) as [r| |]; try discriminate H. injection H as <- _. reflexivity.
Qed.

Lemma digest_const o op : obj_const o op = true <-> digest_call o op.
Proof.
  destruct o as [P T|P T]; cbn [obj_const digest_call]; [|split; [intros E; discriminate E|tauto]].
  destruct op as [b|buf| |]; cbn [is_digest]; split; intros H; eauto; try discriminate H;
    destruct H as [(b' & H)|[H|H]]; discriminate H.
Qed.
Lemma used_step o op s : obj_library o -> obj_used o s -> obj_any o op ->
  exists v x, m_step (obj_machine o) s op = Ok (v, x) /\ obj_used o v.
Proof.
  intros L (s0 & ops & l & Hn & Ha & Hr) Ho.
  assert (X : exists v x, m_step (obj_machine o) s op = Ok (v, x)).
  { destruct o as [P T|P T]; cbn [obj_machine obj_library obj_any obj_new] in *.
    - destruct Hn as (g & Hg & Hn). rewrite m_run_hash in Hr.
      destruct (any_defined T L g ops [op] Hg Ha (Forall_cons _ Ho (Forall_nil _))) as (r & R & _).
      unfold after in R. rewrite Hn in R. cbn [bind] in R. rewrite Hr in R. cbn [bind hash_run] in R.
      cbn [hash_machine m_step]. destruct (hash_step P s op) as [[v x]| |]; [eauto|discriminate R|discriminate R].
    - destruct Hn as (g & Hg & Hn). rewrite m_run_xof in Hr.
      destruct (xlibrary_rob P T L) as (X & [R0]).
      destruct (xany_defined R0 g ops [op] Hg Ha (Forall_cons _ Ho (Forall_nil _))) as (r & R & _).
      unfold xafter in R. rewrite Hn in R. cbn [bind] in R. rewrite Hr in R. cbn [bind xof_run] in R.
      cbn [xof_machine m_step]. destruct (xof_step P s op) as [[v x]| |]; [eauto|discriminate R|discriminate R]. }
  destruct X as (v & x & E). exists v, x. split; [exact E|].
  exists s0, (ops ++ [op]), (l ++ [x]). split; [exact Hn|]. split.
  - apply Forall_app. split; [exact Ha|constructor; [exact Ho|constructor]].
  - rewrite m_run_app, Hr. cbn [bind m_run]. rewrite E. reflexivity.
Qed.

Section Lib.
  Variable kind : Type.
  Variable kind_eq : forall a b : kind, {a = b} + {a <> b}.
  Variable ty : kind -> object.
  Hypothesis ty_library : forall k, obj_library (ty k).
  Notation M := (fun k => obj_machine (ty k)).
  Notation const := (fun k => obj_const (ty k)).
  Notation call := (call kind M).
  Notation store := (store kind M).
  Notation threads_run := (threads_run kind kind_eq M const).
  Notation initial := (initial kind M).
  Definition used (s : store) : Prop := forall k i, obj_used (ty k) (s k i).
  Definition any_call (c : call) : Prop := obj_any (ty (ck c)) (co c).

  Lemma used_set s k i v : used s -> obj_used (ty k) v -> used (Objects.upd kind kind_eq s k i v).
  Proof.
    intros U V k' j. destruct (slot_dec kind kind_eq k k' i j) as [[<- <-]|Hn].
    - rewrite (upd_same kind kind_eq (A := fun k => m_st (M k))). exact V.
    - rewrite (upd_other kind kind_eq (A := fun k => m_st (M k))) by exact Hn. apply U.
  Qed.
  Lemma serial_defined p : forall s, used s -> Forall any_call p -> exists s' l, serial kind kind_eq M s p = Ok (s', l).
  Proof.
    unfold serial. induction p as [|c p IH]; intros s U A; [cbn; eauto|]. inversion A as [|? ? Hc Hp]; subst.
    destruct (used_step _ (co c) _ (ty_library (ck c)) (U (ck c) (ci c)) Hc) as (v & x & E & V).
    cbn [map events_run event_step bind]. rewrite E. cbn [bind].
    destruct (IH _ (used_set s (ck c) (ci c) v U V) Hp) as (s' & l & R). rewrite R. cbn [bind]. eauto.
  Qed.

  (** No call is undefined by itself. *)
  Lemma step_defined progs cfg t : shape kind kind_eq M const progs cfg -> used (mem cfg) -> Forall (Forall any_call) progs ->
    thread_step kind kind_eq M const cfg t = DataRace \/
    exists cfg', thread_step kind kind_eq M const cfg t = Run cfg' /\ used (mem cfg').
  Proof.
    intros S U A. unfold thread_step. destruct (nth_error (threads cfg) t) as [[[|c todo]|c todo|c v todo]|] eqn:Ht.
    - right; eauto.
    - destruct (races kind kind_eq M const c (threads cfg)); [auto|]. right. eexists; split; [reflexivity|exact U].
    - destruct (obj_const (ty (ck c)) (co c)); [right; eexists; split; [reflexivity|exact U]|].
      assert (Hc : any_call c).
      { pose proof (sh_left _ _ _ _ _ _ S _ _ Ht) as Hp. apply nth_error_In in Hp. rewrite Forall_forall in A. apply A in Hp.
        rewrite Forall_forall in Hp. apply Hp. apply in_or_app. right; left; reflexivity. }
      destruct (used_step _ (co c) _ (ty_library (ck c)) (U (ck c) (ci c)) Hc) as (v & x & E & V). rewrite E.
      right. eexists; split; [reflexivity|]. cbn [mem]. apply used_set; assumption.
    - assert (Hc : any_call c).
      { pose proof (sh_left _ _ _ _ _ _ S _ _ Ht) as Hp. apply nth_error_In in Hp. rewrite Forall_forall in A. apply A in Hp.
        rewrite Forall_forall in Hp. apply Hp. apply in_or_app. right; left; reflexivity. }
      destruct (sh_copy _ _ _ _ _ _ S _ _ Ht) as [-> _].
      destruct (used_step _ (co c) _ (ty_library (ck c)) (U (ck c) (ci c)) Hc) as (v & x & E & V). rewrite E.
      right. eexists; split; [reflexivity|exact U].
    - right; eauto.
  Qed.
  Theorem no_undefined s progs sched : used s -> Forall (Forall any_call) progs ->
    threads_run (initial s progs) sched <> Undefined.
  Proof.
    intros U A. assert (X : forall cfg, shape kind kind_eq M const progs cfg -> used (mem cfg) -> threads_run cfg sched <> Undefined).
    { induction sched as [|t r IH]; intros cfg S Um; cbn [Threads.threads_run]; [intros E; discriminate E|].
      destruct (step_defined progs cfg t S Um A) as [E|(c1 & E & U1)]; rewrite E; [intros H; discriminate H|].
      apply IH; [exact (shape_step _ _ _ _ _ _ _ _ S E)|exact U1]. }
    apply X; [apply shape_initial|exact U].
  Qed.
  Theorem lib_serial s progs sched cfg : threads_run (initial s progs) sched = Run cfg ->
    (exists s', serial kind kind_eq M s (map (fun e => fst (snd e)) (log cfg)) = Ok (s', map (fun e => snd (snd e)) (log cfg)) /\
       forall k i, s' k i = mem cfg k i) /\
    (forall t p, nth_error progs t = Some p -> exists rest, p = map fst (of_thread t (log cfg)) ++ rest).
  Proof. apply serial_order. intros k o. apply obj_const_keeps. Qed.
  Theorem lib_safe s progs sched : used s -> Forall (Forall any_call) progs -> synchronized kind kind_eq M const progs ->
    exists cfg, threads_run (initial s progs) sched = Run cfg /\
    (forall t p, nth_error progs t = Some p -> exists s' l rest, serial kind kind_eq M s p = Ok (s', l) /\
       l = map snd (of_thread t (log cfg)) ++ rest /\ (finished kind M cfg -> rest = [])).
  Proof.
    intros U A Sy. apply synchronized_safe; [intros k o; apply obj_const_keeps|exact Sy|].
    intros t p Hp. apply serial_defined; [exact U|]. rewrite Forall_forall in A. apply A. exact (nth_error_In _ _ Hp).
  Qed.
  Lemma shared_synchronized (progs : list (list call)) :
    (forall t u p q c d, t <> u -> nth_error progs t = Some p -> nth_error progs u = Some q -> In c p -> In d q ->
       ck c = ck d -> ci c = ci d -> digest_call (ty (ck c)) (co c) /\ digest_call (ty (ck d)) (co d)) ->
    synchronized kind kind_eq M const progs.
  Proof.
    intros H t u p q c d Hn Hp Hq Hc Hd. unfold conflict.
    destruct (same_object kind kind_eq M c d) eqn:E; [|reflexivity]. apply same_spec in E. destruct E as [E1 E2].
    destruct (H t u p q c d Hn Hp Hq Hc Hd E1 E2) as [X Y]. apply digest_const in X, Y. rewrite X, Y. reflexivity.
  Qed.
  Theorem lib_unsafe s progs t u p q c d : used s -> Forall (Forall any_call) progs ->
    t <> u -> nth_error progs t = Some p -> nth_error progs u = Some q ->
    In c p -> In d q -> conflict kind kind_eq M const c d = true ->
    exists sched, threads_run (initial s progs) sched = DataRace.
  Proof.
    intros U A Hn Hp Hq Hc Hd X.
    destruct (conflict_races kind kind_eq M const s progs t u p q c d Hn Hp Hq Hc Hd X) as (sched & [R|R]); [eauto|].
    exfalso. exact (no_undefined s progs sched U A R).
  Qed.
  Lemma serial_const p : forall s s' l, (forall c, In c p -> obj_const (ty (ck c)) (co c) = true) ->
    serial kind kind_eq M s p = Ok (s', l) ->
    Forall2 (fun c x => m_step (M (ck c)) (s (ck c) (ci c)) (co c) = Ok (s (ck c) (ci c), x)) p l.
  Proof.
    unfold serial. induction p as [|c p IH]; intros s s' l Hc H.
    - injection H as _ <-. constructor.
    - cbn [map events_run event_step bind] in H.
      destruct (m_step (M (ck c)) (s (ck c) (ci c)) (co c)) as [[v x]| |] eqn:E; try discriminate H. cbn [bind] in H.
      destruct (events_run _ _ _ _ _) as [[s1 l1]| |] eqn:E1; try discriminate H. injection H as _ <-.
      pose proof (obj_const_keeps _ _ _ _ _ (Hc c (or_introl eq_refl)) E) as ->. constructor; [exact E|].
      specialize (IH _ _ _ (fun d Hd => Hc d (or_intror Hd)) E1).
      clear - IH. induction IH as [|d y p l Hy _ IH2]; constructor; [|exact IH2].
      rewrite (set_own kind kind_eq M s (ck c) (ci c)) in Hy. exact Hy.
  Qed.
  Theorem lib_shared s progs sched : used s -> Forall (Forall any_call) progs ->
    (forall t u p q c d, t <> u -> nth_error progs t = Some p -> nth_error progs u = Some q -> In c p -> In d q ->
       ck c = ck d -> ci c = ci d -> digest_call (ty (ck c)) (co c) /\ digest_call (ty (ck d)) (co d)) ->
    exists cfg, threads_run (initial s progs) sched = Run cfg /\
    (forall t p, nth_error progs t = Some p -> exists s' l rest, serial kind kind_eq M s p = Ok (s', l) /\
       l = map snd (of_thread t (log cfg)) ++ rest /\ (finished kind M cfg -> rest = [])).
  Proof. intros U A H. exact (lib_safe s progs sched U A (shared_synchronized progs H)). Qed.
  Theorem lib_const s progs sched : used s -> Forall (Forall any_call) progs ->
    (forall p c, In p progs -> In c p -> digest_call (ty (ck c)) (co c)) ->
    exists cfg, threads_run (initial s progs) sched = Run cfg /\
    (forall t p, nth_error progs t = Some p -> exists l rest,
       Forall2 (fun c x => m_step (M (ck c)) (s (ck c) (ci c)) (co c) = Ok (s (ck c) (ci c), x)) p l /\
       l = map snd (of_thread t (log cfg)) ++ rest /\ (finished kind M cfg -> rest = [])).
  Proof.
    intros U A H. destruct (lib_shared s progs sched U A) as (cfg & R & X).
    { intros t u p q c d _ Hp Hq Hc Hd _ _. apply nth_error_In in Hp, Hq. eauto. }
    exists cfg. split; [exact R|]. intros t p Hp. destruct (X t p Hp) as (s' & l & rest & E & Y).
    exists l, rest. split; [|exact Y]. refine (serial_const p s s' l _ E). intros c Hc.
    apply digest_const. exact (H p c (nth_error_In _ _ Hp) Hc).
  Qed.
  Theorem lib_races s progs t u p q c d : used s -> Forall (Forall any_call) progs ->
    t <> u -> nth_error progs t = Some p -> nth_error progs u = Some q -> In c p -> In d q ->
    ck c = ck d -> ci c = ci d -> ~ digest_call (ty (ck c)) (co c) ->
    exists sched, threads_run (initial s progs) sched = DataRace.
  Proof.
    intros U A Hn Hp Hq Hc Hd E1 E2 X. refine (lib_unsafe s progs t u p q c d U A Hn Hp Hq Hc Hd _).
    unfold conflict. destruct (obj_const (ty (ck c)) (co c)) eqn:Ec; [exfalso; apply X, digest_const, Ec|].
    cbn [negb andb]. rewrite Bool.andb_true_r. apply same_spec. auto.
  Qed.
End Lib.
