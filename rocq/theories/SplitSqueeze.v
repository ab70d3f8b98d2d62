(** * Squeezing in pieces, from every state.

    All providers hand out the bytes of one block after the other; two calls continue where
    one longer call would. This needs no assumption on how the state was reached. *)
From Coq Require Import Lia.
From Verif Require Import Base Lemmas WordLemmas MdState Hasher Squeeze.
Local Open Scope nat_scope.

(** What C11 needs of a provider: squeezing n + m bytes is squeezing n and then m bytes, and
    the object ends up in the same state. *)
Definition splits (P : xof_provider) : Prop := forall s n m u w, 0 < n -> 0 < m ->
  xp_squeeze P s (n + m) = Ok (u, w) ->
  exists t w1 w2, xp_squeeze P s n = Ok (t, w1) /\ xp_squeeze P t m = Ok (u, w2) /\ w = w1 ++ w2.
Definition emits_bytes (P : xof_provider) : Prop := forall s n t w, 0 < n ->
  xp_squeeze P s n = Ok (t, w) -> bytes_ok w /\ length w = n.

Lemma Ok_eq {A} (a b : A) : Ok a = Ok b -> a = b.
Proof. congruence. Qed.

Section Stream.
  Context {C : Type}.
  Variable next : C -> res C.
  Variable emit : C -> list N.
  Variable r : nat.
  Hypothesis Hr : 0 < r.

  Definition rd (c : C) (pos k : nat) : res (list N) :=
    match k with O => Ok [] | _ => load (emit c) pos k end.
  (** [k] bytes from position [pos] of the current block on. *)
  Fixpoint stream (fuel : nat) (c : C) (pos k : nat) : res (C * nat * list N) :=
    if k <=? r - pos then w <- rd c pos k ;; Ok (c, pos + k, w)
    else match fuel with
         | O => UB OutOfBounds
         | S f =>
           w <- rd c pos (r - pos) ;;
           c <- next c ;;
           ' (c, p, w') <- stream f c 0 (k - (r - pos)) ;;
           Ok (c, p, w ++ w')
         end.
  Definition enough (fuel pos k : nat) : Prop := match pos with O => k <= S fuel | _ => k <= fuel end.

  Lemma stream_fuel f1 : forall f2 c pos k, pos <= r -> enough f1 pos k -> enough f2 pos k ->
    stream f1 c pos k = stream f2 c pos k.
  Proof.
    induction f1 as [|f1 IH]; intros [|f2] c pos k Hp H1 H2; cbn [stream];
      destruct (Nat.leb_spec k (r - pos)) as [L|L]; auto; unfold enough in *.
    - destruct pos; lia.
    - destruct pos; lia.
    - destruct (rd c pos (r - pos)); cbn [bind]; auto. destruct (next c) as [c'| |]; cbn [bind]; auto.
      rewrite (IH f2); auto; try lia; unfold enough; destruct pos; cbv iota; lia.
  Qed.

  Lemma stream_here f c pos k : k <= r - pos -> stream f c pos k = (w <- rd c pos k ;; Ok (c, pos + k, w)).
  Proof. intros L. destruct f; cbn [stream]; (destruct (Nat.leb_spec k (r - pos)); [reflexivity|lia]). Qed.

  Lemma stream_boundary f c k : 0 < k -> stream (S f) c r k = (c <- next c ;; stream f c 0 k).
  Proof.
    intros Hk. cbn [stream]. rewrite Nat.sub_diag. destruct (Nat.leb_spec k 0); [lia|]. cbn [rd bind].
    destruct (next c) as [c'| |]; cbn [bind]; [|reflexivity|reflexivity]. rewrite Nat.sub_0_r.
    destruct (stream f c' 0 k) as [[[? ?] ?]| |]; reflexivity.
  Qed.

  Lemma stream_more f c pos k : r - pos < k -> stream (S f) c pos k
    = (w <- rd c pos (r - pos) ;; c <- next c ;; ' (c, p, w') <- stream f c 0 (k - (r - pos)) ;; Ok (c, p, w ++ w')).
  Proof. intros L. cbn [stream]. destruct (Nat.leb_spec k (r - pos)); [lia|reflexivity]. Qed.

  Lemma rd_split c pos a b w : rd c pos (a + b) = Ok w ->
    exists w1 w2, rd c pos a = Ok w1 /\ rd c (pos + a) b = Ok w2 /\ w = w1 ++ w2.
  Proof.
    unfold rd, load. destruct a as [|a]; [intros H; exists [], w; rewrite Nat.add_0_r; auto|]. cbn [Nat.add].
    destruct b as [|b]; [rewrite Nat.add_0_r; intros H; exists w, []; rewrite app_nil_r; auto|].
    destruct (Nat.leb_spec (pos + S (a + S b)) (length (emit c))) as [L|L]; [|discriminate].
    intros E. apply Ok_eq in E. subst w. do 2 eexists. split; [|split].
    - destruct (Nat.leb_spec (pos + S a) (length (emit c))); [reflexivity|lia].
    - destruct (Nat.leb_spec (pos + S a + S b) (length (emit c))); [reflexivity|lia].
    - rewrite <- (firstn_skipn (S a) (firstn (S (a + S b)) (skipn pos (emit c)))). f_equal.
      + rewrite firstn_firstn. f_equal. lia.
      + rewrite skipn_firstn_comm, skipn_skipn. f_equal; [lia|f_equal; lia].
  Qed.

  Lemma stream_split f : forall c pos n m u p w, pos <= r -> enough f pos (n + m) -> 0 < n -> 0 < m ->
    stream f c pos (n + m) = Ok (u, p, w) ->
    exists c1 p1 w1 w2, stream f c pos n = Ok (c1, p1, w1) /\ p1 <= r /\ 0 < p1 /\
      stream (n + m) c1 p1 m = Ok (u, p, w2) /\ w = w1 ++ w2.
  Proof.
    induction f as [|f IH]; intros c pos n m u p w Hp Hf Hn Hm E; cbn [stream] in E;
      destruct (Nat.leb_spec (n + m) (r - pos)) as [L|L]; try discriminate E.
    1, 2: destruct (rd c pos (n + m)) as [w'| |] eqn:Er; [|discriminate E|discriminate E]; injection E as <- <- <-;
      destruct (rd_split _ _ _ _ _ Er) as (w1 & w2 & R1 & R2 & ->);
      exists c, (pos + n), w1, w2; (split; [|split; [|split; [|split]]]); auto; try lia;
      rewrite stream_here by lia; [rewrite R1; reflexivity|rewrite R2; cbn [bind]; rewrite Nat.add_assoc; reflexivity].
    destruct (rd c pos (r - pos)) as [wa| |] eqn:Ra; [|discriminate E|discriminate E]. cbn [bind] in E.
    destruct (next c) as [c'| |] eqn:Ec; [|discriminate E|discriminate E]. cbn [bind] in E.
    destruct (stream f c' 0 (n + m - (r - pos))) as [[[c2 p2] wb]| |] eqn:Eg; [|discriminate E|discriminate E].
    cbn [bind] in E. injection E as <- <- <-.
    cbn [stream]. destruct (Nat.leb_spec n (r - pos)) as [Ln|Ln].
    - (* the first piece ends in this block *)
      replace (r - pos) with (n + (r - pos - n)) in Ra by lia.
      destruct (rd_split _ _ _ _ _ Ra) as (w1 & w2 & R1 & R2 & ->).
      exists c, (pos + n), w1, (w2 ++ wb). rewrite R1. cbn [bind]. (split; [|split; [|split; [|split]]]); auto; try lia.
      2: rewrite app_assoc; reflexivity.
      destruct (n + m) as [|q] eqn:Eq; [lia|]. cbn [stream].
      destruct (Nat.leb_spec m (r - (pos + n))); [lia|].
      replace (r - (pos + n)) with (r - pos - n) by lia. rewrite R2. cbn [bind]. rewrite Ec. cbn [bind].
      replace (m - (r - pos - n)) with (S q - (r - pos)) by lia.
      rewrite (stream_fuel q f); [rewrite Eg; reflexivity|lia| |]; unfold enough in *; destruct pos; cbv iota in *; lia.
    - (* it ends in a later block *)
      replace (n + m - (r - pos)) with (n - (r - pos) + m) in Eg by lia.
      assert (Hf' : enough f 0 (n - (r - pos) + m)) by (unfold enough in *; destruct pos; cbv iota in *; lia).
      assert (Hn' : 0 < n - (r - pos)) by lia.
      destruct (IH _ _ _ _ _ _ _ (Nat.le_0_l r) Hf' Hn' Hm Eg)
        as (c1 & p1 & w1 & w2 & G1 & Hp1 & Hp0 & G2 & ->).
      exists c1, p1, (wa ++ w1), w2. rewrite Ra. cbn [bind]. rewrite Ec. cbn [bind]. rewrite G1. cbn [bind].
      (split; [|split; [|split; [|split]]]); auto.
      2: rewrite app_assoc; reflexivity.
      rewrite <- G2. destruct p1; [lia|]. apply stream_fuel; unfold enough; lia.
  Qed.

  Lemma rd_ok c pos k w : bytes_ok (emit c) -> rd c pos k = Ok w -> bytes_ok w /\ length w = k.
  Proof.
    unfold rd, load. intros Hb. destruct k; [intros E; injection E as <-; split; [constructor|reflexivity]|].
    destruct (Nat.leb_spec (pos + S k) (length (emit c))); [|discriminate]. intros E. apply Ok_eq in E. subst w. split.
    - apply Forall_firstn, Forall_skipn. exact Hb.
    - rewrite firstn_length, skipn_length. lia.
  Qed.
  Hypothesis Hemit : forall c, bytes_ok (emit c).
  Lemma stream_ok f : forall c pos k u p w, stream f c pos k = Ok (u, p, w) -> bytes_ok w /\ length w = k.
  Proof.
    induction f as [|f IH]; intros c pos k u p w E; cbn [stream] in E;
      destruct (Nat.leb_spec k (r - pos)) as [L|L]; try discriminate E.
    1, 2: destruct (rd c pos k) as [w'| |] eqn:Er; [|discriminate E|discriminate E]; injection E as <- <- <-;
      exact (rd_ok _ _ _ _ (Hemit c) Er).
    destruct (rd c pos (r - pos)) as [wa| |] eqn:Ra; [|discriminate E|discriminate E]. cbn [bind] in E.
    destruct (next c) as [c'| |] eqn:Ec; [|discriminate E|discriminate E]. cbn [bind] in E.
    destruct (stream f c' 0 (k - (r - pos))) as [[[c2 p2] wb]| |] eqn:Eg; [|discriminate E|discriminate E].
    cbn [bind] in E. injection E as <- <- <-. destruct (rd_ok _ _ _ _ (Hemit c) Ra) as [A1 A2].
    destruct (IH _ _ _ _ _ _ Eg) as [B1 B2]. split; [apply bytes_ok_app; auto|rewrite app_length; lia].
  Qed.

  (** Every state that is reached has been produced by [next] or belongs to the start. *)
  Variable ok : C -> Prop.
  Hypothesis next_ok : forall c c', next c = Ok c' -> ok c'.
  Lemma stream_inv f : forall c pos k u p w, (pos < r -> ok c) -> pos <= r -> 0 < k -> stream f c pos k = Ok (u, p, w) ->
    ok u /\ p <= r.
  Proof.
    induction f as [|f IH]; intros c pos k u p w Hc Hp Hk E; cbn [stream] in E;
      destruct (Nat.leb_spec k (r - pos)) as [L|L]; try discriminate E.
    1, 2: destruct (rd c pos k) as [w'| |] eqn:Er; [|discriminate E|discriminate E]; injection E as <- <- <-;
      split; [apply Hc; lia|lia].
    destruct (rd c pos (r - pos)) as [wa| |] eqn:Ra; [|discriminate E|discriminate E]. cbn [bind] in E.
    destruct (next c) as [c'| |] eqn:Ec; [|discriminate E|discriminate E]. cbn [bind] in E.
    destruct (stream f c' 0 (k - (r - pos))) as [[[c2 p2] wb]| |] eqn:Eg; [|discriminate E|discriminate E].
    cbn [bind] in E. injection E as <- <- <-. refine (IH _ _ _ _ _ _ (fun _ => next_ok _ _ Ec) (Nat.le_0_l r) _ Eg). lia.
  Qed.
End Stream.

(** A provider whose squeeze is a [stream] from a starting point that does not depend on the
    number of bytes. *)
Section Provider.
  Variable P : xof_provider.
  Context {C Env : Type}.
  Variable next : Env -> C -> res C.
  Variable emit : C -> list N.
  Variable r : nat.
  Variable env : pst P -> Env.
  Variable start : pst P -> res (pst P * C * nat).
  Variable pack : pst P -> C -> nat -> pst P.
  Variable ok : C -> Prop.
  Record streams : Prop := {
    st_r : 0 < r;
    st_emit : forall c, bytes_ok (emit c);
    st_next : forall e c c', next e c = Ok c' -> ok c';
    st_start : forall s s' c pos, start s = Ok (s', c, pos) -> pos <= r /\ (pos < r -> ok c);
    st_again : forall s s0 c0 p0 c pos, start s = Ok (s0, c0, p0) -> ok c -> pos <= r ->
      start (pack s0 c pos) = Ok (pack s0 c pos, c, pos) /\ env (pack s0 c pos) = env s0 /\
      forall c' p', pack (pack s0 c pos) c' p' = pack s0 c' p';
    st_squeeze : forall s k, 0 < k -> xp_squeeze P s k =
      (' (s, c, pos) <- start s ;; ' (c, pos, w) <- stream (next (env s)) emit r k c pos k ;; Ok (pack s c pos, w))
  }.

  Hypothesis H : streams.
  Lemma streams_split : splits P.
  Proof.
    intros s n m u w Hn Hm E. rewrite (st_squeeze H) in E by lia.
    destruct (start s) as [[[s0 c0] p0]| |] eqn:Es; [|discriminate E|discriminate E]. cbn [bind] in E.
    destruct (st_start H _ _ _ _ Es) as [Hp0 Hc0].
    destruct (stream (next (env s0)) emit r (n + m) c0 p0 (n + m)) as [[[c2 p2] w']| |] eqn:Eg; [|discriminate E|discriminate E].
    cbn [bind] in E. injection E as <- <-.
    destruct (stream_split (next (env s0)) emit r (st_r H) (n + m) c0 p0 n m c2 p2 w' Hp0) as (c1 & p1 & w1 & w2 & G1 & Hp1 & Hp1' & G2 & ->);
      auto; [unfold enough; destruct p0; lia|].
    assert (I1 : ok c1 /\ p1 <= r)
      by exact (stream_inv (next (env s0)) emit r (st_r H) ok (st_next H (env s0)) (n + m) c0 p0 n c1 p1 w1 Hc0 Hp0 Hn G1).
    destruct I1 as [O1 _].
    destruct (st_again H _ _ _ _ c1 p1 Es O1 Hp1) as (A1 & A2 & A3).
    exists (pack s0 c1 p1), w1, w2. rewrite !(st_squeeze H) by lia. rewrite Es, A1. cbn [bind]. rewrite A2.
    rewrite (stream_fuel (next (env s0)) emit r (st_r H) n (n + m)), G1 by (auto; unfold enough; destruct p0; lia).
    rewrite (stream_fuel (next (env s0)) emit r (st_r H) m (n + m)), G2 by (auto; unfold enough; destruct p1; lia).
    cbn [bind]. rewrite A3. auto.
  Qed.
  Lemma streams_bytes : emits_bytes P.
  Proof.
    intros s n t w Hn E. rewrite (st_squeeze H) in E by lia.
    destruct (start s) as [[[s0 c0] p0]| |] eqn:Es; [|discriminate E|discriminate E]. cbn [bind] in E.
    destruct (stream (next (env s0)) emit r n c0 p0 n) as [[[c2 p2] w']| |] eqn:Eg; [|discriminate E|discriminate E].
    cbn [bind] in E. injection E as <- <-.
    exact (stream_ok (next (env s0)) emit r (st_r H) (st_emit H) _ _ _ _ _ _ _ Eg).
  Qed.
End Provider.
