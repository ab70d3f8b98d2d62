(** * Refinement of hasher histories to the abstract hasher. *)
From Verif Require Import Base Lemmas Hasher HasherSpec.

(** ** Hex output *)

Lemma put_hex_byte b : b < 256 ->
  put_hex 2 b = [nibble_char (b / 16); nibble_char (b mod 16)].
Proof.
  intros Hb.
  pose proof (forallb_bytes (fun b => if list_eq_dec N.eq_dec (put_hex 2 b)
                 [nibble_char (b / 16); nibble_char (b mod 16)] then true else false)
                 ltac:(vm_compute; reflexivity) b Hb) as E.
  cbv beta in E. destruct list_eq_dec; [auto|discriminate].
Qed.

Lemma hex_string_spec l : bytes_ok l -> hex_string l = spec_hex l.
Proof.
  unfold hex_string, spec_hex. induction 1; [reflexivity|].
  cbn [flat_map]. rewrite put_hex_byte by auto. rewrite IHForall. reflexivity.
Qed.

(** ** Absorb overloads *)

Section AbsorbForms.
  Variable P : provider.
  Variable R : pst P -> list N -> Prop.
  Hypothesis upd_ok : forall s msg d, bytes_ok d -> R s msg ->
    exists s', p_update P s d = Ok s' /\ R s' (msg ++ d).

  Lemma absorb_iter_ok d : forall s msg, bytes_ok d -> R s msg ->
    exists s', absorb_iter P s d = Ok s' /\ R s' (msg ++ d).
  Proof.
    induction d as [|b r IH]; intros s msg Hd HR; cbn [absorb_iter].
    - exists s. rewrite app_nil_r. auto.
    - inversion Hd; subst.
      destruct (upd_ok s msg [b]) as (s1 & -> & R1); [constructor; auto|auto|].
      cbn [bind]. destruct (IH s1 (msg ++ [b])) as (s2 & -> & R2); auto.
      exists s2. split; [reflexivity|]. rewrite <- app_assoc in R2. exact R2.
  Qed.

  Lemma absorb_stream_ok fuel : forall s msg d, bytes_ok d ->
    (length d <= fuel)%nat -> R s msg ->
    exists s', absorb_stream P fuel s d = Ok s' /\ R s' (msg ++ d).
  Proof.
    induction fuel as [|f IH]; intros s msg d Hd Hl HR; cbn [absorb_stream];
      destruct (N.leb_spec tmp_buffer_size (N.of_nat (length d))) as [Hb|Hb].
    - unfold tmp_buffer_size in Hb. lia.
    - destruct (Nat.eqb_spec (length d) 0); [|lia].
      destruct d; [|discriminate]. exists s. rewrite app_nil_r. auto.
    - set (k := N.to_nat tmp_buffer_size).
      assert (Hk : (k <= length d)%nat) by (unfold k; lia).
      destruct (upd_ok s msg (firstn k d)) as (s1 & -> & R1); auto.
      { apply Forall_firstn. auto. }
      cbn [bind].
      destruct (IH s1 (msg ++ firstn k d) (skipn k d)) as (s2 & -> & R2); auto.
      { apply Forall_skipn. auto. }
      { rewrite skipn_length. assert (0 < k)%nat by (unfold k, tmp_buffer_size; lia). lia. }
      exists s2. split; [reflexivity|].
      rewrite <- app_assoc, firstn_skipn in R2. exact R2.
    - destruct (Nat.eqb_spec (length d) 0).
      + destruct d; [|discriminate]. exists s. rewrite app_nil_r. auto.
      + apply upd_ok; auto.
  Qed.

  Lemma absorb_ok f s msg d : bytes_ok d -> R s msg ->
    exists s', absorb P f s d = Ok s' /\ R s' (msg ++ absorbed f d).
  Proof.
    intros Hd HR. destruct f; cbn [absorb absorbed].
    - auto.
    - unfold absorb_str. destruct d; [|auto]. exists s. rewrite app_nil_r. auto.
    - apply absorb_stream_ok; auto.
    - exists s. rewrite app_nil_r. auto.
    - apply absorb_iter_ok; auto.
  Qed.
End AbsorbForms.

(** ** Well-formed calls: arguments are bytes; [clr] says whether reset(true) is
    allowed in the history. *)
Definition base_ok {param} (clr : bool) (o : base_op param) : Prop :=
  match o with
  | Absorb _ d => bytes_ok d
  | Reset b => b = true -> clr = true
  | SetParam _ v => bytes_ok v
  end.

Definition hash_op_ok {param} (clr : bool) (o : hash_op param) : Prop :=
  match o with HBase b => base_ok clr b | _ => True end.

(** A provider together with the state [fresh] of a newly constructed hasher
    implements a hash function specification: every history of calls returns what the
    abstract hasher returns, and nothing is undefined. *)
Definition implements (P : hash_provider) (S : hash_spec (p_param P)) (clr : bool)
  (fresh : res (pst P)) : Prop :=
  forall ops, Forall (hash_op_ok clr) ops ->
  exists s0 s1, fresh = Ok s0 /\
    hash_run P s0 ops = Ok (s1, snd (arun S (afresh S) ops)).

Section HashRefine.
  Variable P : hash_provider.
  Variable S : hash_spec (p_param P).
  Variable R : pst P -> sp_params S -> list N -> Prop.
  Variable clr : bool.

  Record sim : Prop := {
    sim_init : forall s p msg, R s p msg -> exists s', p_init P s = Ok s' /\ R s' p [];
    sim_update : forall s p msg d, bytes_ok d -> R s p msg ->
      exists s', p_update P s d = Ok s' /\ R s' p (msg ++ d);
    sim_clear : clr = true -> forall s p msg, R s p msg ->
      exists s1 s2, p_clear P s = Ok s1 /\ p_init P s1 = Ok s2 /\ R s2 (sp_default S) [];
    sim_set : forall q v s p msg, bytes_ok v -> R s p msg ->
      match sp_set S q v p with
      | Some p' => exists s1 s2, p_set P q v s = Done s1 /\ p_init P s1 = Ok s2 /\ R s2 p' []
      | None => exists s1, p_set P q v s = Raised s1 /\ R s1 p msg
      end;
    sim_final : forall s p msg, R s p msg ->
      exists s', hp_final P s = Ok (s', sp_digest S p msg);
    sim_size : forall s p msg, R s p msg -> hp_size P s / 8 = N.of_nat (sp_size S);
    sim_len : forall s p msg, R s p msg -> length (sp_digest S p msg) = sp_size S;
    sim_bytes : forall s p msg, R s p msg -> bytes_ok (sp_digest S p msg);
    sim_pos : (0 < sp_size S)%nat
  }.

  Hypothesis H : sim.

  Lemma memcpy_full dst w :
    (length w <= length dst)%nat ->
    memcpy dst 0 w (length w) = Ok (w ++ skipn (length w) dst).
  Proof.
    intros. rewrite <- (app_nil_l dst) at 1. rewrite memcpy_app by (auto; lia).
    rewrite firstn_all. reflexivity.
  Qed.

  Lemma digest_buf_ok s p msg buf : R s p msg ->
    digest_buf P s buf =
      Ok (if (length buf <? sp_size S)%nat then OThrow
          else OBytes (sp_digest S p msg ++ skipn (sp_size S) buf)).
  Proof.
    intros HR. unfold digest_buf. rewrite (sim_size H s p msg HR).
    destruct (Nat.ltb_spec (length buf) (sp_size S)).
    - destruct (N.ltb_spec (N.of_nat (length buf)) (N.of_nat (sp_size S))); [reflexivity|lia].
    - destruct (N.ltb_spec (N.of_nat (length buf)) (N.of_nat (sp_size S))); [lia|].
      destruct (sim_final H s p msg HR) as (s' & ->). cbn [bind].
      pose proof (sim_len H s p msg HR) as L.
      rewrite memcpy_full by lia. cbn [bind]. rewrite L. reflexivity.
  Qed.

  Lemma digest_iter_ok s p msg : R s p msg ->
    digest_iter P s = Ok (sp_digest S p msg).
  Proof.
    intros HR. unfold digest_iter. rewrite (sim_size H s p msg HR), Nat2N.id.
    pose proof (sim_pos H). destruct (sp_size S) as [|n] eqn:E; [lia|].
    change (zeros (Datatypes.S n)) with (0 :: zeros n). cbv iota zeta.
    destruct (sim_final H s p msg HR) as (s' & ->). cbn [bind].
    pose proof (sim_len H s p msg HR) as L.
    rewrite memcpy_full by (rewrite L, E; cbn [length]; rewrite zeros_length; lia).
    rewrite skipn_all2 by (rewrite L, E; cbn [length]; rewrite zeros_length; lia).
    rewrite app_nil_r. reflexivity.
  Qed.

  Lemma hash_step_ok s p msg o : hash_op_ok clr o -> R s p msg ->
    exists s', hash_step P s o = Ok (s', snd (astep S (p, msg) o)) /\
      R s' (fst (fst (astep S (p, msg) o))) (snd (fst (astep S (p, msg) o))).
  Proof.
    intros Ho HR. destruct o as [b|buf| |].
    - destruct b as [f d|b|q v]; cbn [hash_step base_step astep abase].
      + destruct (absorb_ok P (fun s m => R s p m)
          (fun s m d Hd Hr => sim_update H s p m d Hd Hr) f s msg d Ho HR) as (s' & -> & R').
        exists s'. split; [reflexivity|exact R'].
      + unfold reset. destruct b; cbn [bind].
        * destruct (sim_clear H (Ho eq_refl) s p msg HR) as (s1 & s2 & -> & E & R').
          cbn [bind]. rewrite E. exists s2. split; [reflexivity|exact R'].
        * destruct (sim_init H s p msg HR) as (s' & -> & R').
          exists s'. split; [reflexivity|exact R'].
      + pose proof (sim_set H q v s p msg Ho HR) as Hs. unfold set_param.
        destruct (sp_set S q v p) as [p'|].
        * destruct Hs as (s1 & s2 & -> & E & R'). cbn [bind]. rewrite E.
          exists s2. split; [reflexivity|exact R'].
        * destruct Hs as (s1 & -> & R'). exists s1. split; [reflexivity|exact R'].
    - cbn [hash_step astep]. rewrite (digest_buf_ok s p msg buf HR). cbn [bind].
      exists s. split; [reflexivity|exact HR].
    - cbn [hash_step astep]. rewrite (digest_iter_ok s p msg HR). cbn [bind].
      exists s. split; [reflexivity|exact HR].
    - cbn [hash_step astep]. rewrite (digest_iter_ok s p msg HR). cbn [bind].
      rewrite hex_string_spec by (eapply sim_bytes; eauto).
      exists s. split; [reflexivity|exact HR].
  Qed.

  Theorem hash_run_ok ops : forall s p msg, Forall (hash_op_ok clr) ops -> R s p msg ->
    exists s', hash_run P s ops = Ok (s', snd (arun S (p, msg) ops)) /\
      R s' (fst (fst (arun S (p, msg) ops))) (snd (fst (arun S (p, msg) ops))).
  Proof.
    induction ops as [|o r IH]; intros s p msg Hops HR; cbn [hash_run arun].
    - exists s. auto.
    - inversion Hops as [|? ? Ho Hr]; subst.
      destruct (hash_step_ok s p msg o Ho HR) as (s1 & -> & R1). cbn [bind].
      destruct (astep S (p, msg) o) as [[p1 msg1] x]. cbn [fst snd] in R1 |- *.
      destruct (IH s1 p1 msg1 Hr R1) as (s2 & -> & R2). cbn [bind].
      destruct (arun S (p1, msg1) r) as [[p2 msg2] xs].
      exists s2. auto.
  Qed.

  Theorem sim_implements s0 : R s0 (sp_default S) [] -> implements P S clr (Ok s0).
  Proof.
    intros HR ops Hops. destruct (hash_run_ok ops s0 (sp_default S) [] Hops HR) as (s1 & E & _).
    exists s0, s1. auto.
  Qed.
End HashRefine.

(** ** XOFs *)

(** Histories covered by the documentation: squeeze lengths are positive, and no
    absorb follows a squeeze before the next reset / set_*. *)
Definition xof_op_ok {param} (S : xof_spec param) (clr : bool) (a : xstate S) (o : xof_op param) : Prop :=
  match o with
  | XBase b => base_ok clr b /\
               match b with Absorb _ _ => squeezed_something S a = false | _ => True end
  | XSqueezeBuf n | XSqueezeIter n | XHexSqueeze n => (0 < n)%nat
  end.

Fixpoint xof_ops_ok {param} (S : xof_spec param) (clr : bool) (a : xstate S)
  (ops : list (xof_op param)) : Prop :=
  match ops with
  | [] => True
  | o :: r => xof_op_ok S clr a o /\ xof_ops_ok S clr (fst (xstep S a o)) r
  end.

Definition ximplements (P : xof_provider) (S : xof_spec (p_param P)) (clr : bool)
  (fresh : res (pst P)) : Prop :=
  forall ops, xof_ops_ok S clr (xfresh S) ops ->
  exists s0 s1, fresh = Ok s0 /\
    xof_run P s0 ops = Ok (s1, snd (xrun S (xfresh S) ops)).

Section XofRefine.
  Variable P : xof_provider.
  Variable S : xof_spec (p_param P).
  Variable R : pst P -> xs_params S -> list N -> nat -> Prop.
  Variable clr : bool.

  Record xsim : Prop := {
    xsim_init : forall s p msg k, R s p msg k -> exists s', p_init P s = Ok s' /\ R s' p [] 0%nat;
    xsim_update : forall s p msg d, bytes_ok d -> R s p msg 0%nat ->
      exists s', p_update P s d = Ok s' /\ R s' p (msg ++ d) 0%nat;
    xsim_clear : clr = true -> forall s p msg k, R s p msg k ->
      exists s1 s2, p_clear P s = Ok s1 /\ p_init P s1 = Ok s2 /\ R s2 (xs_default S) [] 0%nat;
    xsim_set : forall q v s p msg k, bytes_ok v -> R s p msg k ->
      match xs_set S q v p with
      | Some p' => exists s1 s2, p_set P q v s = Done s1 /\ p_init P s1 = Ok s2 /\ R s2 p' [] 0%nat
      | None => exists s1, p_set P q v s = Raised s1 /\ R s1 p msg k
      end;
    xsim_squeeze : forall s p msg k n, (0 < n)%nat -> R s p msg k ->
      exists s', xp_squeeze P s n = Ok (s', skipn k (xs_out S p msg (k + n))) /\
                 R s' p msg (k + n)%nat;
    xsim_len : forall s p msg k n, R s p msg k -> length (xs_out S p msg n) = n;
    xsim_bytes : forall s p msg k n, R s p msg k -> bytes_ok (xs_out S p msg n)
  }.

  Hypothesis H : xsim.

  Lemma squeeze_buf_ok s p msg k n : (0 < n)%nat -> R s p msg k ->
    exists s', squeeze_buf P s n = Ok (s', skipn k (xs_out S p msg (k + n))) /\
               R s' p msg (k + n)%nat.
  Proof.
    intros Hn HR. unfold squeeze_buf.
    destruct (xsim_squeeze H s p msg k n Hn HR) as (s' & -> & R'). cbn [bind].
    assert (L : length (skipn k (xs_out S p msg (k + n))) = n).
    { rewrite skipn_length, (xsim_len H s p msg k) by auto. lia. }
    set (w := skipn k (xs_out S p msg (k + n))) in *.
    rewrite memcpy_full by (rewrite zeros_length; lia). cbn [bind].
    rewrite (skipn_all2 (n := length w)) by (rewrite zeros_length; lia). rewrite app_nil_r.
    exists s'. auto.
  Qed.

  Lemma xof_step_ok s p msg k o : xof_op_ok S clr (p, msg, k) o -> R s p msg k ->
    exists s', xof_step P s o = Ok (s', snd (xstep S (p, msg, k) o)) /\
      (let '(p', msg', k') := fst (xstep S (p, msg, k) o) in R s' p' msg' k').
  Proof.
    intros Ho HR.
    destruct o as [b|n|n|n]; cbn [xof_op_ok] in Ho.
    - destruct Ho as [Ho Hsq].
      destruct b as [f d|b|q v]; cbn [xof_step base_step xstep].
      + cbn [squeezed_something] in Hsq. apply negb_false_iff, Nat.eqb_eq in Hsq. subst k.
        destruct (absorb_ok P (fun s m => R s p m 0%nat)
          (fun s m d Hd Hr => xsim_update H s p m d Hd Hr) f s msg d Ho HR) as (s' & -> & R').
        exists s'. split; [reflexivity|exact R'].
      + unfold reset. destruct b; cbn [bind].
        * destruct (xsim_clear H (Ho eq_refl) s p msg k HR) as (s1 & s2 & -> & E & R').
          cbn [bind]. rewrite E. exists s2. split; [reflexivity|exact R'].
        * destruct (xsim_init H s p msg k HR) as (s' & -> & R').
          exists s'. split; [reflexivity|exact R'].
      + pose proof (xsim_set H q v s p msg k Ho HR) as Hs. unfold set_param.
        destruct (xs_set S q v p) as [p'|].
        * destruct Hs as (s1 & s2 & -> & E & R'). cbn [bind]. rewrite E.
          exists s2. split; [reflexivity|exact R'].
        * destruct Hs as (s1 & -> & R'). exists s1. split; [reflexivity|exact R'].
    - cbn [xof_step xstep xsq].
      destruct (squeeze_buf_ok s p msg k n Ho HR) as (s' & -> & R'). exists s'. auto.
    - cbn [xof_step xstep xsq]. unfold squeeze_iter. destruct n; [lia|].
      destruct (squeeze_buf_ok s p msg k _ Ho HR) as (s' & -> & R'). exists s'. auto.
    - cbn [xof_step xstep xsq]. unfold squeeze_iter. destruct n; [lia|].
      destruct (squeeze_buf_ok s p msg k _ Ho HR) as (s' & -> & R'). cbn [bind].
      rewrite hex_string_spec.
      + exists s'. auto.
      + apply Forall_skipn. eapply (xsim_bytes H); exact HR.
  Qed.

  Theorem xof_run_ok ops : forall s p msg k, xof_ops_ok S clr (p, msg, k) ops -> R s p msg k ->
    exists s', xof_run P s ops = Ok (s', snd (xrun S (p, msg, k) ops)) /\
      (let '(p', msg', k') := fst (xrun S (p, msg, k) ops) in R s' p' msg' k').
  Proof.
    induction ops as [|o r IH]; intros s p msg k Hops HR; cbn [xof_run xrun].
    - exists s. auto.
    - destruct Hops as [Ho Hr].
      destruct (xof_step_ok s p msg k o Ho HR) as (s1 & -> & R1). cbn [bind].
      destruct (xstep S (p, msg, k) o) as [[[p1 msg1] k1] x]. cbn [fst snd] in *.
      destruct (IH s1 p1 msg1 k1 Hr R1) as (s2 & -> & R2). cbn [bind].
      destruct (xrun S (p1, msg1, k1) r) as [[[p2 msg2] k2] xs].
      exists s2. auto.
  Qed.

  Theorem xsim_implements s0 : R s0 (xs_default S) [] 0%nat -> ximplements P S clr (Ok s0).
  Proof.
    intros HR ops Hops.
    destruct (xof_run_ok ops s0 (xs_default S) [] 0%nat Hops HR) as (s1 & E & _).
    exists s0, s1. auto.
  Qed.
End XofRefine.
