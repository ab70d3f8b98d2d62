(** * Two objects that differ only in irrelevant memory behave the same, in every history. *)
From Verif Require Import Base Lemmas Hasher HasherSpec HasherProof Library LibraryProof XLibraryProof AnyCalls.

(** ** Machines *)
Section Any.
  Context {St Op X : Type}.
  Variable step : St -> Op -> res (St * out).
  Variable par : St -> X.                 (* the parameters in force *)
  Variable W : St -> Prop.                (* arrays have their lengths *)
  Variable E : St -> St -> Prop.          (* indistinguishable *)
  Variable opar : Op -> X -> X.           (* effect of a call on the parameters *)
  Variable okop : Op -> Prop.
  Variable restart : Op -> X -> bool.     (* the call ends with init() *)
  Variable paramop : Op -> bool.

  Record laws : Prop := {
    l_E : forall s s', E s s' -> W s /\ W s' /\ par s = par s';
    l_step : forall s s' o, E s s' -> okop o ->
      exists t t' x, step s o = Ok (t, x) /\ step s' o = Ok (t', x) /\ E t t' /\ par t = opar o (par s);
    l_restart : forall s s' o o', W s -> W s' -> okop o -> okop o' ->
      restart o (par s) = true -> restart o' (par s') = true -> opar o (par s) = opar o' (par s') ->
      exists t t' x x', step s o = Ok (t, x) /\ step s' o' = Ok (t', x') /\ E t t' /\ par t = opar o (par s);
    l_reject : forall s o, W s -> okop o -> paramop o = true -> restart o (par s) = false ->
      opar o (par s) = par s /\ exists x, step s o = Ok (s, x);
    l_keep : forall o x, paramop o = false -> opar o x = x
  }.
  Hypothesis L : laws.

  Fixpoint runs (s : St) (ops : list Op) : res (St * list out) :=
    match ops with
    | [] => Ok (s, [])
    | o :: r => ' (s, x) <- step s o ;; ' (s, l) <- runs s r ;; Ok (s, x :: l)
    end.
  Lemma runs_app a : forall s b,
    runs s (a ++ b) = (' (s, l1) <- runs s a ;; ' (s, l2) <- runs s b ;; Ok (s, l1 ++ l2)).
  Proof.
    induction a as [|o r IH]; intros s b; cbn [app runs bind].
    - destruct (runs s b) as [[? ?]| |]; reflexivity.
    - destruct (step s o) as [[s1 x]| |]; cbn [bind]; [|reflexivity|reflexivity].
      rewrite IH. destruct (runs s1 r) as [[s2 l]| |]; cbn [bind]; [|reflexivity|reflexivity].
      destruct (runs s2 b) as [[? ?]| |]; reflexivity.
  Qed.

  Definition pars (ops : list Op) (x : X) : X := fold_left (fun x o => opar o x) ops x.

  Lemma runs_E ops : forall s s', Forall okop ops -> E s s' ->
    exists t t' l, runs s ops = Ok (t, l) /\ runs s' ops = Ok (t', l) /\ length l = length ops /\ E t t' /\
      par t = pars ops (par s).
  Proof.
    induction ops as [|o r IH]; intros s s' Hok HE; cbn [runs].
    - exists s, s', []. auto.
    - inversion Hok as [|? ? Ho Hr]; subst.
      destruct (l_step L s s' o HE Ho) as (t & t' & x & -> & -> & HE1 & HP). cbn [bind].
      destruct (IH t t' Hr HE1) as (u & u' & l & -> & -> & Hl & HE2 & HP2). cbn [bind].
      exists u, u', (x :: l). cbn [length]. rewrite Hl. repeat split; auto.
      rewrite HP2, HP. reflexivity.
  Qed.

  (** [u] is as if just initialised. *)
  Definition Fr (u : St) : Prop := E u u /\ forall s o, W s -> okop o -> restart o (par s) = true -> opar o (par s) = par u ->
    exists t x, step s o = Ok (t, x) /\ E t u.

  Lemma fresh_params ops : forall u, Forall okop ops -> Fr u ->
    exists t l, runs u (filter paramop ops) = Ok (t, l) /\ Fr t /\ par t = pars ops (par u).
  Proof.
    induction ops as [|o r IH]; intros u Hok Fu; cbn [filter].
    - exists u, []. auto.
    - inversion Hok as [|? ? Ho Hr]; subst. cbn [pars fold_left]. destruct (paramop o) eqn:Hp.
      + cbn [runs]. destruct Fu as [Eu Fu]. pose proof (proj1 (l_E L u u Eu)) as Wu.
        destruct (restart o (par u)) eqn:Hre.
        * destruct (l_restart L u u o o Wu Wu Ho Ho Hre Hre eq_refl) as (t & t' & x & x' & E1 & E2 & HE & HP).
          rewrite E1 in E2. injection E2 as <- <-.
          assert (Ft : Fr t).
          { split; [exact HE|]. intros s' o' Ws' Ho' Hre' Hpar.
            destruct (l_restart L s' u o' o Ws' Wu Ho' Ho Hre' Hre) as (a & b & y & y' & A & B & HAB & _).
            { rewrite Hpar. exact HP. }
            rewrite E1 in B. injection B as <- <-. eauto. }
          rewrite E1. cbn [bind]. destruct (IH t Hr Ft) as (v & l & -> & Fv & Pv). cbn [bind].
          exists v, (x :: l). rewrite Pv, HP. auto.
        * destruct (l_reject L u o Wu Ho Hp Hre) as (HP & x & ->). cbn [bind].
          destruct (IH u Hr (conj Eu Fu)) as (v & l & -> & Fv & Pv). cbn [bind]. exists v, (x :: l).
          rewrite Pv, HP. auto.
      + rewrite (l_keep L o (par u) Hp). apply IH; auto.
  Qed.

  Definition aft (u : res St) (pre post : list Op) : res (list out) :=
    s <- u ;; ' (s, _) <- runs s pre ;; ' (_, l) <- runs s post ;; Ok l.

  Variable X0 : X.
  (** Two newly constructed objects. *)
  Variables u u' : St.
  Hypothesis Fu : Fr u.
  Hypothesis P0 : par u = X0.
  Hypothesis Euu' : E u u'.

  Lemma any_same pre post : Forall okop pre -> Forall okop post ->
    exists r, aft (Ok u) pre post = Ok r /\ aft (Ok u') pre post = Ok r /\ length r = length post.
  Proof.
    intros H1 H2. unfold aft. cbn [bind].
    destruct (runs_E pre u u' H1 Euu') as (t & t' & l & -> & -> & _ & HE & _). cbn [bind].
    destruct (runs_E post t t' H2 HE) as (v & v' & l2 & -> & -> & Hl & _ & _). cbn [bind]. eauto.
  Qed.
  Lemma any_restart pre o post : Forall okop pre -> okop o -> Forall okop post ->
    restart o (pars pre X0) = true -> forall pre2, Forall okop pre2 ->
    opar o (pars pre X0) = pars pre2 X0 ->
    exists r, aft (Ok u) (pre ++ [o]) post = Ok r /\ aft (Ok u) (filter paramop pre2) post = Ok r.
  Proof.
    intros H1 Ho H2 Hre pre2 H3 Hp. unfold aft. cbn [bind].
    destruct Fu as [Eu _]. rewrite runs_app.
    destruct (runs_E pre u u H1 Eu) as (t & t' & l & E1 & E2 & _ & HE & HP).
    rewrite E1. cbn [bind runs]. rewrite P0 in HP.
    destruct (fresh_params pre2 u H3 Fu) as (f & lf & -> & Ff & Pf). cbn [bind]. rewrite P0 in Pf.
    destruct Ff as [_ Ff].
    destruct (Ff t o (proj1 (l_E L t t' HE)) Ho) as (v & x & -> & HE2).
    { rewrite HP. exact Hre. } { rewrite HP, Pf. exact Hp. }
    cbn [bind]. destruct (runs_E post v f H2 HE2) as (w & w' & l2 & -> & -> & _ & _ & _). cbn [bind]. eauto.
  Qed.
  Lemma any_reject pre o post : Forall okop pre -> okop o -> Forall okop post ->
    paramop o = true -> restart o (pars pre X0) = false ->
    exists r, aft (Ok u) (pre ++ [o]) post = Ok r /\ aft (Ok u) pre post = Ok r.
  Proof.
    intros H1 Ho H2 Hp Hre. unfold aft. cbn [bind]. destruct Fu as [Eu _]. rewrite runs_app.
    destruct (runs_E pre u u H1 Eu) as (t & t' & l & E1 & E2 & _ & HE & HP).
    rewrite E1. rewrite E1 in E2. injection E2 as <-. cbn [bind runs].
    destruct (l_reject L t o (proj1 (l_E L t t HE)) Ho Hp) as (_ & x & ->).
    { rewrite HP, P0. exact Hre. }
    cbn [bind]. destruct (runs_E post t t H2 HE) as (w & w' & l2 & -> & _ & _ & _ & _). cbn [bind]. eauto.
  Qed.
  (** Two different histories ending in restarts with the same parameters. *)
  Lemma any_restart2 pre1 o1 pre2 o2 post : Forall okop pre1 -> okop o1 -> Forall okop pre2 -> okop o2 -> Forall okop post ->
    restart o1 (pars pre1 X0) = true -> restart o2 (pars pre2 X0) = true ->
    opar o1 (pars pre1 X0) = opar o2 (pars pre2 X0) ->
    exists r, aft (Ok u) (pre1 ++ [o1]) post = Ok r /\ aft (Ok u) (pre2 ++ [o2]) post = Ok r.
  Proof.
    intros H1 Ho1 H2 Ho2 H3 R1 R2 Hp. unfold aft. cbn [bind]. destruct Fu as [Eu _]. rewrite !runs_app.
    destruct (runs_E pre1 u u H1 Eu) as (t & t' & l & -> & _ & _ & HE & HP). cbn [bind runs].
    destruct (runs_E pre2 u u H2 Eu) as (v & v' & l' & -> & _ & _ & HE' & HP'). cbn [bind runs].
    rewrite P0 in HP, HP'.
    destruct (l_restart L t v o1 o2 (proj1 (l_E L t t' HE)) (proj1 (l_E L v v' HE')) Ho1 Ho2) as (a & b & x & x' & -> & -> & HAB & _);
      rewrite ?HP, ?HP'; auto.
    cbn [bind]. destruct (runs_E post a b H3 HAB) as (w & w' & l2 & -> & -> & _ & _ & _). cbn [bind]. eauto.
  Qed.
End Any.

(** ** Providers *)
Section Prov.
  Variable P : provider.
  Context {X : Type}.
  Variable par : pst P -> X.
  Variable W : pst P -> Prop.
  Variable E : pst P -> pst P -> Prop.
  Variable setp : p_param P -> list N -> X -> option X.
  Variable clrp : X -> X.

  Record blaws : Prop := {
    b_E : forall s s', E s s' -> W s /\ W s' /\ par s = par s';
    b_init : forall s s', W s -> W s' -> par s = par s' ->
      exists t t', p_init P s = Ok t /\ p_init P s' = Ok t' /\ E t t' /\ par t = par s;
    b_clear : forall s, W s -> exists t, p_clear P s = Ok t /\ W t /\ par t = clrp (par s);
    b_set : forall q v s, is_bytes v -> W s ->
      match setp q v (par s) with
      | Some x => exists t, p_set P q v s = Done t /\ W t /\ par t = x
      | None => p_set P q v s = Raised s
      end;
    b_update : forall s s' d, is_bytes d -> E s s' ->
      exists t t', p_update P s d = Ok t /\ p_update P s' d = Ok t' /\ E t t' /\ par t = par s
  }.
  Hypothesis L : blaws.

  Definition bpar (o : base_op (p_param P)) (x : X) : X :=
    match o with
    | Absorb _ _ => x
    | Reset b => if b then clrp x else x
    | SetParam q v => match setp q v x with Some y => y | None => x end
    end.
  Definition brestart (o : base_op (p_param P)) (x : X) : bool :=
    match o with Absorb _ _ => false | Reset _ => true | SetParam q v => match setp q v x with Some _ => true | None => false end end.

  Lemma e_par s s' : E s s' -> par s' = par s.
  Proof. intros H. symmetry. apply (b_E L s s' H). Qed.

  Lemma absorb_stream_E fuel : forall s s' d, is_bytes d -> E s s' ->
    exists t t', absorb_stream P fuel s d = Ok t /\ absorb_stream P fuel s' d = Ok t' /\ E t t' /\ par t = par s.
  Proof.
    induction fuel as [|f IH]; intros s s' d Hd HE; cbn [absorb_stream].
    - destruct (tmp_buffer_size <=? N.of_nat (length d)); [eauto 6|].
      destruct (length d =? 0)%nat; [eauto 6|]. apply (b_update L); auto.
    - destruct (tmp_buffer_size <=? N.of_nat (length d)).
      + destruct (b_update L s s' (firstn (N.to_nat tmp_buffer_size) d)) as (t & t' & -> & -> & H1 & H2); auto.
        { unfold is_bytes in *. rewrite <- (firstn_skipn (N.to_nat tmp_buffer_size) d) in Hd.
          apply Forall_app in Hd. apply Hd. }
        cbn [bind]. destruct (IH t t' (skipn (N.to_nat tmp_buffer_size) d)) as (u & u' & A & B & C & D); auto.
        { unfold is_bytes in *. rewrite <- (firstn_skipn (N.to_nat tmp_buffer_size) d) in Hd.
          apply Forall_app in Hd. apply Hd. }
        exists u, u'. rewrite D. auto.
      + destruct (length d =? 0)%nat; [eauto 6|]. apply (b_update L); auto.
  Qed.
  Lemma absorb_iter_E d : forall s s', is_bytes d -> E s s' ->
    exists t t', absorb_iter P s d = Ok t /\ absorb_iter P s' d = Ok t' /\ E t t' /\ par t = par s.
  Proof.
    induction d as [|b r IH]; intros s s' Hd HE; cbn [absorb_iter]; [eauto 6|].
    inversion Hd as [|? ? Hb Hr]; subst.
    destruct (b_update L s s' [b]) as (t & t' & -> & -> & H1 & H2); [repeat constructor; auto|auto|]. cbn [bind].
    destruct (IH t t' Hr H1) as (u & u' & A & B & C & D). exists u, u'. rewrite D. auto.
  Qed.
  Lemma absorb_E f d s s' : is_bytes d -> E s s' ->
    exists t t', absorb P f s d = Ok t /\ absorb P f s' d = Ok t' /\ E t t' /\ par t = par s.
  Proof.
    intros Hd HE. destruct f; cbn [absorb].
    - apply (b_update L); auto.
    - unfold absorb_str. destruct d; [eauto 6|apply (b_update L); auto].
    - apply absorb_stream_E; auto.
    - eauto 6.
    - apply absorb_iter_E; auto.
  Qed.

  Lemma restart_E s s' o o' : W s -> W s' -> any_base o -> any_base o' ->
    brestart o (par s) = true -> brestart o' (par s') = true -> bpar o (par s) = bpar o' (par s') ->
    exists t t', base_step P s o = Ok (t, ODone) /\ base_step P s' o' = Ok (t', ODone) /\ E t t' /\ par t = bpar o (par s).
  Proof.
    assert (Hone : forall s o, W s -> any_base o -> brestart o (par s) = true ->
      exists u, W u /\ par u = bpar o (par s) /\ base_step P s o = (t <- p_init P u ;; Ok (t, ODone))).
    { clear s s' o o'. intros s o Ws Ho Hr. destruct o as [f d|b|q v]; cbn [brestart bpar base_step] in *; [discriminate| |].
      - unfold reset. destruct b.
        + destruct (b_clear L s Ws) as (t & -> & Wt & Pt). exists t. cbn [bind]. auto.
        + exists s. auto.
      - pose proof (b_set L q v s Ho Ws) as HS. destruct (setp q v (par s)) as [x|]; [|discriminate].
        destruct HS as (t & Et & Wt & Pt). exists t. repeat split; auto. unfold set_param. rewrite Et.
        destruct (p_init P t); reflexivity. }
    intros Ws Ws' Ho Ho' R R' HP.
    destruct (Hone s o Ws Ho R) as (u & Wu & Pu & ->). destruct (Hone s' o' Ws' Ho' R') as (u' & Wu' & Pu' & ->).
    destruct (b_init L u u' Wu Wu') as (t & t' & -> & -> & HE & Pt); [congruence|]. cbn [bind].
    exists t, t'. repeat split; auto. congruence.
  Qed.
  Lemma reject_E s o : W s -> any_base o -> param_base o = true -> brestart o (par s) = false ->
    bpar o (par s) = par s /\ base_step P s o = Ok (s, OThrow).
  Proof.
    intros Ws Ho Hp Hr. destruct o as [f d|b|q v]; cbn [param_base brestart bpar base_step] in *; try discriminate.
    pose proof (b_set L q v s Ho Ws) as HS. destruct (setp q v (par s)); [discriminate|]. split; [reflexivity|].
    unfold set_param. rewrite HS. reflexivity.
  Qed.
  Lemma base_E s s' o : E s s' -> any_base o ->
    exists t t' x, base_step P s o = Ok (t, x) /\ base_step P s' o = Ok (t', x) /\ E t t' /\ par t = bpar o (par s).
  Proof.
    intros HE Ho. destruct (b_E L s s' HE) as (Ws & Ws' & HP).
    destruct (brestart o (par s)) eqn:R.
    - destruct (restart_E s s' o o Ws Ws' Ho Ho R) as (t & t' & A & B & C & D); [congruence|congruence|].
      exists t, t', ODone. auto.
    - destruct (param_base o) eqn:Pb.
      + destruct (reject_E s o Ws Ho Pb R) as [A B].
        destruct (reject_E s' o Ws' Ho Pb) as [A' B']; [congruence|]. exists s, s', OThrow. auto.
      + destruct o as [f d|b|q v]; [|discriminate R|discriminate Pb]. cbn [base_step bpar].
        destruct (absorb_E f d s s' Ho HE) as (t & t' & -> & -> & A & B). cbn [bind]. exists t, t', ODone. auto.
  Qed.
End Prov.

(** ** Extendable-output types *)
Record xrob {P : xof_provider} (T : xtype P) (X : Type) : Type := {
  xr_par : pst P -> X; xr_W : pst P -> Prop; xr_E : pst P -> pst P -> Prop;
  xr_set : p_param P -> list N -> X -> option X; xr_clr : X -> X; xr_0 : X;
  xr_b : blaws P xr_par xr_W xr_E xr_set xr_clr;
  xr_sq : forall s s' n, xr_E s s' -> exists t t' w, xp_squeeze P s n = Ok (t, w) /\ xp_squeeze P s' n = Ok (t', w) /\
    length w = n /\ xr_E t t' /\ xr_par t = xr_par s;
  xr_new : forall g, xt_mem_ok T g -> exists c, xt_new T g = p_init P c /\ xr_W c /\ xr_par c = xr_0;
  xr_acc : forall q v x, (if xr_set q v x then true else false) = xt_accepts T q v;
  xr_comm : forall q1 q2 v1 v2 x x1 x2, q1 <> q2 -> xr_set q1 v1 x = Some x1 -> xr_set q2 v2 x = Some x2 ->
    xr_set q2 v2 x1 = xr_set q1 v1 x2;
  xr_over : forall q v1 v2 x x1, v2 <> [] -> xr_set q v1 x = Some x1 -> xr_set q v2 x1 = xr_set q v2 x;
  xr_full : xt_clr T = true -> forall x, xr_clr x = xr_0
}.

Section XRob.
  Context {P : xof_provider} {T : xtype P} {X : Type}.
  Variable R : xrob T X.
  Let par := xr_par T X R. Let W := xr_W T X R. Let E := xr_E T X R.
  Let setp := xr_set T X R. Let clrp := xr_clr T X R. Let L := xr_b T X R.

  Definition xopar (o : xof_op (p_param P)) (x : X) : X := match o with XBase b => bpar P setp clrp b x | _ => x end.
  Definition xrestart (o : xof_op (p_param P)) (x : X) : bool := match o with XBase b => brestart P setp b x | _ => false end.

  Lemma xsq_E s s' n : E s s' -> exists t t' w, squeeze_buf P s n = Ok (t, w) /\ squeeze_buf P s' n = Ok (t', w) /\
    E t t' /\ par t = par s.
  Proof.
    intros HE. destruct (xr_sq T X R s s' n HE) as (t & t' & w & A & B & C & D & F). unfold squeeze_buf.
    rewrite A, B. cbn [bind]. rewrite memcpy_ok by (rewrite ?zeros_length; lia).
    cbn [bind]. do 3 eexists. repeat split; eauto.
  Qed.
  Lemma xlaws : laws (xof_step P) par W E xopar any_xop xrestart xparam_call.
  Proof.
    constructor.
    - apply (b_E _ _ _ _ _ _ L).
    - intros s s' o HE Ho. destruct o as [b|n|n|n]; cbn [any_xop xof_step xopar] in *.
      + apply (base_E P par W E setp clrp L); auto.
      + destruct (xsq_E s s' n HE) as (t & t' & w & -> & -> & A & B). cbn [bind]. eauto 8.
      + destruct n as [|n]; [lia|]. cbn [squeeze_iter].
        destruct (xsq_E s s' (S n) HE) as (t & t' & w & -> & -> & A & B). cbn [bind]. eauto 8.
      + destruct n as [|n]; [lia|]. cbn [squeeze_iter].
        destruct (xsq_E s s' (S n) HE) as (t & t' & w & -> & -> & A & B). cbn [bind]. eauto 8.
    - intros s s' [b|n|n|n] [b'|n'|n'|n'] Ws Ws' Ho Ho' Hr Hr' Hp; cbn [xrestart] in *; try discriminate.
      destruct (restart_E P par W E setp clrp L s s' b b' Ws Ws' Ho Ho' Hr Hr' Hp) as (t & t' & A & B & C & D).
      exists t, t', ODone, ODone. auto.
    - intros s [b|n|n|n] Ws Ho Hp Hr; cbn [xparam_call] in *; try discriminate.
      destruct (reject_E P par W E setp clrp L s b Ws Ho Hp Hr) as [A B]. eauto.
    - intros [[f d|[]|q v]|n|n|n] x Hp; try discriminate Hp; reflexivity.
  Qed.
  Lemma xruns s ops : xof_run P s ops = runs (xof_step P) s ops.
  Proof. revert s. induction ops as [|o r IH]; intros s; [reflexivity|]. cbn [xof_run runs]. destruct (xof_step P s o) as [[t x]| |]; cbn [bind]; [|reflexivity|reflexivity]. rewrite IH. reflexivity. Qed.

  Lemma xnew_E g g' : xt_mem_ok T g -> xt_mem_ok T g' -> exists u u', xt_new T g = Ok u /\ xt_new T g' = Ok u' /\ E u u' /\
    par u = xr_0 T X R /\ Fr (xof_step P) par W E xopar any_xop xrestart u.
  Proof.
    intros Hg Hg'. destruct (xr_new T X R g Hg) as (c & -> & Wc & Pc). destruct (xr_new T X R g' Hg') as (c' & -> & Wc' & Pc').
    destruct (b_init _ _ _ _ _ _ L c c' Wc Wc') as (u & u' & A & B & C & D); [congruence|].
    destruct (b_init _ _ _ _ _ _ L c c Wc Wc eq_refl) as (u0 & u1 & A0 & B0 & C0 & D0).
    rewrite A in A0, B0. injection A0 as <-. injection B0 as <-. exists u, u'.
    split; [exact A|]. split; [exact B|]. split; [exact C|]. split; [unfold par; congruence|]. split; [exact C0|].
    intros s [b|n|n|n] Ws Ho Hr Hp; cbn [xrestart] in Hr; try discriminate Hr.
    assert (H1 : exists t x, base_step P s b = Ok (t, x) /\ E t u).
    { assert (Hone : exists v, W v /\ par v = bpar P setp clrp b (par s) /\ base_step P s b = (t <- p_init P v ;; Ok (t, ODone))).
      { destruct b as [f d|b|q v]; cbn [brestart bpar base_step any_xop any_base] in *; [discriminate| |].
        - unfold reset. destruct b.
          + destruct (b_clear _ _ _ _ _ _ L s Ws) as (t & -> & Wt & Pt). exists t. cbn [bind]. auto.
          + exists s. auto.
        - pose proof (b_set _ _ _ _ _ _ L q v s Ho Ws) as HS. unfold par, setp in *. destruct (xr_set T X R q v (xr_par T X R s)) as [x|]; [|discriminate].
          destruct HS as (t & Et & Wt & Pt). exists t. repeat split; auto. unfold set_param. rewrite Et.
          destruct (p_init P t); reflexivity. }
      destruct Hone as (v & Wv & Pv & ->).
      destruct (b_init _ _ _ _ _ _ L v c Wv Wc) as (t & t' & F & G & I & J).
      { cbn [xopar] in Hp. unfold par in *. congruence. }
      rewrite A in G. injection G as <-. rewrite F. cbn [bind]. eauto. }
    exact H1.
  Qed.

  Local Notation laft := (aft (xof_step P)).
  Lemma xafter_aft g u pre post : xt_new T g = Ok u -> xafter T g pre post = laft (Ok u) pre post.
  Proof.
    intros Eu. unfold xafter, aft. rewrite Eu. cbn [bind]. rewrite xruns. destruct (runs (xof_step P) u pre) as [[s l]| |]; cbn [bind]; [|reflexivity|reflexivity].
    rewrite xruns. reflexivity.
  Qed.

  (** C08 *)
  Theorem xany_defined g pre post : xt_mem_ok T g -> xany pre -> xany post ->
    exists r, xafter T g pre post = Ok r /\ length r = length post.
  Proof.
    intros Hg H1 H2. destruct (xnew_E g g Hg Hg) as (u & u' & Eu & Eu' & HE & HP & HF).
    rewrite (xafter_aft g u) by auto. rewrite Eu in Eu'. injection Eu' as <-.
    destruct (any_same _ _ _ _ _ _ _ _ xlaws u u HE pre post H1 H2) as (r & A & _ & B). eauto.
  Qed.
  (** C09 *)
  Theorem xany_memory g g' pre post : xt_mem_ok T g -> xt_mem_ok T g' -> xany pre -> xany post ->
    xafter T g pre post = xafter T g' pre post.
  Proof.
    intros Hg Hg' H1 H2. destruct (xnew_E g g' Hg Hg') as (u & u' & Eu & Eu' & HE & HP & HF).
    rewrite (xafter_aft g u), (xafter_aft g' u') by auto.
    destruct (any_same _ _ _ _ _ _ _ _ xlaws u u' HE pre post H1 H2) as (r & A & B & _). congruence.
  Qed.

  Let P0 := xr_0 T X R.
  Let ps := pars xopar.
  Lemma ps_app a b x : ps (a ++ b) x = ps b (ps a x).
  Proof. unfold ps, pars. apply fold_left_app. Qed.
  Lemma acc_restart q v x : xrestart (XBase (SetParam q v)) x = xt_accepts T q v.
  Proof. cbn [xrestart brestart]. rewrite <- (xr_acc T X R q v x). reflexivity. Qed.
  Lemma xr_some q v x : xt_accepts T q v = true -> exists y, setp q v x = Some y.
  Proof. intros H. rewrite <- (xr_acc T X R q v x) in H. unfold setp. destruct (xr_set T X R q v x); [eauto|discriminate]. Qed.

  Lemma xparams_any (pre : list (xof_op (p_param P))) : xany pre -> xany (filter xparam_call pre).
  Proof. unfold xany. intros H. apply incl_Forall with (l1 := pre); auto. apply incl_filter. Qed.
  Lemma filter_params pre : filter xparam_call (filter (@xparam_call (p_param P)) pre) = filter xparam_call pre.
  Proof. induction pre as [|o r IH]; [reflexivity|]. cbn [filter]. destruct (xparam_call o) eqn:H; cbn [filter]; rewrite ?H, IH; reflexivity. Qed.
  Lemma ps_filter pre x : ps (filter xparam_call pre) x = ps pre x.
  Proof.
    revert x. induction pre as [|o r IH]; intros x; [reflexivity|]. cbn [filter]. destruct (xparam_call o) eqn:H.
    - cbn [ps pars fold_left]. apply IH.
    - rewrite IH. unfold ps, pars. cbn [fold_left]. rewrite (l_keep _ _ _ _ _ _ _ _ xlaws o x H). reflexivity.
  Qed.

  (** Two histories that end in a restart with the same parameters. *)
  Lemma xany_same_restart g pre1 o1 pre2 o2 post : xt_mem_ok T g -> xany pre1 -> any_xop o1 -> xany pre2 -> any_xop o2 -> xany post ->
    xrestart o1 (ps pre1 P0) = true -> xrestart o2 (ps pre2 P0) = true -> xopar o1 (ps pre1 P0) = xopar o2 (ps pre2 P0) ->
    exists r, xafter T g (pre1 ++ [o1]) post = Ok r /\ xafter T g (pre2 ++ [o2]) post = Ok r.
  Proof.
    intros Hg H1 Ho1 H2 Ho2 H3 R1 R2 Hp. destruct (xnew_E g g Hg Hg) as (u & u' & Eu & _ & _ & HP & HF).
    rewrite !(xafter_aft g u) by auto.
    exact (any_restart2 _ _ _ _ _ _ _ _ xlaws P0 u HF HP pre1 o1 pre2 o2 post H1 Ho1 H2 Ho2 H3 R1 R2 Hp).
  Qed.
  Lemma xany_restart_params g pre1 o1 pre2 post : xt_mem_ok T g -> xany pre1 -> any_xop o1 -> xany pre2 -> xany post ->
    xrestart o1 (ps pre1 P0) = true -> xopar o1 (ps pre1 P0) = ps pre2 P0 ->
    exists r, xafter T g (pre1 ++ [o1]) post = Ok r /\ xafter T g (filter xparam_call pre2) post = Ok r.
  Proof.
    intros Hg H1 Ho1 H2 H3 R1 Hp. destruct (xnew_E g g Hg Hg) as (u & u' & Eu & _ & _ & HP & HF).
    rewrite !(xafter_aft g u) by auto.
    exact (any_restart _ _ _ _ _ _ _ _ xlaws P0 u HF HP pre1 o1 post H1 Ho1 H3 R1 pre2 H2 Hp).
  Qed.

  (** C04 *)
  Theorem xany_reset g pre post : xt_mem_ok T g -> xany pre -> xany post ->
    exists r, xafter T g (pre ++ [XBase (Reset false)]) post = Ok r /\ xafter T g (filter xparam_call pre) post = Ok r.
  Proof. intros Hg H1 H2. apply xany_restart_params; auto; exact I. Qed.
  Lemma xsetters_from_any ops : forall acc, @xany (p_param P) acc -> xany ops -> xany (xsetters_from acc ops).
  Proof.
    induction ops as [|o r IH]; intros acc Ha Ho; [exact Ha|]. inversion Ho as [|? ? H1 H2]; subst.
    destruct o as [[f d|[]|q v]|n|n|n]; cbn [xsetters_from]; apply IH; auto.
    - constructor.
    - unfold xany. apply Forall_app. split; [exact Ha|]. repeat constructor. exact H1.
  Qed.
  Lemma xsetters_params ops : forall acc, filter (@xparam_call (p_param P)) acc = acc ->
    filter xparam_call (xsetters_from acc ops) = xsetters_from acc ops.
  Proof.
    induction ops as [|o r IH]; intros acc Ha; [exact Ha|].
    destruct o as [[f d|[]|q v]|n|n|n]; cbn [xsetters_from]; apply IH; auto.
    rewrite filter_app, Ha. reflexivity.
  Qed.
  Lemma ps_setters ops (Hc : xt_clr T = true) : forall acc, ps (xsetters_from acc ops) P0 = ps ops (ps acc P0).
  Proof.
    induction ops as [|o r IH]; intros acc; [reflexivity|].
    destruct o as [[f d|[]|q v]|n|n|n]; cbn [xsetters_from]; rewrite IH; try reflexivity.
    - cbn [ps pars fold_left xopar bpar]. unfold clrp. rewrite (xr_full T X R Hc). reflexivity.
    - rewrite ps_app. reflexivity.
  Qed.
  Theorem xany_reset_setters g pre post : xt_clr T = true -> xt_mem_ok T g -> xany pre -> xany post ->
    exists r, xafter T g (pre ++ [XBase (Reset false)]) post = Ok r /\ xafter T g (xsetters pre) post = Ok r.
  Proof.
    intros Hc Hg H1 H2. unfold xsetters. rewrite <- (xsetters_params pre []) by reflexivity.
    apply xany_restart_params; auto; try exact I.
    - apply xsetters_from_any; auto. constructor.
    - rewrite ps_setters by auto. reflexivity.
  Qed.
  (** C05 *)
  Theorem xany_reset_true g pre post : xt_clr T = true -> xt_mem_ok T g -> xany pre -> xany post ->
    exists r, xafter T g (pre ++ [XBase (Reset true)]) post = Ok r /\ xafter T g [] post = Ok r.
  Proof.
    intros Hc Hg H1 H2. apply (xany_restart_params g pre (XBase (Reset true)) [] post); auto; try exact I.
    - constructor.
    - cbn [xopar bpar]. unfold clrp. rewrite (xr_full T X R Hc). reflexivity.
  Qed.
  (** C38, C39 *)
  Theorem xany_set_outcome g pre q v : xt_mem_ok T g -> xany pre -> is_bytes v ->
    xafter T g pre [XBase (SetParam q v)] = Ok [if xt_accepts T q v then ODone else OThrow].
  Proof.
    intros Hg H1 Hv. destruct (xnew_E g g Hg Hg) as (u & u' & Eu & Eu' & HE & HP & HF).
    rewrite (xafter_aft g u) by auto. unfold aft. cbn [bind].
    rewrite Eu in Eu'. injection Eu' as <-.
    destruct (runs_E _ _ _ _ _ _ _ _ xlaws pre u u H1 HE) as (t & t' & l & -> & _ & _ & HE1 & HP1). cbn [bind runs xof_step].
    pose proof (proj1 (b_E _ _ _ _ _ _ L t t' HE1)) as Wt.
    assert (AR := acc_restart q v (par t)). cbn [xrestart] in AR.
    destruct (xt_accepts T q v).
    - destruct (restart_E P par W E setp clrp L t t (SetParam q v) (SetParam q v) Wt Wt Hv Hv AR AR eq_refl) as (a & b & -> & _). reflexivity.
    - destruct (reject_E P par W E setp clrp L t (SetParam q v) Wt Hv eq_refl AR) as [_ ->]. reflexivity.
  Qed.
  Theorem xany_set_rejected g pre q v post : xt_mem_ok T g -> xany pre -> is_bytes v -> xany post -> xt_accepts T q v = false ->
    exists r, xafter T g (pre ++ [XBase (SetParam q v)]) post = Ok r /\ xafter T g pre post = Ok r.
  Proof.
    intros Hg H1 Hv H2 Ha. destruct (xnew_E g g Hg Hg) as (u & u' & Eu & _ & _ & HP & HF).
    rewrite !(xafter_aft g u) by auto.
    apply (any_reject _ _ _ _ _ _ _ _ xlaws P0 u HF HP pre (XBase (SetParam q v)) post); auto.
    rewrite acc_restart. exact Ha.
  Qed.
  Theorem xany_set_accepted g pre q v post : xt_mem_ok T g -> xany pre -> is_bytes v -> xany post -> xt_accepts T q v = true ->
    exists r, xafter T g (pre ++ [XBase (SetParam q v)]) post = Ok r /\
      xafter T g (filter xparam_call pre ++ [XBase (SetParam q v)]) post = Ok r.
  Proof.
    intros Hg H1 Hv H2 Ha. apply xany_same_restart; auto using xparams_any; rewrite ?acc_restart, ?ps_filter; auto.
  Qed.
  Theorem xany_set_setters g pre q v post : xt_clr T = true -> xt_mem_ok T g -> xany pre -> is_bytes v -> xany post -> xt_accepts T q v = true ->
    exists r, xafter T g (pre ++ [XBase (SetParam q v)]) post = Ok r /\
      xafter T g (xsetters pre ++ [XBase (SetParam q v)]) post = Ok r.
  Proof.
    intros Hc Hg H1 Hv H2 Ha. unfold xsetters. apply xany_same_restart; auto; rewrite ?acc_restart; auto.
    - apply xsetters_from_any; auto. constructor.
    - rewrite ps_setters by auto. reflexivity.
  Qed.
  Theorem xany_set_commute g pre q1 v1 q2 v2 post : xt_mem_ok T g -> xany pre -> is_bytes v1 -> is_bytes v2 -> xany post -> q1 <> q2 ->
    xt_accepts T q1 v1 = true -> xt_accepts T q2 v2 = true ->
    exists r, xafter T g (pre ++ [XBase (SetParam q1 v1); XBase (SetParam q2 v2)]) post = Ok r /\
      xafter T g (pre ++ [XBase (SetParam q2 v2); XBase (SetParam q1 v1)]) post = Ok r.
  Proof.
    intros Hg H1 Hv1 Hv2 H2 Hq A1 A2.
    change [XBase (SetParam q1 v1); XBase (SetParam q2 v2)] with ([XBase (SetParam q1 v1)] ++ [XBase (SetParam q2 v2)]).
    change [XBase (SetParam q2 v2); XBase (SetParam q1 v1)] with ([XBase (SetParam q2 v2)] ++ [XBase (SetParam q1 v1)]).
    rewrite !app_assoc. apply xany_same_restart; auto; rewrite ?acc_restart; auto.
    - unfold xany. apply Forall_app. split; [auto|]. constructor; [exact Hv1 || exact Hv2|constructor].
    - unfold xany. apply Forall_app. split; [auto|]. constructor; [exact Hv1 || exact Hv2|constructor].
    - rewrite !ps_app. generalize (ps pre P0). intros x. unfold ps, pars. cbn [fold_left xopar bpar].
      destruct (xr_some q1 v1 x A1) as (x1 & E1). destruct (xr_some q2 v2 x A2) as (x2 & E2).
      rewrite E1, E2. pose proof (xr_comm T X R q1 q2 v1 v2 _ x1 x2 Hq E1 E2) as C. fold setp in C.
      destruct (xr_some q2 v2 x1 A2) as (y & Ey). rewrite <- C, Ey. reflexivity.
  Qed.
  Theorem xany_set_last g pre q v1 v2 post : xt_mem_ok T g -> xany pre -> is_bytes v1 -> is_bytes v2 -> xany post -> v2 <> [] ->
    xt_accepts T q v1 = true -> xt_accepts T q v2 = true ->
    exists r, xafter T g (pre ++ [XBase (SetParam q v1); XBase (SetParam q v2)]) post = Ok r /\
      xafter T g (pre ++ [XBase (SetParam q v2)]) post = Ok r.
  Proof.
    intros Hg H1 Hv1 Hv2 H2 Hn A1 A2.
    change [XBase (SetParam q v1); XBase (SetParam q v2)] with ([XBase (SetParam q v1)] ++ [XBase (SetParam q v2)]).
    rewrite app_assoc. apply xany_same_restart; auto; rewrite ?acc_restart; auto.
    - unfold xany. apply Forall_app. split; [auto|]. constructor; [exact Hv1 || exact Hv2|constructor].
    - rewrite !ps_app. generalize (ps pre P0). intros x. unfold ps, pars. cbn [fold_left xopar bpar].
      destruct (xr_some q v1 x A1) as (x1 & E1). rewrite E1.
      pose proof (xr_over T X R q v1 v2 _ x1 Hn E1) as C. fold setp in C. rewrite C.
      destruct (xr_some q v2 x A2) as (y & ->). reflexivity.
  Qed.
End XRob.

(** ** Fixed-output types *)
Record hrob {P : hash_provider} (T : htype P) (X : Type) : Type := {
  hr_par : pst P -> X; hr_W : pst P -> Prop; hr_E : pst P -> pst P -> Prop;
  hr_set : p_param P -> list N -> X -> option X; hr_clr : X -> X; hr_0 : X;
  hr_b : blaws P hr_par hr_W hr_E hr_set hr_clr;
  hr_fin : forall s s', hr_E s s' -> exists t t' w, hp_final P s = Ok (t, w) /\ hp_final P s' = Ok (t', w) /\
    N.of_nat (length w) = hp_size P s / 8 /\ w <> [] /\ hp_size P s' = hp_size P s;
  hr_new : forall g, ht_mem_ok T g -> exists c, ht_new T g = p_init P c /\ hr_W c /\ hr_par c = hr_0;
  hr_acc : forall q v x, (if hr_set q v x then true else false) = ht_accepts T q v;
  hr_comm : forall q1 q2 v1 v2 x x1 x2, q1 <> q2 -> hr_set q1 v1 x = Some x1 -> hr_set q2 v2 x = Some x2 ->
    hr_set q2 v2 x1 = hr_set q1 v1 x2;
  hr_over : forall q v1 v2 x x1, v2 <> [] -> hr_set q v1 x = Some x1 -> hr_set q v2 x1 = hr_set q v2 x;
  hr_full : ht_clr T = true -> forall x, hr_clr x = hr_0
}.

Section HRob.
  Context {P : hash_provider} {T : htype P} {X : Type}.
  Variable R : hrob T X.
  Let par := hr_par T X R. Let W := hr_W T X R. Let E := hr_E T X R.
  Let setp := hr_set T X R. Let clrp := hr_clr T X R. Let L := hr_b T X R.

  Definition hopar (o : hash_op (p_param P)) (x : X) : X := match o with HBase b => bpar P setp clrp b x | _ => x end.
  Definition hrestart (o : hash_op (p_param P)) (x : X) : bool := match o with HBase b => brestart P setp b x | _ => false end.

  Lemma buf_E s s' buf : E s s' -> exists x, digest_buf P s buf = Ok x /\ digest_buf P s' buf = Ok x.
  Proof.
    intros HE. destruct (hr_fin T X R s s' HE) as (t & t' & w & A & B & C & D & F). unfold digest_buf.
    rewrite F. destruct (N.ltb_spec (N.of_nat (length buf)) (hp_size P s / 8)); [eauto|].
    rewrite A, B. cbn [bind]. rewrite memcpy_ok by lia. cbn [bind]. eauto.
  Qed.
  Lemma iter_E s s' : E s s' -> exists x, digest_iter P s = Ok x /\ digest_iter P s' = Ok x.
  Proof.
    intros HE. destruct (hr_fin T X R s s' HE) as (t & t' & w & A & B & C & D & F). unfold digest_iter.
    rewrite F. destruct (zeros (N.to_nat (hp_size P s / 8))) as [|z zs] eqn:Z.
    - exfalso. apply D. apply length_zero_iff_nil. apply (f_equal (@length N)) in Z. rewrite zeros_length in Z. cbn in Z. lia.
    - rewrite A, B. cbn [bind]. rewrite memcpy_ok; [eauto| |lia]. rewrite <- Z, zeros_length. lia.
  Qed.
  Lemma hlaws : laws (hash_step P) par W E hopar any_hop hrestart hparam_call.
  Proof.
    constructor.
    - apply (b_E _ _ _ _ _ _ L).
    - intros s s' o HE Ho. destruct o as [b|n| |]; cbn [any_hop hash_step hopar] in *.
      + apply (base_E P par W E setp clrp L); auto.
      + destruct (buf_E s s' n HE) as (x & -> & ->). cbn [bind]. eauto 8.
      + destruct (iter_E s s' HE) as (x & -> & ->). cbn [bind]. eauto 8.
      + destruct (iter_E s s' HE) as (x & -> & ->). cbn [bind]. eauto 8.
    - intros s s' [b|n| |] [b'|n'| |] Ws Ws' Ho Ho' Hr Hr' Hp; cbn [hrestart] in *; try discriminate.
      destruct (restart_E P par W E setp clrp L s s' b b' Ws Ws' Ho Ho' Hr Hr' Hp) as (t & t' & A & B & C & D).
      exists t, t', ODone, ODone. auto.
    - intros s [b|n| |] Ws Ho Hp Hr; cbn [hparam_call] in *; try discriminate.
      destruct (reject_E P par W E setp clrp L s b Ws Ho Hp Hr) as [A B]. eauto.
    - intros [[f d|[]|q v]|n| |] x Hp; try discriminate Hp; reflexivity.
  Qed.
  Lemma hruns s ops : hash_run P s ops = runs (hash_step P) s ops.
  Proof. revert s. induction ops as [|o r IH]; intros s; [reflexivity|]. cbn [hash_run runs]. destruct (hash_step P s o) as [[t x]| |]; cbn [bind]; [|reflexivity|reflexivity]. rewrite IH. reflexivity. Qed.

  Lemma hnew_E g g' : ht_mem_ok T g -> ht_mem_ok T g' -> exists u u', ht_new T g = Ok u /\ ht_new T g' = Ok u' /\ E u u' /\
    par u = hr_0 T X R /\ Fr (hash_step P) par W E hopar any_hop hrestart u.
  Proof.
    intros Hg Hg'. destruct (hr_new T X R g Hg) as (c & -> & Wc & Pc). destruct (hr_new T X R g' Hg') as (c' & -> & Wc' & Pc').
    destruct (b_init _ _ _ _ _ _ L c c' Wc Wc') as (u & u' & A & B & C & D); [congruence|].
    destruct (b_init _ _ _ _ _ _ L c c Wc Wc eq_refl) as (u0 & u1 & A0 & B0 & C0 & D0).
    rewrite A in A0, B0. injection A0 as <-. injection B0 as <-. exists u, u'.
    split; [exact A|]. split; [exact B|]. split; [exact C|]. split; [unfold par; congruence|]. split; [exact C0|].
    intros s [b|n| |] Ws Ho Hr Hp; cbn [hrestart] in Hr; try discriminate Hr.
    assert (H1 : exists t x, base_step P s b = Ok (t, x) /\ E t u).
    { assert (Hone : exists v, W v /\ par v = bpar P setp clrp b (par s) /\ base_step P s b = (t <- p_init P v ;; Ok (t, ODone))).
      { destruct b as [f d|b|q v]; cbn [brestart bpar base_step any_hop any_base] in *; [discriminate| |].
        - unfold reset. destruct b.
          + destruct (b_clear _ _ _ _ _ _ L s Ws) as (t & -> & Wt & Pt). exists t. cbn [bind]. auto.
          + exists s. auto.
        - pose proof (b_set _ _ _ _ _ _ L q v s Ho Ws) as HS. unfold par, setp in *. destruct (hr_set T X R q v (hr_par T X R s)) as [x|]; [|discriminate].
          destruct HS as (t & Et & Wt & Pt). exists t. repeat split; auto. unfold set_param. rewrite Et.
          destruct (p_init P t); reflexivity. }
      destruct Hone as (v & Wv & Pv & ->).
      destruct (b_init _ _ _ _ _ _ L v c Wv Wc) as (t & t' & F & G & I & J).
      { cbn [hopar] in Hp. unfold par in *. congruence. }
      rewrite A in G. injection G as <-. rewrite F. cbn [bind]. eauto. }
    exact H1.
  Qed.

  Local Notation laft := (aft (hash_step P)).
  Lemma hafter_aft g u pre post : ht_new T g = Ok u -> after T g pre post = laft (Ok u) pre post.
  Proof.
    intros Eu. unfold after, aft. rewrite Eu. cbn [bind]. rewrite hruns. destruct (runs (hash_step P) u pre) as [[s l]| |]; cbn [bind]; [|reflexivity|reflexivity].
    rewrite hruns. reflexivity.
  Qed.

  (** C08 *)
  Theorem hany_defined g pre post : ht_mem_ok T g -> hany pre -> hany post ->
    exists r, after T g pre post = Ok r /\ length r = length post.
  Proof.
    intros Hg H1 H2. destruct (hnew_E g g Hg Hg) as (u & u' & Eu & Eu' & HE & HP & HF).
    rewrite (hafter_aft g u) by auto. rewrite Eu in Eu'. injection Eu' as <-.
    destruct (any_same _ _ _ _ _ _ _ _ hlaws u u HE pre post H1 H2) as (r & A & _ & B). eauto.
  Qed.
  (** C09 *)
  Theorem hany_memory g g' pre post : ht_mem_ok T g -> ht_mem_ok T g' -> hany pre -> hany post ->
    after T g pre post = after T g' pre post.
  Proof.
    intros Hg Hg' H1 H2. destruct (hnew_E g g' Hg Hg') as (u & u' & Eu & Eu' & HE & HP & HF).
    rewrite (hafter_aft g u), (hafter_aft g' u') by auto.
    destruct (any_same _ _ _ _ _ _ _ _ hlaws u u' HE pre post H1 H2) as (r & A & B & _). congruence.
  Qed.

  Let P0 := hr_0 T X R.
  Let ps := pars hopar.
  Lemma hps_app a b x : ps (a ++ b) x = ps b (ps a x).
  Proof. unfold ps, pars. apply fold_left_app. Qed.
  Lemma hacc_restart q v x : hrestart (HBase (SetParam q v)) x = ht_accepts T q v.
  Proof. cbn [hrestart brestart]. rewrite <- (hr_acc T X R q v x). reflexivity. Qed.
  Lemma hr_some q v x : ht_accepts T q v = true -> exists y, setp q v x = Some y.
  Proof. intros H. rewrite <- (hr_acc T X R q v x) in H. unfold setp. destruct (hr_set T X R q v x); [eauto|discriminate]. Qed.

  Lemma hparams_any (pre : list (hash_op (p_param P))) : hany pre -> hany (filter hparam_call pre).
  Proof. unfold hany. intros H. apply incl_Forall with (l1 := pre); auto. apply incl_filter. Qed.
  Lemma hfilter_params pre : filter hparam_call (filter (@hparam_call (p_param P)) pre) = filter hparam_call pre.
  Proof. induction pre as [|o r IH]; [reflexivity|]. cbn [filter]. destruct (hparam_call o) eqn:H; cbn [filter]; rewrite ?H, IH; reflexivity. Qed.
  Lemma hps_filter pre x : ps (filter hparam_call pre) x = ps pre x.
  Proof.
    revert x. induction pre as [|o r IH]; intros x; [reflexivity|]. cbn [filter]. destruct (hparam_call o) eqn:H.
    - cbn [ps pars fold_left]. apply IH.
    - rewrite IH. unfold ps, pars. cbn [fold_left]. rewrite (l_keep _ _ _ _ _ _ _ _ hlaws o x H). reflexivity.
  Qed.

  (** Two histories that end in a restart with the same parameters. *)
  Lemma hany_same_restart g pre1 o1 pre2 o2 post : ht_mem_ok T g -> hany pre1 -> any_hop o1 -> hany pre2 -> any_hop o2 -> hany post ->
    hrestart o1 (ps pre1 P0) = true -> hrestart o2 (ps pre2 P0) = true -> hopar o1 (ps pre1 P0) = hopar o2 (ps pre2 P0) ->
    exists r, after T g (pre1 ++ [o1]) post = Ok r /\ after T g (pre2 ++ [o2]) post = Ok r.
  Proof.
    intros Hg H1 Ho1 H2 Ho2 H3 R1 R2 Hp. destruct (hnew_E g g Hg Hg) as (u & u' & Eu & _ & _ & HP & HF).
    rewrite !(hafter_aft g u) by auto.
    exact (any_restart2 _ _ _ _ _ _ _ _ hlaws P0 u HF HP pre1 o1 pre2 o2 post H1 Ho1 H2 Ho2 H3 R1 R2 Hp).
  Qed.
  Lemma hany_restart_params g pre1 o1 pre2 post : ht_mem_ok T g -> hany pre1 -> any_hop o1 -> hany pre2 -> hany post ->
    hrestart o1 (ps pre1 P0) = true -> hopar o1 (ps pre1 P0) = ps pre2 P0 ->
    exists r, after T g (pre1 ++ [o1]) post = Ok r /\ after T g (filter hparam_call pre2) post = Ok r.
  Proof.
    intros Hg H1 Ho1 H2 H3 R1 Hp. destruct (hnew_E g g Hg Hg) as (u & u' & Eu & _ & _ & HP & HF).
    rewrite !(hafter_aft g u) by auto.
    exact (any_restart _ _ _ _ _ _ _ _ hlaws P0 u HF HP pre1 o1 post H1 Ho1 H3 R1 pre2 H2 Hp).
  Qed.

  (** C04 *)
  Theorem hany_reset g pre post : ht_mem_ok T g -> hany pre -> hany post ->
    exists r, after T g (pre ++ [HBase (Reset false)]) post = Ok r /\ after T g (filter hparam_call pre) post = Ok r.
  Proof. intros Hg H1 H2. apply hany_restart_params; auto; exact I. Qed.
  Lemma setters_from_any ops : forall acc, @hany (p_param P) acc -> hany ops -> hany (setters_from acc ops).
  Proof.
    induction ops as [|o r IH]; intros acc Ha Ho; [exact Ha|]. inversion Ho as [|? ? H1 H2]; subst.
    destruct o as [[f d|[]|q v]|n| |]; cbn [setters_from]; apply IH; auto.
    - constructor.
    - unfold hany. apply Forall_app. split; [exact Ha|]. repeat constructor. exact H1.
  Qed.
  Lemma setters_params ops : forall acc, filter (@hparam_call (p_param P)) acc = acc ->
    filter hparam_call (setters_from acc ops) = setters_from acc ops.
  Proof.
    induction ops as [|o r IH]; intros acc Ha; [exact Ha|].
    destruct o as [[f d|[]|q v]|n| |]; cbn [setters_from]; apply IH; auto.
    rewrite filter_app, Ha. reflexivity.
  Qed.
  Lemma hps_setters ops (Hc : ht_clr T = true) : forall acc, ps (setters_from acc ops) P0 = ps ops (ps acc P0).
  Proof.
    induction ops as [|o r IH]; intros acc; [reflexivity|].
    destruct o as [[f d|[]|q v]|n| |]; cbn [setters_from]; rewrite IH; try reflexivity.
    - cbn [ps pars fold_left hopar bpar]. unfold clrp. rewrite (hr_full T X R Hc). reflexivity.
    - rewrite hps_app. reflexivity.
  Qed.
  Theorem hany_reset_setters g pre post : ht_clr T = true -> ht_mem_ok T g -> hany pre -> hany post ->
    exists r, after T g (pre ++ [HBase (Reset false)]) post = Ok r /\ after T g (setters pre) post = Ok r.
  Proof.
    intros Hc Hg H1 H2. unfold setters. rewrite <- (setters_params pre []) by reflexivity.
    apply hany_restart_params; auto; try exact I.
    - apply setters_from_any; auto. constructor.
    - rewrite hps_setters by auto. reflexivity.
  Qed.
  (** C05 *)
  Theorem hany_reset_true g pre post : ht_clr T = true -> ht_mem_ok T g -> hany pre -> hany post ->
    exists r, after T g (pre ++ [HBase (Reset true)]) post = Ok r /\ after T g [] post = Ok r.
  Proof.
    intros Hc Hg H1 H2. apply (hany_restart_params g pre (HBase (Reset true)) [] post); auto; try exact I.
    - constructor.
    - cbn [hopar bpar]. unfold clrp. rewrite (hr_full T X R Hc). reflexivity.
  Qed.
  (** C38, C39 *)
  Theorem hany_set_outcome g pre q v : ht_mem_ok T g -> hany pre -> is_bytes v ->
    after T g pre [HBase (SetParam q v)] = Ok [if ht_accepts T q v then ODone else OThrow].
  Proof.
    intros Hg H1 Hv. destruct (hnew_E g g Hg Hg) as (u & u' & Eu & Eu' & HE & HP & HF).
    rewrite (hafter_aft g u) by auto. unfold aft. cbn [bind].
    rewrite Eu in Eu'. injection Eu' as <-.
    destruct (runs_E _ _ _ _ _ _ _ _ hlaws pre u u H1 HE) as (t & t' & l & -> & _ & _ & HE1 & HP1). cbn [bind runs hash_step].
    pose proof (proj1 (b_E _ _ _ _ _ _ L t t' HE1)) as Wt.
    assert (AR := hacc_restart q v (par t)). cbn [hrestart] in AR.
    destruct (ht_accepts T q v).
    - destruct (restart_E P par W E setp clrp L t t (SetParam q v) (SetParam q v) Wt Wt Hv Hv AR AR eq_refl) as (a & b & -> & _). reflexivity.
    - destruct (reject_E P par W E setp clrp L t (SetParam q v) Wt Hv eq_refl AR) as [_ ->]. reflexivity.
  Qed.
  Theorem hany_set_rejected g pre q v post : ht_mem_ok T g -> hany pre -> is_bytes v -> hany post -> ht_accepts T q v = false ->
    exists r, after T g (pre ++ [HBase (SetParam q v)]) post = Ok r /\ after T g pre post = Ok r.
  Proof.
    intros Hg H1 Hv H2 Ha. destruct (hnew_E g g Hg Hg) as (u & u' & Eu & _ & _ & HP & HF).
    rewrite !(hafter_aft g u) by auto.
    apply (any_reject _ _ _ _ _ _ _ _ hlaws P0 u HF HP pre (HBase (SetParam q v)) post); auto.
    rewrite hacc_restart. exact Ha.
  Qed.
  Theorem hany_set_accepted g pre q v post : ht_mem_ok T g -> hany pre -> is_bytes v -> hany post -> ht_accepts T q v = true ->
    exists r, after T g (pre ++ [HBase (SetParam q v)]) post = Ok r /\
      after T g (filter hparam_call pre ++ [HBase (SetParam q v)]) post = Ok r.
  Proof.
    intros Hg H1 Hv H2 Ha. apply hany_same_restart; auto using hparams_any; rewrite ?hacc_restart, ?hps_filter; auto.
  Qed.
  Theorem hany_set_commute g pre q1 v1 q2 v2 post : ht_mem_ok T g -> hany pre -> is_bytes v1 -> is_bytes v2 -> hany post -> q1 <> q2 ->
    ht_accepts T q1 v1 = true -> ht_accepts T q2 v2 = true ->
    exists r, after T g (pre ++ [HBase (SetParam q1 v1); HBase (SetParam q2 v2)]) post = Ok r /\
      after T g (pre ++ [HBase (SetParam q2 v2); HBase (SetParam q1 v1)]) post = Ok r.
  Proof.
    intros Hg H1 Hv1 Hv2 H2 Hq A1 A2.
    change [HBase (SetParam q1 v1); HBase (SetParam q2 v2)] with ([HBase (SetParam q1 v1)] ++ [HBase (SetParam q2 v2)]).
    change [HBase (SetParam q2 v2); HBase (SetParam q1 v1)] with ([HBase (SetParam q2 v2)] ++ [HBase (SetParam q1 v1)]).
    rewrite !app_assoc. apply hany_same_restart; auto; rewrite ?hacc_restart; auto.
    - unfold hany. apply Forall_app. split; [auto|]. constructor; [exact Hv1 || exact Hv2|constructor].
    - unfold hany. apply Forall_app. split; [auto|]. constructor; [exact Hv1 || exact Hv2|constructor].
    - rewrite !hps_app. generalize (ps pre P0). intros x. unfold ps, pars. cbn [fold_left hopar bpar].
      destruct (hr_some q1 v1 x A1) as (x1 & E1). destruct (hr_some q2 v2 x A2) as (x2 & E2).
      rewrite E1, E2. pose proof (hr_comm T X R q1 q2 v1 v2 _ x1 x2 Hq E1 E2) as C. fold setp in C.
      destruct (hr_some q2 v2 x1 A2) as (y & Ey). rewrite <- C, Ey. reflexivity.
  Qed.
  Theorem hany_set_last g pre q v1 v2 post : ht_mem_ok T g -> hany pre -> is_bytes v1 -> is_bytes v2 -> hany post -> v2 <> [] ->
    ht_accepts T q v1 = true -> ht_accepts T q v2 = true ->
    exists r, after T g (pre ++ [HBase (SetParam q v1); HBase (SetParam q v2)]) post = Ok r /\
      after T g (pre ++ [HBase (SetParam q v2)]) post = Ok r.
  Proof.
    intros Hg H1 Hv1 Hv2 H2 Hn A1 A2.
    change [HBase (SetParam q v1); HBase (SetParam q v2)] with ([HBase (SetParam q v1)] ++ [HBase (SetParam q v2)]).
    rewrite app_assoc. apply hany_same_restart; auto; rewrite ?hacc_restart; auto.
    - unfold hany. apply Forall_app. split; [auto|]. constructor; [exact Hv1 || exact Hv2|constructor].
    - rewrite !hps_app. generalize (ps pre P0). intros x. unfold ps, pars. cbn [fold_left hopar bpar].
      destruct (hr_some q v1 x A1) as (x1 & E1). rewrite E1.
      pose proof (hr_over T X R q v1 v2 _ x1 Hn E1) as C. fold setp in C. rewrite C.
      destruct (hr_some q v2 x A2) as (y & ->). reflexivity.
  Qed.
End HRob.
