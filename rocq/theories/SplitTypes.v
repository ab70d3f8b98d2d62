(** * Squeezing in pieces: the providers. *)
From Coq Require Import Lia.
From Verif Require Import Base Lemmas WordLemmas MdState Hasher Squeeze SplitSqueeze Keccak Sha3 Shake Kmac K12 Ascon Esch Blake2 Skein.
Local Open Scope nat_scope.

(** ** The loop of the sponges *)
Section Loop.
  Context {C : Type}.
  Variable next : C -> C.
  Variable emit : C -> list N.
  Variable r : nat.
  Hypothesis Hr : 0 < r.
  Let nx (c : C) : res C := Ok (next c).

  Lemma sq_loop_stream fuel : forall c hs processed pos out, 0 < processed -> processed < hs -> hs - processed <= fuel ->
    sq_loop next emit r fuel c hs processed pos out
    = (' (c, p, w) <- stream nx emit r fuel (next c) 0 (hs - processed) ;; Ok (c, p, out ++ w)).
  Proof.
    induction fuel as [|f IH]; intros c hs pr pos out H0 H1 H2; [lia|].
    cbn [sq_loop]. destruct (Nat.ltb_spec pr hs) as [_|]; [|lia]. destruct (Nat.eqb_spec pr 0) as [|_]; [lia|].
    cbn [stream]. rewrite !Nat.sub_0_r. destruct (Nat.leb_spec (hs - pr) r) as [L|L].
    - rewrite Nat.min_l by lia. unfold rd. destruct (hs - pr) as [|k] eqn:Ek; [lia|].
      destruct (load (emit (next c)) 0 (S k)) as [w| |]; cbn [bind]; [|reflexivity|reflexivity].
      replace (pr + S k) with hs by lia.
      destruct f; cbn [sq_loop]; rewrite Nat.ltb_irrefl; reflexivity.
    - rewrite Nat.min_r by lia. unfold rd at 1. destruct r as [|r'] eqn:Er; [lia|]. rewrite <- Er in *.
      destruct (load (emit (next c)) 0 r) as [w| |]; cbn [bind]; [|reflexivity|reflexivity].
      rewrite IH by lia. change (nx (next c)) with (Ok (next (next c))). cbn [bind]. replace (hs - (pr + r)) with (hs - pr - r) by lia.
      destruct (stream nx emit r f (next (next c)) 0 (hs - pr - r)) as [[[c2 p2] w2]| |]; cbn [bind]; [|reflexivity|reflexivity].
      rewrite app_assoc. reflexivity.
  Qed.

  Lemma sq_first_stream c pos hs : 0 < hs ->
    sq_first next emit r c pos hs = stream nx emit r hs c 0 hs.
  Proof.
    intros Hh. unfold sq_first. destruct hs as [|f]; [lia|]. cbn [sq_loop Nat.ltb Nat.leb Nat.eqb].
    rewrite Nat.sub_0_r. cbn [Nat.add]. destruct (Nat.leb_spec (S f) r) as [L|L].
    - rewrite Nat.min_l by lia. rewrite stream_here by lia. unfold rd.
      destruct (load (emit c) 0 (S f)) as [w| |]; cbn [bind]; [|reflexivity|reflexivity].
      destruct f; cbn [sq_loop]; rewrite Nat.ltb_irrefl; reflexivity.
    - rewrite Nat.min_r by lia. cbn [stream]. rewrite Nat.sub_0_r.
      destruct (Nat.leb_spec (S f) r); [lia|]. unfold rd at 1. destruct r as [|r'] eqn:Er; [lia|]. rewrite <- Er in *.
      destruct (load (emit c) 0 r) as [w| |]; cbn [bind]; [|reflexivity|reflexivity].
      rewrite sq_loop_stream by lia. reflexivity.
  Qed.

  (** A position behind the block does not occur; there the code starts the block again. *)
  Definition sq_pos (pos : nat) : nat := if pos <=? r then pos else 0.
  Lemma sq_pos_le pos : sq_pos pos <= r.
  Proof. unfold sq_pos. destruct (Nat.leb_spec pos r); lia. Qed.
  Lemma sq_pos_id pos : pos <= r -> sq_pos pos = pos.
  Proof. unfold sq_pos. destruct (Nat.leb_spec pos r); lia. Qed.
  Lemma sq_more_stream c pos hs : 0 < hs ->
    sq_more next emit r c pos hs = stream nx emit r hs c (sq_pos pos) hs.
  Proof.
    intros Hh. unfold sq_more, sq_pos. destruct (Nat.ltb_spec pos r) as [L|L].
    - destruct (Nat.leb_spec pos r); [|lia]. destruct (Nat.leb_spec hs (r - pos)) as [L2|L2].
      + rewrite stream_here by lia. rewrite Nat.min_l by lia. unfold rd. destruct hs as [|f]; [lia|].
        destruct (load (emit c) pos (S f)) as [w| |]; cbn [bind]; [|reflexivity|reflexivity].
        cbn [sq_loop]. rewrite Nat.ltb_irrefl. reflexivity.
      + rewrite Nat.min_r by lia. destruct hs as [|f] eqn:Eh; [lia|]. cbn [stream].
        destruct (Nat.leb_spec (S f) (r - pos)); [lia|].
        unfold rd. destruct (r - pos) as [|q] eqn:Eq; [lia|].
        destruct (load (emit c) pos (S q)) as [w| |]; cbn [bind]; [|reflexivity|reflexivity].
        rewrite sq_loop_stream by lia. change (nx c) with (Ok (next c)). cbn [bind].
        rewrite (stream_fuel nx emit r Hr (S f) f) by (unfold enough; lia). reflexivity.
    - destruct (Nat.eqb_spec pos r) as [->|Hne].
      + rewrite Nat.leb_refl. change (sq_loop next emit r hs (next c) hs 0 r []) with (sq_first next emit r (next c) r hs).
        rewrite sq_first_stream by exact Hh. destruct hs as [|f]; [lia|].
        rewrite stream_boundary by lia. change (nx c) with (Ok (next c)). cbn [bind].
        apply (stream_fuel nx emit r Hr); unfold enough; lia.
      + destruct (Nat.leb_spec pos r); [lia|].
        change (sq_loop next emit r hs c hs 0 pos []) with (sq_first next emit r c pos hs). apply sq_first_stream. exact Hh.
  Qed.
End Loop.

Lemma words_emit n c : bytes_ok (words_bytes n c).
Proof. apply words_bytes_ok. Qed.

Section Keccak.
  Variables (B : N) (R : nat).
  Let r := N.to_nat (shake_rate B / 8).
  Hypothesis Hr : 0 < r.
  Definition shake_next (_ : unit) (c : list N) : res (list N) := Ok (kc_perm R c).
  Definition shake_sfx (s : shake_st) : N :=
    if (hsfx s =? 0)%N then match hN s, hS s with [], [] => 0x1f | _, _ => 0x04 end%N else hsfx s.
  Definition shake_start (s : shake_st) : res (shake_st * list N * nat) :=
    if hsq s then Ok (s, sh (hk s), sq_pos r (spos (hk s)))
    else
      k <- kc_pad_block R (shake_rate B) (shake_sfx s) (hk s) ;;
      Ok (mksh k (hN s) (hS s) true (hsfx s), sh k, 0).
  Definition shake_pack (s : shake_st) (c : list N) (pos : nat) : shake_st :=
    mksh (mkst c (sm (hk s)) pos (stotal (hk s))) (hN s) (hS s) true (hsfx s).

  Lemma shake_squeeze_stream s k : 0 < k -> shake_squeeze B R s k =
    (' (s, c, pos) <- shake_start s ;; ' (c, pos, w) <- stream (shake_next tt) (words_bytes 8) r k c pos k ;;
     Ok (shake_pack s c pos, w)).
  Proof.
    intros Hk. unfold shake_squeeze, shake_start. fold r. destruct (hsq s).
    - rewrite sq_more_stream by auto. cbn [bind]. reflexivity.
    - fold (shake_sfx s). destruct (kc_pad_block R (shake_rate B) (shake_sfx s) (hk s)) as [kk| |]; cbn [bind]; [|reflexivity|reflexivity].
      rewrite sq_first_stream by auto. reflexivity.
  Qed.
  Lemma shake_start_pos s s' c pos : shake_start s = Ok (s', c, pos) -> pos <= r.
  Proof.
    unfold shake_start. destruct (hsq s).
    - intros E. apply Ok_eq in E. injection E as _ _ <-. apply sq_pos_le; auto; lia.
    - destruct (kc_pad_block R (shake_rate B) (shake_sfx s) (hk s)) as [kk| |]; cbn [bind]; try discriminate.
      intros E. apply Ok_eq in E. injection E as _ _ <-. lia.
  Qed.
  Lemma shake_start_again s c pos : pos <= r -> shake_start (shake_pack s c pos) = Ok (shake_pack s c pos, c, pos).
  Proof. intros H. unfold shake_start. cbn [hsq shake_pack hk spos sh]. rewrite sq_pos_id by (auto; lia). reflexivity. Qed.

  Lemma shake_streams : streams (shake B R) shake_next (words_bytes 8) r (fun _ => tt) shake_start shake_pack (fun _ => True).
  Proof.
    constructor; auto using words_emit.
    - intros s s' c pos E. split; [exact (shake_start_pos _ _ _ _ E)|auto].
    - intros s s0 c0 p0 c pos _ _ Hp. split; [apply shake_start_again; exact Hp|]. split; reflexivity.
    - exact shake_squeeze_stream.
  Qed.
  Lemma cshake_streams : streams (cshake B R) shake_next (words_bytes 8) r (fun _ => tt) shake_start shake_pack (fun _ => True).
  Proof.
    constructor; auto using words_emit.
    - intros s s' c pos E. split; [exact (shake_start_pos _ _ _ _ E)|auto].
    - intros s s0 c0 p0 c pos _ _ Hp. split; [apply shake_start_again; exact Hp|]. split; reflexivity.
    - exact shake_squeeze_stream.
  Qed.

  Definition k12_start (s : k12_st) : res (k12_st * list N * nat) :=
    s <- (if ksq s then Ok s else k12_finish B R s) ;;
    ' (main, c, pos) <- shake_start (kmain s) ;;
    Ok (mkk12 main (kchild s) (km s) (kS s) (kpos s) (ktotal s) (kchunk s) (ksq s), c, pos).
  Definition k12_pack (s : k12_st) (c : list N) (pos : nat) : k12_st :=
    mkk12 (shake_pack (kmain s) c pos) (kchild s) (km s) (kS s) (kpos s) (ktotal s) (kchunk s) (ksq s).
  Lemma k12_finish_flag s s' : k12_finish B R s = Ok s' -> ksq s' = true.
  Proof.
    unfold k12_finish. intros E.
    repeat match type of E with
    | context [bind ?x _] => destruct x as [?| |]; cbn [bind] in E; try discriminate E
    | (let (_, _) := ?x in _) = _ => destruct x
    end; apply Ok_eq in E; subst s'; reflexivity.
  Qed.
  Lemma k12_start_flag s s' c pos : k12_start s = Ok (s', c, pos) -> ksq s' = true /\ pos <= r.
  Proof.
    unfold k12_start. intros E. destruct (ksq s) eqn:Es.
    - cbn [bind] in E. destruct (shake_start (kmain s)) as [[[m c0] p0]| |] eqn:Em; [|discriminate E|discriminate E].
      apply Ok_eq in E. injection E as <- <- <-. split; [exact Es|exact (shake_start_pos _ _ _ _ Em)].
    - destruct (k12_finish B R s) as [s1| |] eqn:E1; [|discriminate E|discriminate E]. cbn [bind] in E.
      destruct (shake_start (kmain s1)) as [[[m c0] p0]| |] eqn:Em; [|discriminate E|discriminate E].
      apply Ok_eq in E. injection E as <- <- <-. split; [exact (k12_finish_flag _ _ E1)|exact (shake_start_pos _ _ _ _ Em)].
  Qed.
  Lemma k12_squeeze_stream s k : 0 < k -> k12_squeeze B R s k =
    (' (s, c, pos) <- k12_start s ;; ' (c, pos, w) <- stream (shake_next tt) (words_bytes 8) r k c pos k ;;
     Ok (k12_pack s c pos, w)).
  Proof.
    intros Hk. unfold k12_squeeze, k12_start.
    destruct (if ksq s then Ok s else k12_finish B R s) as [s1| |]; cbn [bind]; [|reflexivity|reflexivity].
    rewrite shake_squeeze_stream by exact Hk.
    destruct (shake_start (kmain s1)) as [[[m c0] p0]| |]; cbn [bind]; [|reflexivity|reflexivity].
    destruct (stream (shake_next tt) (words_bytes 8) r k c0 p0 k) as [[[c2 p2] w]| |]; reflexivity.
  Qed.
  Lemma k12_streams : streams (k12 B R) shake_next (words_bytes 8) r (fun _ => tt) k12_start k12_pack (fun _ => True).
  Proof.
    constructor; auto using words_emit.
    - intros s s' c pos E. split; [exact (proj2 (k12_start_flag _ _ _ _ E))|auto].
    - intros s s0 c0 p0 c pos E _ Hp. destruct (k12_start_flag _ _ _ _ E) as [F _].
      split; [|split; reflexivity]. unfold k12_start. change (ksq (k12_pack s0 c pos)) with (ksq s0). rewrite F. cbn [bind].
      change (kmain (k12_pack s0 c pos)) with (shake_pack (kmain s0) c pos).
      rewrite shake_start_again by exact Hp. reflexivity.
    - exact k12_squeeze_stream.
  Qed.
End Keccak.

Section Kmac.
  Variable B : N.
  Let r := N.to_nat (shake_rate B / 8).
  Hypothesis Hr : 0 < r.
  Definition kmac_start (s : kmac_st) : res (kmac_st * list N * nat) :=
    s <- (if kmsq s then Ok s
          else
            s <- kmac_update B s (right_encode 0 false) ;;
            Ok (mkkm (kmK s) (kmhs s) true (kmsh s))) ;;
    ' (h, c, pos) <- shake_start B 24 (kmsh s) ;;
    Ok (mkkm (kmK s) (kmhs s) (kmsq s) h, c, pos).
  Definition kmac_pack (s : kmac_st) (c : list N) (pos : nat) : kmac_st :=
    mkkm (kmK s) (kmhs s) (kmsq s) (shake_pack (kmsh s) c pos).
  Lemma kmac_start_flag s s' c pos : kmac_start s = Ok (s', c, pos) -> kmsq s' = true /\ pos <= r.
  Proof.
    unfold kmac_start. intros E. destruct (kmsq s) eqn:Es.
    - cbn [bind] in E. destruct (shake_start B 24 (kmsh s)) as [[[m c0] p0]| |] eqn:Em; [|discriminate E|discriminate E].
      apply Ok_eq in E. injection E as <- <- <-. split; [exact Es|exact (shake_start_pos B 24 Hr _ _ _ _ Em)].
    - destruct (kmac_update B s (right_encode 0 false)) as [s1| |] eqn:E1; [|discriminate E|discriminate E]. cbn [bind kmsh] in E.
      destruct (shake_start B 24 (kmsh s1)) as [[[m c0] p0]| |] eqn:Em; [|discriminate E|discriminate E].
      apply Ok_eq in E. injection E as <- <- <-. split; [reflexivity|exact (shake_start_pos B 24 Hr _ _ _ _ Em)].
  Qed.
  Lemma kmac_squeeze_stream s k : 0 < k -> kmac_squeeze B true s k =
    (' (s, c, pos) <- kmac_start s ;; ' (c, pos, w) <- stream (shake_next 24 tt) (words_bytes 8) r k c pos k ;;
     Ok (kmac_pack s c pos, w)).
  Proof.
    intros Hk. unfold kmac_squeeze, kmac_start.
    destruct (if kmsq s then Ok s else _) as [s1| |]; cbn [bind]; [|reflexivity|reflexivity].
    rewrite shake_squeeze_stream by auto.
    destruct (shake_start B 24 (kmsh s1)) as [[[m c0] p0]| |]; cbn [bind]; [|reflexivity|reflexivity].
    fold r. destruct (stream (shake_next 24 tt) (words_bytes 8) r k c0 p0 k) as [[[c2 p2] w]| |]; reflexivity.
  Qed.
  Lemma kmac_streams : streams (kmacxof B) (shake_next 24) (words_bytes 8) r (fun _ => tt) kmac_start kmac_pack (fun _ => True).
  Proof.
    constructor; auto using words_emit.
    - intros s s' c pos E. split; [exact (proj2 (kmac_start_flag _ _ _ _ E))|auto].
    - intros s s0 c0 p0 c pos E _ Hp. destruct (kmac_start_flag _ _ _ _ E) as [F _].
      split; [|split; reflexivity]. unfold kmac_start. change (kmsq (kmac_pack s0 c pos)) with (kmsq s0). rewrite F. cbn [bind].
      change (kmsh (kmac_pack s0 c pos)) with (shake_pack (kmsh s0) c pos).
      rewrite (shake_start_again B 24 Hr) by exact Hp. reflexivity.
    - exact kmac_squeeze_stream.
  Qed.
End Kmac.

(** ** Ascon *)
Definition ascon_next (m c : list N) : res (list N) := Ok (ascon_block c 0 (firstn 8 m)).
Definition ascon_start (s : ascon_st) : res (ascon_st * list N * nat) :=
  if asq s then Ok (s, sh (ak s), sq_pos 8 (spos (ak s)))
  else k <- ascon_pad (ak s) ;; Ok (mkas k (aZ s) true, sh k, 0).
Definition ascon_pack (s : ascon_st) (c : list N) (pos : nat) : ascon_st :=
  mkas (mkst c (sm (ak s)) pos (stotal (ak s))) (aZ s) true.
Lemma ascon_squeeze_stream s k : 0 < k -> ascon_squeeze s k =
  (' (s, c, pos) <- ascon_start s ;; ' (c, pos, w) <- stream (ascon_next (sm (ak s))) (words_bytes 8) 8 k c pos k ;;
   Ok (ascon_pack s c pos, w)).
Proof.
  intros Hk. unfold ascon_squeeze, ascon_start. destruct (asq s).
  - rewrite sq_more_stream by (auto; lia). cbn [bind]. reflexivity.
  - destruct (ascon_pad (ak s)) as [kk| |]; cbn [bind]; [|reflexivity|reflexivity].
    rewrite sq_first_stream by (auto; lia). reflexivity.
Qed.
Lemma ascon_start_pos s s' c pos : ascon_start s = Ok (s', c, pos) -> pos <= 8.
Proof.
  unfold ascon_start. destruct (asq s).
  - intros E. apply Ok_eq in E. injection E as _ _ <-. apply sq_pos_le; auto; lia.
  - destruct (ascon_pad (ak s)) as [kk| |]; cbn [bind]; try discriminate.
    intros E. apply Ok_eq in E. injection E as _ _ <-. lia.
Qed.
Lemma ascon_start_again s c pos : pos <= 8 -> ascon_start (ascon_pack s c pos) = Ok (ascon_pack s c pos, c, pos).
Proof. intros H. unfold ascon_start. cbn [asq ascon_pack ak spos sh]. rewrite sq_pos_id by (auto; lia). reflexivity. Qed.
Lemma ascon_xof_streams : streams ascon_xof ascon_next (words_bytes 8) 8 (fun s => sm (ak s)) ascon_start ascon_pack (fun _ => True).
Proof.
  constructor; auto using words_emit; try lia.
  - intros s s' c pos E. split; [exact (ascon_start_pos _ _ _ _ E)|auto].
  - intros s s0 c0 p0 c pos _ _ Hp. split; [apply ascon_start_again; exact Hp|]. split; reflexivity.
  - exact ascon_squeeze_stream.
Qed.
Lemma ascon_cxof_streams : streams ascon_cxof ascon_next (words_bytes 8) 8 (fun s => sm (ak s)) ascon_start ascon_pack (fun _ => True).
Proof.
  constructor; auto using words_emit; try lia.
  - intros s s' c pos E. split; [exact (ascon_start_pos _ _ _ _ E)|auto].
  - intros s s0 c0 p0 c pos _ _ Hp. split; [apply ascon_start_again; exact Hp|]. split; reflexivity.
  - exact ascon_squeeze_stream.
Qed.

(** ** Esch *)
Definition esch_next (hs : N) (c : list N * N) : res (list N * N) :=
  Ok (if (snd c =? 0)%N then sparkle (esch_rounds hs) (if (256 <? hs)%N then 8 else 7) (fst c) else fst c, 0%N).
Definition esch_emit (c : list N * N) : list N := words_bytes 4 (fst c).
Definition esch_start (s : esch_st) : res (esch_st * (list N * N) * nat) :=
  if esq s then
    if spos (ek s) <? 16 then Ok (s, (sh (ek s), 0%N), spos (ek s)) else Ok (s, (sh (ek s), stotal (ek s)), 16)
  else k <- esch_pad true (ehs s) (ek s) ;; Ok (mkes k (ehs s) true, (sh k, stotal k), 16).
Definition esch_pack (s : esch_st) (c : list N * N) (pos : nat) : esch_st :=
  mkes (mkst (fst c) (sm (ek s)) pos (snd c)) (ehs s) true.

Lemma esch_loop_stream hs fuel : forall H total hss processed pos out, processed < hss -> hss - processed <= fuel ->
  esch_loop hs fuel H total hss processed pos out
  = (' (c, p, w) <- stream (esch_next hs) esch_emit 16 fuel (H, total) 16 (hss - processed) ;; Ok (fst c, snd c, p, out ++ w)).
Proof.
  induction fuel as [|f IH]; intros H total hss pr pos out H1 H2; [lia|].
  cbn [esch_loop]. destruct (Nat.ltb_spec pr hss) as [_|]; [|lia].
  rewrite stream_boundary by lia. unfold esch_next at 1. cbn [bind fst snd].
  set (H' := if (total =? 0)%N then _ else _). destruct (Nat.leb_spec (hss - pr) 16) as [L|L].
  - rewrite stream_here by lia. rewrite Nat.min_l by lia. unfold rd. destruct (hss - pr) as [|k] eqn:Ek; [lia|].
    change (esch_emit (H', 0%N)) with (words_bytes 4 H').
    destruct (load (words_bytes 4 H') 0 (S k)) as [w| |]; cbn [bind]; [|reflexivity|reflexivity].
    replace (pr + S k) with hss by lia.
    destruct f; cbn [esch_loop]; rewrite Nat.ltb_irrefl; reflexivity.
  - rewrite Nat.min_r by lia. destruct f as [|f]; [lia|]. rewrite stream_more by lia. rewrite !Nat.sub_0_r.
    unfold rd at 1. change (esch_emit (H', 0%N)) with (words_bytes 4 H').
    destruct (load (words_bytes 4 H') 0 16) as [w| |]; cbn [bind]; [|reflexivity|reflexivity].
    rewrite IH by lia. replace (hss - (pr + 16)) with (hss - pr - 16) by lia.
    rewrite stream_boundary by lia.
    destruct (esch_next hs (H', 0%N)) as [c'| |]; cbn [bind]; [|reflexivity|reflexivity].
    destruct (stream (esch_next hs) esch_emit 16 f c' 0 (hss - pr - 16)) as [[[c2 p2] w2]| |]; cbn [bind]; [|reflexivity|reflexivity].
    rewrite app_assoc. reflexivity.
Qed.
Lemma esch_squeeze_stream s k : 0 < k -> esch_squeeze true s k =
  (' (s, c, pos) <- esch_start s ;; ' (c, pos, w) <- stream (esch_next (ehs s)) esch_emit 16 k c pos k ;;
   Ok (esch_pack s c pos, w)).
Proof.
  intros Hk. unfold esch_squeeze, esch_start. destruct (esq s).
  - destruct (Nat.ltb_spec (spos (ek s)) 16) as [L|L].
    + set (pos := spos (ek s)) in *. cbn [bind]. destruct (Nat.leb_spec k (16 - pos)) as [L2|L2].
      * rewrite stream_here by lia. rewrite Nat.min_l by lia. unfold rd. destruct k as [|q]; [lia|].
        change (esch_emit (sh (ek s), 0%N)) with (words_bytes 4 (sh (ek s))).
        destruct (load (words_bytes 4 (sh (ek s))) pos (S q)) as [w| |]; cbn [bind]; [|reflexivity|reflexivity].
        cbn [esch_loop]. rewrite Nat.ltb_irrefl. reflexivity.
      * rewrite Nat.min_r by lia. destruct k as [|q]; [lia|]. rewrite stream_more by lia. unfold rd.
        destruct (16 - pos) as [|d] eqn:Ed; [lia|].
        change (esch_emit (sh (ek s), 0%N)) with (words_bytes 4 (sh (ek s))).
        destruct (load (words_bytes 4 (sh (ek s))) pos (S d)) as [w| |]; cbn [bind]; [|reflexivity|reflexivity].
        rewrite esch_loop_stream by lia. rewrite stream_boundary by lia.
        destruct (esch_next (ehs s) (sh (ek s), 0%N)) as [c'| |]; cbn [bind]; [|reflexivity|reflexivity].
        destruct (stream (esch_next (ehs s)) esch_emit 16 q c' 0 (S q - S d)) as [[[c2 p2] w2]| |]; reflexivity.
    + cbn [bind]. rewrite esch_loop_stream by lia. rewrite Nat.sub_0_r.
      destruct (stream (esch_next (ehs s)) esch_emit 16 k (sh (ek s), stotal (ek s)) 16 k) as [[[c2 p2] w2]| |]; reflexivity.
  - destruct (esch_pad true (ehs s) (ek s)) as [kk| |]; cbn [bind]; [|reflexivity|reflexivity].
    rewrite esch_loop_stream by lia. rewrite Nat.sub_0_r. cbn [ehs].
    destruct (stream (esch_next (ehs s)) esch_emit 16 k (sh kk, stotal kk) 16 k) as [[[c2 p2] w2]| |]; reflexivity.
Qed.
Lemma esch_streams : streams esch_xof esch_next esch_emit 16 ehs esch_start esch_pack (fun c => snd c = 0%N).
Proof.
  constructor.
  - lia.
  - intros c. apply words_emit.
  - intros e c c' E. apply Ok_eq in E. subst c'. reflexivity.
  - intros s s' c pos E. unfold esch_start in E. destruct (esq s).
    + destruct (Nat.ltb_spec (spos (ek s)) 16) as [L|L]; apply Ok_eq in E; injection E as _ <- <-;
        (split; [lia|intros Hl; try lia; reflexivity]).
    + destruct (esch_pad true (ehs s) (ek s)) as [kk| |]; [|discriminate E|discriminate E].
      apply Ok_eq in E; injection E as _ <- <-. split; lia.
  - intros s s0 c0 p0 c pos _ Hc Hp. split; [|split; reflexivity].
    unfold esch_start. cbn [esq esch_pack ek spos sh stotal]. destruct c as [H t]. cbn [fst snd] in *. subst t.
    destruct (Nat.ltb_spec pos 16); [reflexivity|]. replace pos with 16 by lia. reflexivity.
  - exact esch_squeeze_stream.
Qed.

(** ** Skein *)
Section Skein.
  Variable nw : nat.
  Hypothesis Hnw : 0 < nw.
  Let r := 8 * nw.
  Definition skc3 := (list N * list N * N)%type.
  Definition sk_next (hbk : list N) (c : skc3) : res skc3 :=
    let '(h, m, t) := c in
    m <- memcpy m 0 (le_bytes 8 t) 8 ;;
    h <- md_transform1 (sk_step nw 8) (8 * nw) ([0%N; shlw 64 255 56] ++ hbk) m t ;;
    Ok (h, m, trunc 64 (t + 1)).
  Definition sk_emit (c : skc3) : list N := words_bytes 8 (skipn 2 (fst (fst c))).
  Definition sk_c3 (c : st) : skc3 := (sh c, sm c, stotal c).
  Definition sk_start (s : sk_st) : res (sk_st * skc3 * nat) :=
    if sksq s then Ok (s, sk_c3 (skc s), Nat.min (spos (skc s)) r)
    else
      c <- sk_finish nw (skc s) ;;
      m <- memset (sm c) 0 0 (8 * nw) ;;
      Ok (mksk (mkst (sh c) m 0 0) (sk_H c) (skhs s) true (skp s) (skn s) (skk s), (sh c, m, 0%N), r).
  Definition sk_pack (s : sk_st) (c : skc3) (pos : nat) : sk_st :=
    mksk (mkst (fst (fst c)) (snd (fst c)) pos (snd c)) (skhb s) (skhs s) true (skp s) (skn s) (skk s).

  Lemma sk_loop_stream hbk fuel : forall c hs processed out, processed < hs -> hs - processed <= fuel ->
    sk_loop nw hbk fuel c hs processed out
    = (' (c, p, w) <- stream (sk_next hbk) sk_emit r fuel (sk_c3 c) r (hs - processed) ;;
       Ok (mkst (fst (fst c)) (snd (fst c)) p (snd c), out ++ w)).
  Proof.
    induction fuel as [|f IH]; intros c hs pr out H1 H2; [lia|].
    cbn [sk_loop]. destruct (Nat.ltb_spec pr hs) as [_|]; [|lia].
    rewrite stream_boundary by lia. unfold sk_next at 1, sk_c3 at 1.
    destruct (memcpy (sm c) 0 (le_bytes 8 (stotal c)) 8) as [m| |]; cbn [bind]; [|reflexivity|reflexivity].
    destruct (md_transform1 (sk_step nw 8) (8 * nw) ([0%N; shlw 64 255 56] ++ hbk) m (stotal c)) as [h| |];
      cbn [bind]; [|reflexivity|reflexivity].
    set (t := trunc 64 (stotal c + 1)). fold r. destruct (Nat.leb_spec (hs - pr) r) as [L|L].
    - rewrite stream_here by lia. rewrite Nat.min_l by lia. unfold rd. destruct (hs - pr) as [|k] eqn:Ek; [lia|].
      change (sk_emit (h, m, t)) with (words_bytes 8 (skipn 2 h)).
      destruct (load (words_bytes 8 (skipn 2 h)) 0 (S k)) as [w| |]; cbn [bind]; [|reflexivity|reflexivity].
      replace (pr + S k) with hs by lia.
      destruct f; cbn [sk_loop]; rewrite Nat.ltb_irrefl; reflexivity.
    - rewrite Nat.min_r by lia. destruct f as [|f]; [lia|]. rewrite stream_more by lia. rewrite !Nat.sub_0_r.
      unfold rd at 1. change (sk_emit (h, m, t)) with (words_bytes 8 (skipn 2 h)). destruct r as [|r'] eqn:Er; [lia|]. rewrite <- Er in *.
      destruct (load (words_bytes 8 (skipn 2 h)) 0 r) as [w| |]; cbn [bind]; [|reflexivity|reflexivity].
      rewrite IH by lia. replace (hs - (pr + r)) with (hs - pr - r) by lia.
      rewrite stream_boundary by lia. change (sk_c3 (mkst h m r t)) with (h, m, t).
      destruct (sk_next hbk (h, m, t)) as [c'| |]; cbn [bind]; [|reflexivity|reflexivity].
      destruct (stream (sk_next hbk) sk_emit r f c' 0 (hs - pr - r)) as [[[c2 p2] w2]| |]; cbn [bind]; [|reflexivity|reflexivity].
      rewrite app_assoc. reflexivity.
  Qed.
  Lemma sk_squeeze_stream s k : 0 < k -> sk_squeeze nw s k =
    (' (s, c, pos) <- sk_start s ;; ' (c, pos, w) <- stream (sk_next (skhb s)) sk_emit r k c pos k ;;
     Ok (sk_pack s c pos, w)).
  Proof.
    intros Hk. unfold sk_squeeze, sk_start. fold r. destruct (sksq s).
    - cbn [bind]. destruct (Nat.ltb_spec (spos (skc s)) r) as [L|L].
      + rewrite (Nat.min_l (spos (skc s)) r) by lia. set (pos := spos (skc s)) in *. destruct (Nat.leb_spec k (r - pos)) as [L2|L2].
        * rewrite stream_here by lia. rewrite Nat.min_l by lia. unfold rd. destruct k as [|q]; [lia|].
          change (sk_emit (sk_c3 (skc s))) with (words_bytes 8 (sk_H (skc s))).
          destruct (load (words_bytes 8 (sk_H (skc s))) pos (S q)) as [w| |]; cbn [bind]; [|reflexivity|reflexivity].
          cbn [sk_loop]. rewrite Nat.ltb_irrefl. reflexivity.
        * rewrite Nat.min_r by lia. destruct k as [|q]; [lia|]. rewrite stream_more by lia. unfold rd.
          destruct (r - pos) as [|d] eqn:Ed; [lia|].
          change (sk_emit (sk_c3 (skc s))) with (words_bytes 8 (sk_H (skc s))).
          destruct (load (words_bytes 8 (sk_H (skc s))) pos (S d)) as [w| |]; cbn [bind]; [|reflexivity|reflexivity].
          rewrite sk_loop_stream by lia. rewrite stream_boundary by lia.
          change (sk_c3 (mkst _ _ _ _)) with (sk_c3 (skc s)).
          destruct (sk_next (skhb s) (sk_c3 (skc s))) as [c'| |]; cbn [bind]; [|reflexivity|reflexivity].
          destruct (stream (sk_next (skhb s)) sk_emit r q c' 0 (S q - S d)) as [[[c2 p2] w2]| |]; reflexivity.
      + rewrite (Nat.min_r (spos (skc s)) r) by lia. cbn [bind]. rewrite sk_loop_stream by lia. rewrite Nat.sub_0_r.
        destruct (stream (sk_next (skhb s)) sk_emit r k (sk_c3 (skc s)) r k) as [[[c2 p2] w2]| |]; reflexivity.
    - destruct (sk_finish nw (skc s)) as [cc| |]; cbn [bind]; [|reflexivity|reflexivity].
      destruct (memset (sm cc) 0 0 r) as [m| |]; cbn [bind]; [|reflexivity|reflexivity].
      rewrite sk_loop_stream by lia. rewrite Nat.sub_0_r. cbn [skhb].
      change (sk_c3 (mkst (sh cc) m 0 0)) with (sh cc, m, 0%N).
      destruct (stream (sk_next (sk_H cc)) sk_emit r k (sh cc, m, 0%N) r k) as [[[c2 p2] w2]| |]; reflexivity.
  Qed.
  Lemma skein_streams : streams (skein_xof nw) sk_next sk_emit r skhb sk_start sk_pack (fun _ => True).
  Proof.
    constructor; auto.
    - unfold r. lia.
    - intros c. apply words_emit.
    - intros s s' c pos E. split; [|auto]. unfold sk_start in E. destruct (sksq s).
      + apply Ok_eq in E. injection E as _ _ <-. lia.
      + destruct (sk_finish nw (skc s)) as [cc| |]; [|discriminate E|discriminate E]. cbn [bind] in E.
        destruct (memset (sm cc) 0 0 (8 * nw)) as [m| |]; [|discriminate E|discriminate E].
        apply Ok_eq in E. injection E as _ _ <-. lia.
    - intros s s0 c0 p0 [[h m] t] pos _ _ Hp. split; [|split; reflexivity].
      unfold sk_start. cbn [sksq sk_pack skc spos]. rewrite Nat.min_l by exact Hp. reflexivity.
    - exact sk_squeeze_stream.
  Qed.
End Skein.

(** ** BLAKE2X *)
Section Blake2x.
  Variable w : N.
  Hypothesis Hw : w = 64%N \/ w = 32%N.
  Let r := b2_hb w.
  Lemma b2_r : 0 < r.
  Proof. unfold r. destruct Hw as [-> | ->]; cbv; lia. Qed.
  Definition b2c4 := (list N * list N * N * N)%type.
  Definition b2_env (s : b2_st) : bool * list N * list N := (b2_lastn s, b2s s, b2p s).
  Definition b2_next (e : bool * list N * list N) (c : b2c4) : res b2c4 :=
    let '(ln, s, p) := e in
    let '(h, m, t, xo) := c in
    let H := b2_xor_sp s p (b2_initX w 0 xo (N.ones w)) in
    m <- memset m (b2_hb w) 0 (length m - b2_hb w) ;;
    H <- md_transform1 (b2_last w ln) (b2_bs w) H m (8 * w) ;;
    Ok (H, m, (8 * w)%N, trunc 64 (xo + 1)).
  Definition b2_emit (c : b2c4) : list N := words_bytes (b2_wb w) (fst (fst (fst c))).
  Definition b2_c4 (c : st) (xo : N) : b2c4 := (sh c, sm c, stotal c, xo).
  Definition b2_st_of (c : b2c4) (pos : nat) : st := mkst (fst (fst (fst c))) (snd (fst (fst c))) pos (snd (fst c)).
  Definition b2_pack (s : b2_st) (c : b2c4) (pos : nat) : b2_st :=
    mkb2 (b2_st_of c pos) (b2s s) (b2p s) (b2k s) (b2hs s) (snd c) true (b2fo s) (b2nd s) (b2no s).
  Definition b2_start (s : b2_st) : res (b2_st * b2c4 * nat) :=
    if b2sq s then Ok (s, b2_c4 (b2c s) (b2xo s), Nat.min (spos (b2c s)) r)
    else
      let c := b2c s in
      let total := trunc 64 (stotal c + N.of_nat (spos c * 8)) in
      c <- b2_pad w (mkb2 (mkst (sh c) (sm c) (spos c) total) (b2s s) (b2p s) (b2k s) (b2hs s)
                        0 true (b2fo s) (b2nd s) (b2no s)) ;;
      m <- memcpy (sm c) 0 (words_bytes (b2_wb w) (sh c)) (b2_hb w) ;;
      Ok (b2_pack s (sh c, m, stotal c, 0%N) (spos c), (sh c, m, stotal c, 0%N), r).
  Lemma initX_left l xo : b2_initX w l xo (N.ones w) = b2_initX w 0 xo (N.ones w).
  Proof. unfold b2_initX. rewrite N.eqb_refl. reflexivity. Qed.

  Lemma b2_loop_stream ln s p fuel : forall c xo hs processed out, processed < hs -> hs - processed <= fuel ->
    b2_loop w BXof ln s p fuel c xo hs processed out
    = (' (c, p, w) <- stream (b2_next (ln, s, p)) b2_emit r fuel (b2_c4 c xo) r (hs - processed) ;;
       Ok (b2_st_of c p, snd c, out ++ w)).
  Proof.
    pose proof b2_r as Hr.
    induction fuel as [|f IH]; intros c xo hs pr out H1 H2; [lia|].
    cbn [b2_loop]. destruct (Nat.ltb_spec pr hs) as [_|]; [|lia].
    rewrite stream_boundary by lia. unfold b2_next at 1, b2_c4 at 1. rewrite initX_left.
    destruct (memset (sm c) (b2_hb w) 0 (length (sm c) - b2_hb w)) as [m| |]; cbn [bind]; [|reflexivity|reflexivity].
    destruct (md_transform1 (b2_last w ln) (b2_bs w) (b2_xor_sp s p (b2_initX w 0 xo (N.ones w))) m (8 * w)) as [h| |];
      cbn [bind]; [|reflexivity|reflexivity].
    set (x := trunc 64 (xo + 1)). fold r. destruct (Nat.leb_spec (hs - pr) r) as [L|L].
    - rewrite stream_here by lia. rewrite Nat.min_l by lia. unfold rd. destruct (hs - pr) as [|k] eqn:Ek; [lia|].
      change (b2_emit (h, m, (8 * w)%N, x)) with (words_bytes (b2_wb w) h).
      destruct (load (words_bytes (b2_wb w) h) 0 (S k)) as [o| |]; cbn [bind]; [|reflexivity|reflexivity].
      replace (pr + S k) with hs by lia.
      destruct f; cbn [b2_loop]; rewrite Nat.ltb_irrefl; reflexivity.
    - rewrite Nat.min_r by lia. destruct f as [|f]; [lia|]. rewrite stream_more by lia. rewrite !Nat.sub_0_r.
      unfold rd at 1. change (b2_emit (h, m, (8 * w)%N, x)) with (words_bytes (b2_wb w) h). destruct r as [|r'] eqn:Er; [lia|]. rewrite <- Er in *.
      destruct (load (words_bytes (b2_wb w) h) 0 r) as [o| |]; cbn [bind]; [|reflexivity|reflexivity].
      rewrite IH by lia. replace (hs - (pr + r)) with (hs - pr - r) by lia.
      rewrite stream_boundary by lia. change (b2_c4 (mkst h m r (8 * w)) x) with (h, m, (8 * w)%N, x).
      destruct (b2_next (ln, s, p) (h, m, (8 * w)%N, x)) as [c'| |]; cbn [bind]; [|reflexivity|reflexivity].
      destruct (stream (b2_next (ln, s, p)) b2_emit r f c' 0 (hs - pr - r)) as [[[c2 p2] w2]| |]; cbn [bind]; [|reflexivity|reflexivity].
      rewrite app_assoc. reflexivity.
  Qed.
  Lemma b2_squeeze_stream s k : 0 < k -> b2_squeeze w BXof s k =
    (' (s, c, pos) <- b2_start s ;; ' (c, pos, o) <- stream (b2_next (b2_env s)) b2_emit r k c pos k ;;
     Ok (b2_pack s c pos, o)).
  Proof.
    intros Hk. pose proof b2_r as Hr. unfold b2_squeeze, b2_start. fold r. destruct (b2sq s).
    - cbn [bind]. destruct (Nat.ltb_spec (spos (b2c s)) r) as [L|L].
      + rewrite (Nat.min_l (spos (b2c s)) r) by lia. set (pos := spos (b2c s)) in *. destruct (Nat.leb_spec k (r - pos)) as [L2|L2].
        * rewrite stream_here by lia. rewrite Nat.min_l by lia. unfold rd. destruct k as [|q]; [lia|].
          change (b2_emit (b2_c4 (b2c s) (b2xo s))) with (words_bytes (b2_wb w) (sh (b2c s))).
          destruct (load (words_bytes (b2_wb w) (sh (b2c s))) pos (S q)) as [o| |]; cbn [bind]; [|reflexivity|reflexivity].
          cbn [b2_loop]. rewrite Nat.ltb_irrefl. reflexivity.
        * rewrite Nat.min_r by lia. destruct k as [|q]; [lia|]. rewrite stream_more by lia. unfold rd.
          destruct (r - pos) as [|d] eqn:Ed; [lia|].
          change (b2_emit (b2_c4 (b2c s) (b2xo s))) with (words_bytes (b2_wb w) (sh (b2c s))).
          destruct (load (words_bytes (b2_wb w) (sh (b2c s))) pos (S d)) as [o| |]; cbn [bind]; [|reflexivity|reflexivity].
          rewrite b2_loop_stream by lia. rewrite stream_boundary by lia.
          change (b2_c4 (mkst _ _ _ _) _) with (b2_c4 (b2c s) (b2xo s)). fold (b2_env s).
          destruct (b2_next (b2_env s) (b2_c4 (b2c s) (b2xo s))) as [c'| |]; cbn [bind]; [|reflexivity|reflexivity].
          destruct (stream (b2_next (b2_env s)) b2_emit r q c' 0 (S q - S d)) as [[[c2 p2] w2]| |]; reflexivity.
      + rewrite (Nat.min_r (spos (b2c s)) r) by lia. cbn [bind]. rewrite b2_loop_stream by lia. rewrite Nat.sub_0_r. fold (b2_env s).
        destruct (stream (b2_next (b2_env s)) b2_emit r k (b2_c4 (b2c s) (b2xo s)) r k) as [[[c2 p2] w2]| |]; reflexivity.
    - cbv zeta. destruct (b2_pad w _) as [cc| |]; cbn [bind]; [|reflexivity|reflexivity].
      destruct (memcpy (sm cc) 0 (words_bytes (b2_wb w) (sh cc)) r) as [m| |]; cbn [bind]; [|reflexivity|reflexivity].
      rewrite b2_loop_stream by lia. rewrite Nat.sub_0_r.
      change (b2_c4 (mkst _ _ _ _) 0) with (sh cc, m, stotal cc, 0%N).
      change (b2_env (b2_pack _ _ _)) with (b2_env s). fold (b2_env s).
      destruct (stream (b2_next (b2_env s)) b2_emit r k (sh cc, m, stotal cc, 0%N) r k) as [[[c2 p2] w2]| |]; reflexivity.
  Qed.
  Lemma blake2x_streams : streams (blake2x_xof w) b2_next b2_emit r b2_env b2_start b2_pack (fun _ => True).
  Proof.
    constructor; auto.
    - exact b2_r.
    - intros c. apply words_emit.
    - intros s s' c pos E. split; [|auto]. unfold b2_start in E. destruct (b2sq s).
      + apply Ok_eq in E. injection E as _ _ <-. lia.
      + cbv zeta in E. destruct (b2_pad w _) as [cc| |]; [|discriminate E|discriminate E]. cbn [bind] in E.
        destruct (memcpy (sm cc) 0 _ _) as [m| |]; [|discriminate E|discriminate E].
        apply Ok_eq in E. injection E as _ _ <-. lia.
    - intros s s0 c0 p0 [[[h m] t] x] pos _ _ Hp. split; [|split; reflexivity].
      unfold b2_start. cbn [b2sq b2_pack b2c b2_st_of spos]. rewrite Nat.min_l by exact Hp. reflexivity.
    - exact b2_squeeze_stream.
  Qed.
End Blake2x.
