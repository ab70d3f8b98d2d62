(** * Equal digests and the calls behind them (C56). *)
From Verif Require Import Base Lemmas WordLemmas TableLemmas SpecCommon Hasher HasherSpec HasherProof Library LibraryProof XLibraryProof LibraryTypes
  LibraryTypesProof Inputs PadInj PadInjSponge Process ProcessTypes Bind BindTypes CollideSpec BlakeSpec Blake2Spec Blake2pSpec EchoSpec
  GroestlSpec JhSpec StreebogSpec StreebogProof LshSpec SkeinSpec.

Definition dec (A : Type) : Type := forall x y : A, {x = y} + {x <> y}.

Lemma visits_app {A B} (step : A -> B -> A) l b : forall h, visits step h (l ++ [b]) = visits step h l ++ [(fold_left step l h, b)].
Proof. induction l as [|a l IH]; intros h; cbn [app visits fold_left]; [reflexivity|]. now rewrite IH. Qed.
Lemma collide_app {A B} (step : A -> B -> A) v1 v2 w1 w2 : calls_collide step v1 v2 -> calls_collide step (v1 ++ w1) (v2 ++ w2).
Proof.
  intros (h1 & b1 & h2 & b2 & I1 & I2 & N & E). exists h1, b1, h2, b2.
  split; [apply in_or_app; auto|]. split; [apply in_or_app; auto|]. auto.
Qed.
(** Going back from the end: a collision of two calls, or one input list ends with the other. *)
Lemma fold_collide {A B} (step : A -> B -> A) (dA : dec A) (dB : dec B) iv l1 : forall l2,
  fold_left step l1 iv = fold_left step l2 iv -> l1 <> l2 -> in_step step iv l1 l2 \/ returns step iv l1 l2.
Proof.
  unfold in_step. induction l1 as [|b1 l1 IH] using rev_ind; intros l2 E N.
  - right. exists l2. split; [congruence|]. split; [left; now rewrite app_nil_r|]. symmetry. exact E.
  - destruct l2 as [|b2 l2 _] using rev_ind.
    + right. exists (l1 ++ [b1]). split; [exact N|]. split; [right; now rewrite app_nil_r|]. exact E.
    + rewrite !fold_left_app in E. cbn [fold_left] in E. rewrite !visits_app.
      destruct (dB b1 b2) as [Eb|Nb]; [destruct (dA (fold_left step l1 iv) (fold_left step l2 iv)) as [Eh|Nh]|].
      * subst b2. destruct (IH l2 Eh) as [C|(pre & P1 & P2 & P3)].
        { intros X. apply N. now rewrite X. }
        { left. now apply collide_app. }
        { right. exists pre. split; [exact P1|]. split; [|exact P3]. destruct P2 as [-> | ->]; [left|right]; now rewrite app_assoc. }
      * left. exists (fold_left step l1 iv), b1, (fold_left step l2 iv), b2.
        split; [apply in_or_app; right; left; reflexivity|]. split; [apply in_or_app; right; left; reflexivity|].
        split; [congruence|exact E].
      * left. exists (fold_left step l1 iv), b1, (fold_left step l2 iv), b2.
        split; [apply in_or_app; right; left; reflexivity|]. split; [apply in_or_app; right; left; reflexivity|].
        split; [congruence|exact E].
Qed.

(** No input list of a short message ends with that of another. *)
Definition suffix_free {B} (bound : N) (ins : list N -> list B) : Prop :=
  forall m1 m2 pre, is_bytes m1 -> is_bytes m2 -> N.of_nat (length m1) < bound -> N.of_nat (length m2) < bound ->
  ins m2 = pre ++ ins m1 -> m1 = m2.
Lemma suffix_collide {A B} (step : A -> B -> A) (dA : dec A) (dB : dec B) iv bound ins m1 m2 : suffix_free bound ins ->
  is_bytes m1 -> is_bytes m2 -> N.of_nat (length m1) < bound -> N.of_nat (length m2) < bound -> m1 <> m2 ->
  fold_left step (ins m1) iv = fold_left step (ins m2) iv -> in_step step iv (ins m1) (ins m2).
Proof.
  intros F M1 M2 L1 L2 N E. destruct (fold_collide step dA dB iv (ins m1) (ins m2) E) as [C|(pre & _ & [H|H] & _)]; [| exact C| |].
  - intros X. apply N, (F m1 m2 []); auto.
  - exfalso. apply N. eapply F; eauto.
  - exfalso. apply N. symmetry. eapply F; eauto.
Qed.
Lemma xsince_bytes {P} (T : xtype P) ops : xcalls T ops -> is_bytes (xsince T ops).
Proof.
  unfold xsince, xcalls. assert (H : is_bytes []) by constructor. revert H. generalize (@nil N) as m. generalize false as sq.
  induction ops as [|o r IH]; intros sq m Hm Hc; [exact Hm|].
  destruct o as [[f d|c|q v]|n|n|n]; cbn [xsince_from]; cbn [xcalls_from base_call_ok] in Hc.
  - destruct Hc as (Ho & _ & Hc). apply (IH sq); [|exact Hc]. apply is_bytes_app; [exact Hm|]. unfold absorbed. destruct f; auto; constructor.
  - destruct c; destruct Hc as (_ & Hc); apply (IH false); auto; constructor.
  - destruct Hc as (_ & Hc). destruct (xt_accepts T q v); [apply (IH false)|apply (IH sq)]; auto; constructor.
  - eapply IH; [exact Hm|]. first [exact Hc|exact (proj2 Hc)].
  - eapply IH; [exact Hm|]. first [exact Hc|exact (proj2 Hc)].
  - eapply IH; [exact Hm|]. first [exact Hc|exact (proj2 Hc)].
Qed.
(** From the computation of the digests to a relation between the inputs. *)
Lemma processes_equal {P} (T : htype P) S {A B} ins (step : sp_params S -> A -> B -> A) iv out (len : list N -> Prop) (R : sp_params S -> list B -> list B -> Prop) :
  processes T S ins step iv out ->
  (forall ops m1 m2, hcalls T ops -> let p := params_after S ops in is_bytes m1 -> is_bytes m2 -> len m1 -> len m2 -> m1 <> m2 ->
     out p (fold_left (step p) (ins p m1) (iv p)) = out p (fold_left (step p) (ins p m2) (iv p)) -> R p (ins p m1) (ins p m2)) ->
  equal_digests T S len ins R.
Proof.
  intros H F g1 g2 ops1 ops2 d G1 G2 C1 C2 EP N L1 L2 E1 E2.
  rewrite (H g1 ops1 G1 C1) in E1. rewrite (H g2 ops2 G2 C2) in E2. cbv zeta in E1, E2. rewrite <- EP in E2.
  apply F; auto using since_bytes. congruence.
Qed.
Lemma xprocesses_equal {P} (T : xtype P) S {A B} ins (step : xs_params S -> A -> B -> A) iv out (len : list N -> Prop) (R : nat -> xs_params S -> list B -> list B -> Prop) :
  xprocesses T S ins step iv out ->
  (forall ops m1 m2 n, xcalls T ops -> let p := xparams_after S ops in is_bytes m1 -> is_bytes m2 -> len m1 -> len m2 -> m1 <> m2 ->
     (0 < n)%nat -> out p (fold_left (step p) (ins p m1) (iv p)) n = out p (fold_left (step p) (ins p m2) (iv p)) n -> R n p (ins p m1) (ins p m2)) ->
  equal_streams T S len ins R.
Proof.
  intros H F g1 g2 ops1 ops2 n d G1 G2 C1 C2 F1 F2 Hn EP N L1 L2 E1 E2.
  rewrite (H g1 ops1 n G1 C1 F1 Hn) in E1. rewrite (H g2 ops2 n G2 C2 F2 Hn) in E2. cbv zeta in E1, E2. rewrite <- EP in E2.
  apply F; auto using xsince_bytes. congruence.
Qed.
Lemma step_or_out {A B} (step : A -> B -> A) (dA : dec A) (dB : dec B) iv out bound ins m1 m2 : suffix_free bound ins ->
  is_bytes m1 -> is_bytes m2 -> below bound m1 -> below bound m2 -> m1 <> m2 ->
  out (fold_left step (ins m1) iv) = out (fold_left step (ins m2) iv) -> in_step_or_out step iv out (ins m1) (ins m2).
Proof.
  intros F M1 M2 L1 L2 N E. destruct (dA (fold_left step (ins m1) iv) (fold_left step (ins m2) iv)) as [X|X].
  - left. eapply suffix_collide; eauto.
  - right. split; [exact X|exact E].
Qed.
Lemma processes_collide {P} (T : htype P) S {A B} ins (step : sp_params S -> A -> B -> A) iv out bound : dec A -> dec B ->
  processes T S ins step iv out -> (forall ops, hcalls T ops -> suffix_free bound (ins (params_after S ops))) ->
  equal_digests T S (below bound) ins (fun p => in_step_or_out (step p) (iv p) (out p)).
Proof.
  intros dA dB H F. apply (processes_equal T S ins step iv out _ _ H). intros ops m1 m2 C p M1 M2 L1 L2 N E.
  apply (step_or_out (step p) dA dB (iv p) (out p) bound (ins p)); auto. apply F. exact C.
Qed.
Lemma xprocesses_collide {P} (T : xtype P) S {A B} ins (step : xs_params S -> A -> B -> A) iv out bound : dec A -> dec B ->
  xprocesses T S ins step iv out -> (forall ops, xcalls T ops -> suffix_free bound (ins (xparams_after S ops))) ->
  equal_streams T S (below bound) ins (fun n p => in_step_or_out (step p) (iv p) (fun A => out p A n)).
Proof.
  intros dA dB H F. apply (xprocesses_equal T S ins step iv out _ _ H). intros ops m1 m2 n C p M1 M2 L1 L2 N Hn E.
  apply (step_or_out (step p) dA dB (iv p) (fun A => out p A n) bound (ins p)); auto. apply F. exact C.
Qed.
Lemma both_collide {P} (T T' : htype P) S {A B} ins (step : sp_params S -> A -> B -> A) iv out bound : dec A -> dec B ->
  both_process T T' S ins step iv out -> (forall p, suffix_free bound (ins p)) ->
  both_equal T T' S (below bound) ins (fun p => in_step_or_out (step p) (iv p) (out p)).
Proof. intros dA dB [H H'] F. split; apply processes_collide; auto. Qed.
(** If the output shows the whole final value, the collision is one of [step]. *)
Lemma full_collide {P} (T : htype P) S {A B} (len : list N -> Prop) ins (step : sp_params S -> A -> B -> A) iv out (Q : A -> Prop) :
  (forall ops, hcalls T ops -> Q (iv (params_after S ops))) ->
  (forall ops m b h, hcalls T ops -> is_bytes m -> len m -> In b (ins (params_after S ops) m) -> Q h -> Q (step (params_after S ops) h b)) ->
  (forall p h1 h2, Q h1 -> Q h2 -> out p h1 = out p h2 -> h1 = h2) ->
  equal_digests T S len ins (fun p => in_step_or_out (step p) (iv p) (out p)) ->
  equal_digests T S len ins (fun p => in_step (step p) (iv p)).
Proof.
  intros Q0 Q1 QI H g1 g2 ops1 ops2 d G1 G2 C1 C2 EP N L1 L2 E1 E2.
  destruct (H g1 g2 ops1 ops2 d G1 G2 C1 C2 EP N L1 L2 E1 E2) as [C|[X Y]]; [exact C|exfalso]. apply X.
  assert (K : forall m h, is_bytes m -> len m -> Q h -> Q (fold_left (step (params_after S ops1)) (ins (params_after S ops1) m) h)).
  { intros m h Hm Lm. assert (G : forall b, In b (ins (params_after S ops1) m) -> forall h, Q h -> Q (step (params_after S ops1) h b)) by eauto.
    revert h G. generalize (ins (params_after S ops1) m) as l. induction l as [|b l IH]; intros h G Hh; cbn [fold_left]; [exact Hh|].
    apply IH; [intros; apply G; [right|]; auto|]. apply G; [left; reflexivity|exact Hh]. }
  apply (QI (params_after S ops1)); auto using since_bytes.
Qed.

(** ** Length fields make the inputs suffix free *)
Lemma blocks_suffix bs p q pre : (0 < bs)%nat -> (length p mod bs = 0)%nat -> (length q mod bs = 0)%nat ->
  blocks bs q = pre ++ blocks bs p -> q = concat pre ++ p.
Proof. intros Hb Hp Hq E. apply (f_equal (@concat N)) in E. rewrite concat_app, !blocks_concat in E by auto. exact E. Qed.
Lemma tail_equal {A} (a b c : list A) : length a = length c -> a = b ++ c -> a = c.
Proof. intros L E. subst a. rewrite app_length in L. destruct b; [reflexivity|cbn in L; lia]. Qed.
Lemma md_pad_end bs l m : md_pad bs l m = (m ++ [128] ++ zeros (md_zeros bs (length l) (length m))) ++ l.
Proof. unfold md_pad. rewrite <- !app_assoc. reflexivity. Qed.
Lemma md_suffix bs enc : (0 < bs)%nat -> (forall x y, length (enc x) = length (enc y)) ->
  (forall x y, x < 2 ^ 64 -> y < 2 ^ 64 -> enc x = enc y -> x = y) -> suffix_free (2 ^ 61) (md_inputs bs enc).
Proof.
  intros Hb HL HI m1 m2 pre M1 M2 L1 L2 E. unfold md_inputs in E. apply blocks_suffix in E; auto using md_pad_mod.
  assert (X : length m1 = length m2).
  { rewrite !md_pad_end, (app_assoc (concat pre)) in E.
    apply app_inj_tail_len in E; [|apply HL]. destruct E as [_ E]. rewrite !bits64 in E by assumption. apply HI in E; lia. }
  assert (Y : bitlen m1 = bitlen m2) by (unfold bitlen; now rewrite X). rewrite Y in E.
  apply tail_equal in E.
  - apply md_pad_inj in E; [|reflexivity]. symmetry. tauto.
  - unfold md_pad. rewrite !app_length, X. reflexivity.
Qed.

Lemma blocks_n_length n bs : forall l, length (blocks_n n bs l) = n.
Proof. induction n as [|n IH]; intros l; cbn [blocks_n length]; [reflexivity|]. now rewrite IH. Qed.
Lemma cons_eq {A} (a b : A) l m : a :: l = b :: m -> a = b /\ l = m.
Proof. intros E. now injection E. Qed.
(** It suffices that the end of the inputs determines their number. *)
Lemma suffix_by_count {B} bound (ins : list N -> list B) :
  (forall m1 m2, is_bytes m1 -> is_bytes m2 -> N.of_nat (length m1) < bound -> N.of_nat (length m2) < bound -> ins m1 = ins m2 -> m1 = m2) ->
  (forall m1 m2 pre, N.of_nat (length m1) < bound -> N.of_nat (length m2) < bound -> ins m2 = pre ++ ins m1 ->
    length (ins m2) = length (ins m1)) -> suffix_free bound ins.
Proof.
  intros I C m1 m2 pre M1 M2 L1 L2 E. apply I; auto. symmetry. apply (tail_equal _ pre); eauto.
Qed.
Lemma last_app_ne {A} (pre l : list A) d : l <> [] -> last (pre ++ l) d = last l d.
Proof.
  intros H. destruct (exists_last H) as (l' & a & ->). rewrite app_assoc, !last_last. reflexivity.
Qed.
Lemma jh_suffix : suffix_free (2 ^ 61) jh_inputs.
Proof.
  apply suffix_by_count; [intros m1 m2 M1 M2 _ _; exact (jh_inputs_inj m1 m2 M1 M2)|]. intros m1 m2 pre L1 L2 E.
  unfold jh_inputs in E. apply blocks_suffix in E; auto using jh_pad_mod; [|lia]. unfold jhs_pad in E.
  rewrite !app_assoc in E. apply app_inj_tail_len in E; [|apply be_enc]. destruct E as [_ E]. rewrite !bits64 in E by assumption.
  apply be_bytes_inj in E; try (eapply N.lt_le_trans with (m := 2 ^ 64); [lia|apply (pow256_mono 16); lia]).
  assert (X : length m1 = length m2) by lia. unfold jh_inputs, blocks. rewrite !blocks_n_length.
  unfold jhs_pad. rewrite !app_length, !zeros_length, !be_bytes_length, X. reflexivity.
Qed.
Lemma groestl_suffix n : suffix_free (2 ^ 61 - 256) (groestl_inputs n).
Proof.
  assert (Hb : (0 < 8 * grs_C n <= 128)%nat) by (unfold grs_C; destruct (n <=? 256); lia).
  assert (Hd : 2 ^ 61 mod N.of_nat (8 * grs_C n) = 0) by (unfold grs_C; destruct (n <=? 256); reflexivity).
  apply suffix_by_count; [intros m1 m2 M1 M2 _ _; exact (groestl_inputs_inj n m1 m2 M1 M2)|]. intros m1 m2 pre L1 L2 E.
  set (bs := (8 * grs_C n)%nat) in *.
  assert (P : forall m, (length (grs_pad bs m) <= length m + 8 + bs + 1)%nat).
  { intros m. unfold grs_pad, md_pad. rewrite !app_length, zeros_length, be_bytes_length. cbn [length]. unfold md_zeros.
    match goal with |- context [(?a mod bs)%nat] => pose proof (Nat.mod_upper_bound a bs ltac:(lia)) end. lia. }
  pose proof (P m1). pose proof (P m2).
  unfold groestl_inputs in *. fold bs in E |- *. apply blocks_suffix in E; [|lia|unfold grs_pad; apply md_pad_mod; lia..].
  unfold grs_pad in E. rewrite !md_pad_end, (app_assoc (concat pre)) in E.
  apply app_inj_tail_len in E; [|apply be_enc]. destruct E as [_ E].
  rewrite !groestl_count_exact in E by (try assumption; lia).
  unfold blocks. rewrite !blocks_n_length.
  assert (G : forall m, (N.of_nat (length m) < 2 ^ 61 - 256) -> N.of_nat (length (grs_pad bs m) / bs) < 256 ^ N.of_nat 8).
  { intros m Hm. change (256 ^ N.of_nat 8) with (2 ^ 64). pose proof (P m).
    assert (length (grs_pad bs m) / bs <= length (grs_pad bs m))%nat by (apply Nat.div_le_upper_bound; nia). lia. }
  apply be_bytes_inj in E; auto. lia.
Qed.
(** Blocks paired with counters: the padded strings. *)
Lemma indexed_suffix {C} bs p q (f g : nat -> C) pre : (0 < bs)%nat -> (length p mod bs = 0)%nat -> (length q mod bs = 0)%nat ->
  map (fun i => (nth_block bs q i, f i)) (seq 0 (length q / bs)) =
  pre ++ map (fun i => (nth_block bs p i, g i)) (seq 0 (length p / bs)) -> q = concat (map fst pre) ++ p.
Proof.
  intros Hb Hp Hq E. apply (f_equal (map fst)) in E. rewrite map_app, !map_fst_pair in E.
  apply (f_equal (@concat N)) in E. rewrite concat_app in E.
  pose proof (Nat.div_mod (length p) bs ltac:(lia)). pose proof (Nat.div_mod (length q) bs ltac:(lia)).
  rewrite !nth_blocks_concat in E by lia. exact E.
Qed.
Lemma echo_suffix n : suffix_free (2 ^ 61) (echo_inputs n).
Proof.
  assert (Hb : (0 < echo_bs n)%nat) by (unfold echo_bs; destruct (n <=? 256); lia).
  apply suffix_by_count; [intros m1 m2 M1 M2 _ _; exact (echo_inputs_inj n m1 m2 M1 M2)|]. intros m1 m2 pre L1 L2 E.
  unfold echo_inputs in E |- *. apply indexed_suffix in E; [|exact Hb|unfold echo_pad; apply md_pad_mod; exact Hb..].
  unfold echo_pad in E. rewrite !md_pad_end, !app_assoc in E. apply app_inj_tail_len in E; [|apply le_enc].
  destruct E as [_ E]. rewrite !bits64 in E by assumption.
  apply le_bytes_inj in E; try (eapply N.lt_le_trans with (m := 2 ^ 64); [lia|apply (pow256_mono 16); lia]).
  assert (X : length m1 = length m2) by lia. rewrite !map_length, !seq_length. unfold echo_pad, md_pad.
  rewrite !app_length, !zeros_length, !le_bytes_length, X. reflexivity.
Qed.
Lemma blake_suffix n : suffix_free (2 ^ 61) (blake_inputs n).
Proof.
  assert (Hb : (0 < bb (blake_w n))%nat /\ (8 <= 2 * wb (blake_w n))%nat).
  { unfold blake_w. destruct (256 <? n); vm_compute; lia. }
  destruct Hb as [Hb Hw].
  apply suffix_by_count; [intros m1 m2 M1 M2; exact (blake_inputs_inj n m1 m2 M1 M2)|]. intros m1 m2 pre L1 L2 E.
  unfold blake_inputs in E |- *. cbv zeta in E |- *. apply indexed_suffix in E; auto using padb_mod.
  unfold padb in E. cbv zeta in E. rewrite !app_assoc in E. apply app_inj_tail_len in E; [|apply be_enc]. destruct E as [_ F].
  apply be_bytes_inj in F; try (eapply N.lt_le_trans; [apply N.mod_lt; discriminate|apply pow256_mono; exact Hw]).
  apply bitlen_inj in F; auto. rewrite !map_length, !seq_length. unfold padb. rewrite !app_length, !be_bytes_length, F. reflexivity.
Qed.
Lemma blake2_last w d : last (blake2_inputs w d) ([], 0, false) =
  (nth_block (bb w) (d ++ zeros (blocks_of w d * bb w - length d)) (blocks_of w d - 1), ctr2 (length d), true).
Proof. unfold blake2_inputs. cbv zeta. rewrite last_last. reflexivity. Qed.
Lemma blake2_suffix w key : w = 64 \/ w = 32 -> (length key <= 128)%nat -> suffix_free (2 ^ 61 - 128) (fun m => blake2_inputs w (key_pad w key ++ m)).
Proof.
  intros Hw Hk. assert (Hb : (0 < bb w <= 128)%nat) by (destruct Hw; subst w; vm_compute; lia).
  assert (K : (length (key_pad w key) <= 128)%nat).
  { unfold key_pad. destruct key; [cbn; lia|]. rewrite app_length, zeros_length. lia. }
  apply suffix_by_count; [intros m1 m2 M1 M2 _ _; exact (blake2_key_inj w key Hw m1 m2 M1 M2)|]. intros m1 m2 pre L1 L2 E.
  apply (f_equal (fun l => snd (fst (last l ([], 0, false))))) in E. rewrite last_app_ne in E.
  - rewrite !blake2_last in E. cbn [fst snd] in E. unfold ctr2 in E. rewrite !app_length, !N.mod_small in E by lia.
    assert (X : length m1 = length m2) by lia. unfold blake2_inputs. cbv zeta.
    rewrite !app_length, !map_length, !seq_length. unfold blocks_of. rewrite !app_length, X. reflexivity.
  - unfold blake2_inputs. cbv zeta. intros Z. apply app_eq_nil in Z. destruct Z. discriminate.
Qed.
Lemma ubi_tweak_pos ty a b l : a < 2 ^ 64 -> ubi_tweak ty a b l mod 2 ^ 64 = a.
Proof.
  intros Hm. unfold ubi_tweak. rewrite (N.mod_small a) by exact Hm.
  replace (a + ty * 2 ^ 120 + (if b then 2 ^ 126 else 0) + (if l then 2 ^ 127 else 0))
    with (a + (ty * 2 ^ 56 + (if b then 2 ^ 62 else 0) + (if l then 2 ^ 63 else 0)) * 2 ^ 64) by (destruct b, l; lia).
  rewrite N.mod_add by discriminate. apply N.mod_small. exact Hm.
Qed.
Lemma skein_last nw ty m : (0 < nw)%nat -> N.of_nat (length m) < 2 ^ 64 ->
  skein_inputs nw ty m <> [] /\ snd (last (skein_inputs nw ty m) ([], 0)) mod 2 ^ 64 = N.of_nat (length m).
Proof.
  intros Hn Hm. unfold skein_inputs. cbv zeta.
  assert (C : (length m <= ubi_count nw (length m) * (8 * nw))%nat /\ (0 < ubi_count nw (length m))%nat).
  { unfold ubi_count. pose proof (Nat.div_mod (length m + 8 * nw - 1) (8 * nw) ltac:(lia)).
    pose proof (Nat.mod_upper_bound (length m + 8 * nw - 1) (8 * nw) ltac:(lia)). nia. }
  destruct C as [C1 C2]. set (k := ubi_count nw (length m)) in *.
  replace (seq 0 k) with (seq 0 (k - 1) ++ [(k - 1)%nat]) by (rewrite <- seq_S; f_equal; lia).
  rewrite map_app. cbn [map]. split.
  - intros Z. apply app_eq_nil in Z. destruct Z. discriminate.
  - rewrite last_last. cbn [snd]. replace (Nat.min (length m) ((k - 1 + 1) * (8 * nw))) with (length m) by nia.
    apply ubi_tweak_pos. exact Hm.
Qed.
Lemma skein_suffix nw ty : (0 < nw)%nat -> ty < 2 ^ 6 -> suffix_free (2 ^ 64) (skein_inputs nw ty).
Proof.
  intros Hn Ht. apply suffix_by_count; [intros m1 m2 _ _ L1 L2; exact (skein_inputs_inj nw ty m1 m2 Hn Ht L1 L2)|]. intros m1 m2 pre L1 L2 E.
  pose proof (skein_last nw ty m1 Hn L1) as [N1 S1]. pose proof (skein_last nw ty m2 Hn L2) as [_ S2].
  rewrite E, last_app_ne, S1 in S2 by exact N1. assert (X : length m1 = length m2) by lia.
  unfold skein_inputs. cbv zeta. rewrite !map_length, !seq_length, X. reflexivity.
Qed.
Lemma streebog_suffix addS : suffix_free (2 ^ 61) (streebog_inputs add64 addS).
Proof.
  apply suffix_by_count; [intros m1 m2 M1 M2 _ _; exact (streebog_inputs_inj add64 addS m1 m2 M1 M2)|]. intros m1 m2 pre L1 L2 E.
  assert (K : forall m, exists a s, streebog_inputs add64 addS m = a ++ [nth (length (sbs_full m) + 1) (streebog_inputs add64 addS m) (0, []); s]).
  { intros m. unfold streebog_inputs at 1. cbv zeta.
    set (a := map _ _). set (x := (_, sbs_last _)). set (y := (_, le_bytes 64 (add64 _ _))). set (s := (0, _)).
    exists (a ++ [x]), s. rewrite <- app_assoc. cbn [app]. do 3 f_equal. unfold streebog_inputs. cbv zeta.
    rewrite app_nth2 by (rewrite map_length, seq_length; lia). rewrite map_length, seq_length.
    replace (length (sbs_full m) + 1 - length (sbs_full m))%nat with 1%nat by lia. reflexivity. }
  destruct (K m1) as (a1 & s1 & K1), (K m2) as (a2 & s2 & K2). rewrite streebog_length_exact in K1, K2 by assumption.
  assert (X : length m1 = length m2).
  { rewrite K1, K2, app_assoc in E. apply app_inj_tail_len in E; [|reflexivity]. destruct E as [_ E].
    apply cons_eq in E. destruct E as [E _]. apply (f_equal snd) in E. cbn [snd] in E.
    apply le_bytes_inj in E; try (eapply N.lt_le_trans with (m := 2 ^ 64); [lia|apply (pow256_mono 64); lia]). lia. }
  unfold streebog_inputs. cbv zeta. rewrite !app_length, !map_length, !seq_length. unfold sbs_full. rewrite !blocks_n_length, X. reflexivity.
Qed.
Lemma blake2p_suffix w key : w = 64 \/ w = 32 -> suffix_free (2 ^ 64) (blake2p_inputs w key).
Proof.
  intros Hw. apply suffix_by_count; [intros m1 m2 _ _ _ _; exact (blake2p_inputs_inj w key m1 m2 Hw)|]. intros m1 m2 pre _ _ _.
  unfold blake2p_inputs. rewrite !map_length. reflexivity.
Qed.
