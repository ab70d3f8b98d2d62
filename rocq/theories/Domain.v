(** * Different functions of one family see different things (C55). *)
From Verif Require Import Base Lemmas WordLemmas TableLemmas SpecCommon Hasher HasherSpec HasherProof Library LibraryProof XLibraryProof LibraryTypes
  LibraryTypesProof MdState Sha2 Sha2Spec Sha2Proof GroestlSpec KupynaSpec JhSpec JhProof StreebogSpec LshSpec KeccakSpec Sha3Spec
  EncodeProof SpongeProof ShakeProof Kmac KmacProof K12 K12Spec K12Proof Ascon AsconSpec AsconProof EschSpec BlakeSpec EchoSpec Inputs PadInj PadInjSponge Process ProcessTypes DomainSpec
  Inj InjArx InjArx2 InjAscon InjEchoJh InjCode.

(** ** Digest sizes in the initial value *)
Definition sizes_to (max : nat) : list N := map (fun i => 8 * N.of_nat i) (seq 1 (max / 8)).
Lemma in_sizes max hs : bits_up_to (N.of_nat (8 * max)) hs -> In hs (sizes_to (8 * max)).
Proof.
  intros (H1 & H2 & H3). pose proof (N.div_mod hs 8 ltac:(discriminate)) as E. rewrite H3, N.add_0_r in E.
  unfold sizes_to. apply in_map_iff. exists (N.to_nat (hs / 8)). split; [lia|]. apply in_seq.
  rewrite (Nat.mul_comm 8), Nat.div_mul by discriminate. generalize dependent (hs / 8). intros q E. lia.
Qed.
Lemma NoDup_map_inj {A B} (f : A -> B) l x y : NoDup (map f l) -> In x l -> In y l -> f x = f y -> x = y.
Proof.
  induction l as [|a l IH]; cbn [map In]; intros H Hx Hy E; [destruct Hx|]. inversion H as [|? ? H1 H2]; subst.
  destruct Hx as [<-|Hx], Hy as [<-|Hy]; auto.
  - exfalso. apply H1. rewrite E. exact (in_map f _ _ Hy).
  - exfalso. apply H1. rewrite <- E. exact (in_map f _ _ Hx).
Qed.
(** The initial value of SHA-512/t as the code computes it, which is quicker to evaluate
    than the definition of the standard; its first words all differ. *)
Definition fast_iv (hs : N) : list N :=
  match sha512_init (mk2 (mkst (repeat 0 8) (repeat 0 128) 0 0) hs) with Ok s => sh (s2 s) | _ => [] end.
Lemma fast_iv_ok hs : bits_up_to 512 hs -> fast_iv hs = tuple8 (iv_of W64 hs).
Proof.
  intros H. destruct (sha2_init_ok W64 hs (mk2 (mkst (repeat 0 8) (repeat 0 128) 0 0) hs) H eq_refl eq_refl) as (m & E & _).
  unfold fast_iv. cbn [sha2_init_T] in E. rewrite E. reflexivity.
Qed.
Definition iv_words : list N :=
  [0x4608e97dec8064f9; 0xc54108858eeef333; 0x1d9af26687c423ec; 0xe6080a58869bc86e; 0xedacf2b64e609615; 0xf728223e0dd1ab64;
   0xa1385a45577359ed; 0x9471c7b86a37ce30; 0x623936f4a1c473b3; 0xec0fac94e8736c85; 0x94dc8f509f6d58e8; 0x3e6bed87ff869b5e;
   0x873f9e235bf73758; 0xd472d67ca318e2a3; 0x6f055844e5b67bd4; 0xc953a21464c3e8cc; 0xedad25e4d2fa5389; 0xd180b1847c587627;
   0xa7b8f71d78295ed1; 0xe1776a8085525b56; 0x8299dafcf270bb6d; 0xf767a39d311c5e28; 0xf9d2ef338604ff6; 0x10176140648b233;
   0xae7852ca3575b7d6; 0xeda832f6a47f6980; 0xbd65c6f46d837639; 0x8c3d37c819544da2; 0x2e465f251acc0329; 0x5245b959615ec027;
   0xef5826adcc57c7e3; 0x22312194fc2bf72c; 0xfcecd0ef95504a9c; 0xe220eca2a941a507; 0xd6a3e0b2ed44dcc2; 0x54c45b1676e83a9a;
   0xe7b915384af024db; 0x1c6b03a202bd1917; 0x477a00b31e093383; 0x5ebb5f84338831ea; 0x658486acd3534367; 0x4045a6c37424a8e7;
   0xd2ad94562da43a12; 0xd0ac7fe4d1fd5b68; 0xc9f9b88bea6b5c5e; 0x9fb19b3523ebc39; 0xdf36907224e18b5; 0xcbbb9d5dc1059ed8;
   0x1f0d7dae3678ae7f; 0x4025548eeddd3dd6; 0xac20821a39069bad; 0x225741c86b8a124e; 0x205ee83aa3910620; 0xe54fff40f5bd9645;
   0x3cf23aa66f93e776; 0x8bdbdbb57b33f2bb; 0xb715bea1bf4e3d56; 0x7c42a2e6866e8c48; 0x193869bc7b8b7646; 0x1bf591c9b0264cf3;
   0x6912afc63d724a7f; 0x7cfb05a714ab22a2; 0x4e657d16161b53ab; 0x6a09e667f3bcc908].
Lemma fast_iv_words : map (fun hs => hd 0 (fast_iv hs)) (sizes_to 512) = iv_words.
Proof. vm_compute. reflexivity. Qed.
Lemma iv_words_differ : NoDup iv_words.
Proof. replace iv_words with (nodup N.eq_dec iv_words) by (vm_compute; reflexivity). apply NoDup_nodup. Qed.
Lemma sha512_sizes hs1 hs2 : bits_up_to 512 hs1 -> bits_up_to 512 hs2 -> iv_of W64 hs1 = iv_of W64 hs2 -> hs1 = hs2.
Proof.
  intros H1 H2 E. apply (NoDup_map_inj (fun hs => hd 0 (fast_iv hs)) (sizes_to 512)).
  - rewrite fast_iv_words. exact iv_words_differ.
  - exact (in_sizes 64 hs1 H1).
  - exact (in_sizes 64 hs2 H2).
  - cbv beta. rewrite !fast_iv_ok by assumption. now rewrite E.
Qed.
Lemma sha256_sizes : iv_224 <> iv_256.
Proof. intros E. apply (f_equal tuple8) in E. rewrite <- iv224_eq, <- iv256_eq in E. discriminate E. Qed.

(** JH: F_8 is injective in the chaining value. *)
Local Transparent jhs_F8.
Lemma jh_F8_inj M : bytes_ok M -> length M = 64%nat -> inj_on jbs (fun H => jhs_F8 H M).
Proof.
  intros Hb Hl A B [LA BA] [LB BB] E. unfold jhs_F8 in E. cbv zeta in E.
  assert (X : length (M ++ zeros 64) = 128%nat) by (rewrite app_length, zeros_length, Hl; reflexivity).
  assert (Y : length (zeros 64 ++ M) = 128%nat) by (rewrite app_length, zeros_length, Hl; reflexivity).
  assert (Z : bytes_ok (M ++ zeros 64)) by (apply bytes_ok_app; [exact Hb|apply bytes_ok_zeros]).
  assert (W : forall H, length H = 128%nat -> bytes_ok H -> jbs (map2 N.lxor H (M ++ zeros 64))).
  { intros H L K. split; [rewrite map2_length, L, X; reflexivity|]. exact (proj2 (xor_lists_word 8 128 _ _ (conj L K) (conj X Z))). }
  apply (xor_lists_inj 128) in E; [|exact Y|apply jhs_degroup_len|apply jhs_degroup_len].
  apply jhs_E8_inj in E; [|apply W; assumption|apply W; assumption].
  apply (xor_lists_inj 128) in E; auto.
Qed.
Lemma jh_sizes hs1 hs2 : bits_up_to 512 hs1 -> bits_up_to 512 hs2 -> jhs_iv hs1 = jhs_iv hs2 -> hs1 = hs2.
Proof.
  intros (_ & H1 & _) (_ & H2 & _) E. unfold jhs_iv in E.
  assert (J : forall n, jbs (be_bytes 2 n ++ zeros 126)).
  { intros n. split; [rewrite app_length, be_bytes_length, zeros_length; reflexivity|]. apply bytes_ok_app; [apply be_bytes_ok|apply bytes_ok_zeros]. }
  apply (jh_F8_inj (zeros 64) (bytes_ok_zeros 64) (zeros_length 64) _ _ (J hs1) (J hs2)) in E.
  apply app_inv_tail in E. apply be_bytes_inj in E; [exact E|cbn; lia|cbn; lia].
Qed.
Lemma lsh_sizes w hs1 hs2 : w = 64 \/ w = 32 -> bits_up_to (8 * w) hs1 -> bits_up_to (8 * w) hs2 -> lss_iv w hs1 = lss_iv w hs2 -> hs1 = hs2.
Proof.
  intros Hw (_ & H1 & _) (_ & H2 & _) E. unfold lss_iv in E.
  assert (J : forall n, n <= 8 * w -> wlist w 16 (w :: n :: zeros 14)).
  { intros n Hn. assert (P : 8 * w < 2 ^ w) by (destruct Hw as [-> | ->]; reflexivity). split; [reflexivity|].
    constructor; [red; lia|]. constructor; [red; lia|]. apply Forall_forall. intros x Hx. apply repeat_spec in Hx. subst x. red. lia. }
  apply (proj1 (lss_CF_inj w (zeros (lss_bs w)) ltac:(tauto) (bytes_ok_zeros _)) _ _ (J hs1 H1) (J hs2 H2)) in E.
  now injection E.
Qed.
Lemma groestl_sizes hs1 hs2 : bits_up_to 512 hs1 -> bits_up_to 512 hs2 -> grs_iv (grs_C hs1) hs1 = grs_iv (grs_C hs2) hs2 -> hs1 = hs2.
Proof.
  intros (_ & H1 & _) (_ & H2 & _) E. unfold grs_iv in E.
  assert (L : grs_C hs1 = grs_C hs2) by (apply (f_equal (@length N)) in E; rewrite !be_bytes_length in E; lia).
  rewrite L in E. assert (P : 512 < 256 ^ N.of_nat (8 * grs_C hs2)) by (unfold grs_C; destruct (_ <=? _); reflexivity).
  apply be_bytes_inj in E; [exact E|lia|lia].
Qed.
Lemma kupyna_sizes hs1 hs2 : In hs1 [256; 512] -> In hs2 [256; 512] -> kus_iv (kus_C hs1) = kus_iv (kus_C hs2) -> hs1 = hs2.
Proof. intros [<-|[<-|[]]] [<-|[<-|[]]] E; try reflexivity; discriminate E. Qed.
Lemma streebog_sizes hs1 hs2 : In hs1 [256; 512] -> In hs2 [256; 512] -> sbs_iv hs1 = sbs_iv hs2 -> hs1 = hs2.
Proof. intros [<-|[<-|[]]] [<-|[<-|[]]] E; try reflexivity; discriminate E. Qed.

Lemma blake_sizes hs1 hs2 : In hs1 [224; 256; 384; 512] -> In hs2 [224; 256; 384; 512] -> blake_IV hs1 = blake_IV hs2 -> hs1 = hs2.
Proof.
  intros [<-|[<-|[<-|[<-|[]]]]] [<-|[<-|[<-|[<-|[]]]]] E; try reflexivity; exfalso; apply (f_equal (hd 0)) in E; vm_compute in E; discriminate E.
Qed.
Lemma echo_sizes hs1 hs2 : bits_up_to 512 hs1 -> bits_up_to 512 hs2 ->
  repeat (le_bytes 16 hs1) (echo_words hs1) = repeat (le_bytes 16 hs2) (echo_words hs2) -> hs1 = hs2.
Proof.
  intros (_ & H1 & _) (_ & H2 & _) E.
  assert (P : forall n, exists k, echo_words n = S k) by (intros n; unfold echo_words; destruct (_ <=? _); eexists; reflexivity).
  destruct (P hs1) as [k1 K1], (P hs2) as [k2 K2]. rewrite K1, K2 in E. cbn [repeat] in E. apply cons_eq in E. destruct E as [E _].
  apply (f_equal le_word) in E. rewrite !le_word_bytes in E.
  rewrite !N.mod_small in E by (apply N.le_lt_trans with 512; [assumption|reflexivity]). exact E.
Qed.

(** ** Ascon and Esch *)
Lemma ascon_starts t1 t2 : ascon_start t1 = ascon_start t2 -> t1 = t2.
Proof.
  intros E. unfold ascon_start in E.
  assert (J : forall t, as_ok [ascon_iv_word t; 0; 0; 0; 0]) by (intros []; split; [reflexivity|repeat constructor|reflexivity|repeat constructor|reflexivity|repeat constructor]).
  apply (proj1 (ascon_p_inj 12) _ _ (J t1) (J t2)) in E. destruct t1, t2; try reflexivity; discriminate E.
Qed.
Lemma esch_domains x1 x2 m1 m2 : is_bytes m1 -> is_bytes m2 -> esch_inputs x1 m1 = esch_inputs x2 m2 -> x1 = x2 /\ m1 = m2.
Proof.
  intros M1 M2 E. assert (X : x1 = x2).
  { unfold esch_inputs in E. cbv zeta in E. apply app_inj_tail in E. destruct E as [_ E]. injection E as E _.
    destruct x1, x2, (_ =? _)%nat, (_ =? _)%nat in E; try reflexivity; discriminate E. }
  subst x2. split; [reflexivity|]. exact (esch_inputs_inj x1 m1 m2 M1 M2 E).
Qed.

(** ** Keccak: blocks as they are added to the whole state *)
Lemma blocks_lengths r p : (0 < r)%nat -> (length p mod r = 0)%nat -> Forall (fun b => length b = r) (blocks r p).
Proof.
  intros Hr Hm. unfold blocks. pose proof (Nat.div_mod (length p) r ltac:(lia)) as E. rewrite Hm, Nat.add_0_r, Nat.mul_comm in E.
  revert E. generalize (length p / r)%nat as n. intros n. revert p Hm. induction n as [|n IH]; intros p Hm E; cbn [blocks_n]; [constructor|].
  constructor.
  - rewrite firstn_length. lia.
  - apply IH.
    + rewrite skipn_length, E. replace (S n * r - r)%nat with (n * r)%nat by lia. apply Nat.mod_mul. lia.
    + rewrite skipn_length. lia.
Qed.
Lemma last_block r q x : (0 < r)%nat -> (length (q ++ [x]) mod r = 0)%nat -> exists i b, blocks r (q ++ [x]) = i ++ [b ++ [x]] /\ S (length b) = r.
Proof.
  intros Hr Hm. pose proof (blocks_lengths r _ Hr Hm) as L. pose proof (blocks_concat r _ Hr Hm) as C.
  destruct (blocks r (q ++ [x])) as [|b0 bs] eqn:E0; [destruct q; discriminate C|]. rewrite <- E0 in *.
  destruct (@exists_last _ (blocks r (q ++ [x]))) as (i & b & E); [rewrite E0; discriminate|]. rewrite E in *.
  apply Forall_app in L. destruct L as [_ L]. inversion L as [|? ? Lb _]; subst.
  destruct b as [|b1 br] eqn:Eb; [cbn in Hr; lia|]. rewrite <- Eb in *.
  destruct (@exists_last _ b) as (b' & y & E'); [rewrite Eb; discriminate|].
  rewrite E', concat_app in C. cbn [concat] in C. rewrite app_nil_r, app_assoc in C. apply app_inj_tail in C. destruct C as [_ ->].
  exists i, b'. rewrite E'. split; [reflexivity|]. rewrite app_length. cbn. lia.
Qed.
Lemma to_state_inj a b : length a = length b -> to_state a = to_state b -> a = b.
Proof. intros L E. unfold to_state in E. rewrite L in E. apply app_inv_tail in E. exact E. Qed.
Lemma to_state_rate a b x y : x <> 0 -> y <> 0 -> to_state (a ++ [x]) = to_state (b ++ [y]) -> length a = length b.
Proof.
  unfold to_state. assert (K : forall a b x y, x <> 0 -> (a ++ [x]) ++ zeros (200 - length (a ++ [x])) = (b ++ [y]) ++ zeros (200 - length (b ++ [y])) ->
    (length a <= length b)%nat).
  { clear. intros a b x y Hx E. destruct (Nat.le_gt_cases (length a) (length b)) as [H|H]; [exact H|exfalso].
    apply (f_equal (fun l => nth (length a) l 0)) in E. rewrite <- app_assoc in E.
    rewrite app_nth2, Nat.sub_diag in E by lia. cbn [app nth] in E. rewrite app_nth2 in E by (rewrite app_length; cbn; lia).
    unfold zeros in E. rewrite nth_repeat in E. congruence. }
  intros Hx Hy E. apply Nat.le_antisymm; [eapply (K a b x y)|eapply (K b a y x)]; auto.
Qed.
Lemma map_eq_inj {A B} (f : A -> B) (P : A -> Prop) : (forall x y, P x -> P y -> f x = f y -> x = y) ->
  forall l l', Forall P l -> Forall P l' -> map f l = map f l' -> l = l'.
Proof.
  intros F. induction l as [|a l IH]; intros [|b l'] H H' E; try discriminate; [reflexivity|].
  inversion H; inversion H'; subst. cbn [map] in E. injection E as E1 E2. f_equal; auto.
Qed.
Lemma wide_inj r1 r2 q1 q2 x1 x2 : (0 < r1)%nat -> (0 < r2)%nat -> x1 <> 0 -> x2 <> 0 ->
  (length (q1 ++ [x1]) mod r1 = 0)%nat -> (length (q2 ++ [x2]) mod r2 = 0)%nat ->
  map to_state (blocks r1 (q1 ++ [x1])) = map to_state (blocks r2 (q2 ++ [x2])) ->
  r1 = r2 /\ blocks r1 (q1 ++ [x1]) = blocks r2 (q2 ++ [x2]).
Proof.
  intros R1 R2 X1 X2 M1 M2 E.
  pose proof (blocks_lengths r1 _ R1 M1) as L1. pose proof (blocks_lengths r2 _ R2 M2) as L2.
  destruct (last_block r1 q1 x1 R1 M1) as (i1 & b1 & E1 & B1). destruct (last_block r2 q2 x2 R2 M2) as (i2 & b2 & E2 & B2).
  rewrite E1, E2 in E. rewrite E1 in L1. rewrite E2 in L2. rewrite E1, E2. assert (X : r1 = r2).
  { pose proof E as E'. rewrite !map_app in E'. apply app_inj_tail in E'. destruct E' as [_ E']. apply to_state_rate in E'; auto. lia. }
  split; [exact X|]. clear B1 B2. subst r2. apply (map_eq_inj to_state (fun b => length b = r1)); auto.
  intros a b Ha Hb. apply to_state_inj. congruence.
Qed.
Lemma pad_bytes_last r D m : dom_range D = true -> exists q x, pad_bytes r D m = q ++ [x] /\ x <> 0.
Proof.
  intros H. destruct (dom_lor D H) as (A & _ & B). unfold pad_bytes, dpad. destruct (_ =? 1)%nat.
  - exists m, (N.lor D 128). split; [reflexivity|lia].
  - eexists _, 128. split; [rewrite !(app_assoc _ _ [128]); reflexivity|discriminate].
Qed.
Lemma keccak_wide_inj r1 r2 s1 s2 m1 m2 : (0 < r1)%nat -> (0 < r2)%nat -> (length s1 <= 6)%nat -> (length s2 <= 6)%nat ->
  dom_range (suffix_byte s1) = true -> dom_range (suffix_byte s2) = true -> is_bytes m1 -> is_bytes m2 ->
  map to_state (keccak_inputs r1 s1 m1) = map to_state (keccak_inputs r2 s2 m2) ->
  r1 = r2 /\ m1 = m2 /\ suffix_byte s1 = suffix_byte s2.
Proof.
  intros R1 R2 L1 L2 D1 D2 H1 H2 E. rewrite !keccak_inputs_pad in E by auto.
  destruct (pad_bytes_last r1 _ m1 D1) as (q1 & x1 & E1 & X1). destruct (pad_bytes_last r2 _ m2 D2) as (q2 & x2 & E2 & X2).
  pose proof (pad_bytes_mod r1 (suffix_byte s1) m1 R1) as M1. pose proof (pad_bytes_mod r2 (suffix_byte s2) m2 R2) as M2.
  rewrite E1 in E, M1. rewrite E2 in E, M2. apply wide_inj in E; auto. destruct E as [-> E]. rewrite <- E1, <- E2 in E.
  split; [reflexivity|]. rewrite <- E1 in M1. rewrite <- E2 in M2. apply blocks_inj in E; auto. apply pad_bytes_inj in E; auto.
Qed.
Lemma turbo_wide_inj r1 r2 D1 D2 m1 m2 : (0 < r1)%nat -> (0 < r2)%nat -> dom_range D1 = true -> dom_range D2 = true ->
  map to_state (turbo_inputs r1 D1 m1) = map to_state (turbo_inputs r2 D2 m2) -> r1 = r2 /\ D1 = D2 /\ m1 = m2.
Proof.
  intros R1 R2 H1 H2 E. unfold turbo_inputs in E. rewrite !turbo_pad_eq in E by auto.
  destruct (pad_bytes_last r1 D1 m1 H1) as (q1 & x1 & E1 & X1). destruct (pad_bytes_last r2 D2 m2 H2) as (q2 & x2 & E2 & X2).
  pose proof (pad_bytes_mod r1 D1 m1 R1) as M1. pose proof (pad_bytes_mod r2 D2 m2 R2) as M2.
  rewrite E1 in E, M1. rewrite E2 in E, M2. apply wide_inj in E; auto. destruct E as [-> E]. rewrite <- E1, <- E2 in E.
  split; [reflexivity|]. rewrite <- E1 in M1. rewrite <- E2 in M2. apply blocks_inj in E; auto. apply pad_bytes_inj in E; auto. tauto.
Qed.
Lemma wide_fold nr r l A : Forall (fun b => length b = r) l ->
  fold_left (absorb_state nr) (map to_state l) A = fold_left (absorb_block nr r) l A.
Proof.
  intros H. revert A. induction H as [|b l Hb _ IH]; intros A; [reflexivity|]. cbn [map fold_left]. rewrite IH. f_equal.
  unfold absorb_state, absorb_block, to_state. rewrite Hb. reflexivity.
Qed.


(** ** The functions with 24 rounds *)
Definition kf_suffix (f : keccak_fn) : list bool :=
  match f with FSha3 _ => [false; true] | FShake _ => [true; true; true; true] | _ => [false; false] end.
Definition kf_body (f : keccak_fn) (m : list N) : list N :=
  match f with
  | FSha3 _ | FShake _ => m
  | FCshake sec name cust => code_bytepad (encode_string name ++ encode_string cust) (200 - 2 * sec) ++ m
  | FKmac sec L key cust => code_bytepad (encode_string KMAC_name ++ encode_string cust) (200 - 2 * sec) ++ kmac_input sec key m L
  end.
Lemma kf_inputs_eq f m : kf_ok f -> kf_inputs f m = keccak_inputs (kf_rate f) (kf_suffix f) (kf_body f m).
Proof.
  destruct f as [hs|sec|sec name cust|sec L key cust]; intros H; try reflexivity.
  destruct H as (_ & _ & _ & H & _). cbn [kf_inputs kf_rate kf_suffix kf_body]. unfold cshake_inputs.
  destruct name; [destruct cust; [congruence|]|]; reflexivity.
Qed.
Lemma KMAC_short : short KMAC_name.
Proof. split; [repeat constructor|reflexivity]. Qed.
Lemma kmac_input_bytes sec key m L : (sec < 100)%nat -> short key -> is_bytes m -> L < 2 ^ 64 -> is_bytes (kmac_input sec key m L).
Proof.
  intros Hs [Hk _] Hm HL. unfold kmac_input. apply is_bytes_app; [apply pad_ok; [exact bytepad_pads|lia|apply encode_string_ok; exact Hk]|].
  apply is_bytes_app; [exact Hm|]. pose proof (left_enc_ok L HL) as K. unfold left_enc in K. inversion K; subst.
  apply is_bytes_app; [assumption|]. constructor; [assumption|constructor].
Qed.
Lemma kf_body_bytes f m : kf_ok f -> is_bytes m -> is_bytes (kf_body f m).
Proof.
  assert (K : forall sec a b, (sec < 100)%nat -> short a -> short b -> is_bytes (code_bytepad (encode_string a ++ encode_string b) (200 - 2 * sec))).
  { intros sec a b Hs [Ha _] [Hb _]. apply pad_ok; [exact code_bytepad_pads|lia|]. apply is_bytes_app; apply encode_string_ok; assumption. }
  destruct f as [hs|sec|sec name cust|sec L key cust]; intros H Hm; try exact Hm; cbn [kf_body].
  - destruct H as (Hs & Hn & Hc & _). apply is_bytes_app; [apply K; auto; lia|exact Hm].
  - destruct H as (Hs & HL & Hk & Hc). apply is_bytes_app; [apply K; auto using KMAC_short; lia|apply kmac_input_bytes; auto; lia].
Qed.
Lemma kf_rate_pos f : kf_ok f -> (0 < kf_rate f <= 200)%nat.
Proof.
  destruct f as [hs|sec|sec name cust|sec L key cust]; cbn [kf_ok kf_rate]; intros H; [|lia..].
  destruct H as [<-|[<-|[<-|[<-|[]]]]]; vm_compute; lia.
Qed.
Lemma kf_suffix_ok f : (length (kf_suffix f) <= 6)%nat /\ dom_range (suffix_byte (kf_suffix f)) = true.
Proof. destruct f; split; try reflexivity; cbn; lia. Qed.
Lemma kf_separate f1 f2 m1 m2 : kf_ok f1 -> kf_ok f2 -> is_bytes m1 -> is_bytes m2 ->
  map to_state (kf_inputs f1 m1) = map to_state (kf_inputs f2 m2) -> f1 = f2 /\ m1 = m2.
Proof.
  intros K1 K2 M1 M2 E. rewrite !kf_inputs_eq in E by assumption.
  apply keccak_wide_inj in E; auto using kf_body_bytes; try apply kf_rate_pos; try apply kf_suffix_ok; auto.
  destruct E as (ER & EB & ES).
  destruct f1 as [hs1|sec1|sec1 n1 c1|sec1 L1 k1 c1], f2 as [hs2|sec2|sec2 n2 c2|sec2 L2 k2 c2];
    try (exfalso; vm_compute in ES; discriminate ES); cbn [kf_ok] in K1, K2.
  - cbn [kf_body] in EB. subst m2. split; [|reflexivity]. f_equal. cbn [kf_rate] in ER.
    destruct K1 as [<-|[<-|[<-|[<-|[]]]]], K2 as [<-|[<-|[<-|[<-|[]]]]]; try reflexivity; vm_compute in ER; discriminate ER.
  - cbn [kf_body] in EB. subst m2. split; [|reflexivity]. f_equal. cbn [kf_rate] in ER. lia.
  - assert (sec1 = sec2) by (cbn [kf_rate] in ER; lia). subst sec2. destruct K1 as (S1 & N1 & C1 & _), K2 as (S2 & N2 & C2 & _).
    cbn [kf_body] in EB. apply pad2_prefix in EB; auto using code_bytepad_pads. destruct EB as (-> & -> & ->). auto.
  - exfalso. assert (sec1 = sec2) by (cbn [kf_rate] in ER; lia). subst sec2. destruct K1 as (S1 & N1 & C1 & _ & NK), K2 as (S2 & HL & HK & C2).
    cbn [kf_body] in EB. apply pad2_prefix in EB; auto using code_bytepad_pads, KMAC_short. tauto.
  - exfalso. assert (sec1 = sec2) by (cbn [kf_rate] in ER; lia). subst sec2. destruct K2 as (S1 & N1 & C1 & _ & NK), K1 as (S2 & HL & HK & C2).
    cbn [kf_body] in EB. apply pad2_prefix in EB; auto using code_bytepad_pads, KMAC_short. destruct EB as (EB & _). congruence.
  - assert (sec1 = sec2) by (cbn [kf_rate] in ER; lia). subst sec2. destruct K1 as (S1 & HL1 & HK1 & C1), K2 as (S2 & HL2 & HK2 & C2).
    cbn [kf_body] in EB. apply pad2_prefix in EB; auto using code_bytepad_pads, KMAC_short. destruct EB as (_ & -> & EB).
    unfold kmac_input in EB. apply (pad1_prefix bytepad) in EB; auto using bytepad_pads. destruct EB as [-> EB].
    apply right_enc_suffix in EB. destruct EB as [-> ->]. auto.
Qed.
(** What the sponge absorbs are these blocks. *)
Lemma bytes_of_bits_n_length n : forall l, length (bytes_of_bits_n n l) = n.
Proof. induction n as [|n IH]; intros l; cbn [bytes_of_bits_n length]; [reflexivity|]. now rewrite IH. Qed.
Lemma pad101_mod x m : (0 < x)%nat -> ((m + length (pad101 x m)) mod x = 0)%nat.
Proof.
  intros Hx. unfold pad101. cbn [length]. rewrite app_length, repeat_length. cbn [length].
  pose proof (Nat.div_mod (m + 2) x ltac:(lia)) as E. pose proof (Nat.mod_upper_bound (m + 2) x ltac:(lia)) as B.
  set (q := ((m + 2) / x)%nat) in *. set (t := ((m + 2) mod x)%nat) in *. clearbody q t.
  destruct (Nat.eq_dec t 0) as [-> | Ht].
  - rewrite Nat.sub_0_r, Nat.mod_same by lia. replace (m + S (0 + 1))%nat with (q * x)%nat by lia. apply Nat.mod_mul. lia.
  - rewrite (Nat.mod_small (x - t)) by lia. replace (m + S (x - t + 1))%nat with ((q + 1) * x)%nat by nia. apply Nat.mod_mul. lia.
Qed.
Lemma keccak_lengths r s m : (0 < r)%nat -> Forall (fun b => length b = r) (keccak_inputs r s m).
Proof.
  intros Hr. unfold keccak_inputs. cbv zeta. apply blocks_lengths; [exact Hr|]. unfold bytes_of_bits. rewrite bytes_of_bits_n_length, app_length.
  set (M := bits_of_bytes m ++ s). pose proof (pad101_mod (8 * r) (length M) ltac:(lia)) as H.
  apply Nat.mod_divides in H; [|lia]. destruct H as [k H]. rewrite H.
  replace (8 * r * k)%nat with (k * r * 8)%nat by lia. rewrite Nat.div_mul by lia. apply Nat.mod_mul. lia.
Qed.
Lemma cshake_lengths pad sec p m : (sec < 100)%nat -> Forall (fun b => length b = (200 - 2 * sec)%nat) (cshake_inputs pad sec p m).
Proof.
  intros Hs. unfold cshake_inputs. cbv zeta. destruct p as [fn cust]. destruct fn; [destruct cust|]; apply keccak_lengths; lia.
Qed.
Lemma kf_absorb f m A : kf_ok f \/ (exists n c, f = FCshake 16 n c \/ f = FCshake 32 n c) \/ (exists L k c, f = FKmac 16 L k c \/ f = FKmac 32 L k c) ->
  fold_left (absorb_state 24) (map to_state (kf_inputs f m)) A = fold_left (absorb_block 24 (kf_rate f)) (kf_inputs f m) A.
Proof.
  intros K. apply wide_fold. destruct K as [K|[(n & c & K)|(L & k & c & K)]].
  - rewrite kf_inputs_eq by assumption. apply keccak_lengths. pose proof (kf_rate_pos f K). lia.
  - destruct K as [-> | ->]; apply cshake_lengths; lia.
  - destruct K as [-> | ->]; apply cshake_lengths; lia.
Qed.
Lemma processes_refold {P} (T : htype P) S {A B C} ins (step : sp_params S -> A -> B -> A) iv out ins' (step' : sp_params S -> A -> C -> A) iv' :
  processes T S ins step iv out -> (forall p m, fold_left (step' p) (ins' p m) (iv' p) = fold_left (step p) (ins p m) (iv p)) ->
  processes T S ins' step' iv' out.
Proof. intros H E g ops Hg Hc. rewrite (H g ops Hg Hc). cbv zeta. rewrite E. reflexivity. Qed.
Lemma xprocesses_refold {P} (T : xtype P) S {A B C} ins (step : xs_params S -> A -> B -> A) iv out ins' (step' : xs_params S -> A -> C -> A) iv' :
  xprocesses T S ins step iv out -> (forall p m, fold_left (step' p) (ins' p m) (iv' p) = fold_left (step p) (ins p m) (iv p)) ->
  xprocesses T S ins' step' iv' out.
Proof. intros H E g ops n Hg Hc Hf Hn. rewrite (H g ops n Hg Hc Hf Hn). cbv zeta. rewrite E. reflexivity. Qed.
Lemma both_refold {P} (T T' : htype P) S {A B C} ins (step : sp_params S -> A -> B -> A) iv out ins' (step' : sp_params S -> A -> C -> A) iv' :
  both_process T T' S ins step iv out -> (forall p m, fold_left (step' p) (ins' p m) (iv' p) = fold_left (step p) (ins p m) (iv p)) ->
  both_process T T' S ins' step' iv' out.
Proof. intros [H H'] E. split; eapply processes_refold; eassumption. Qed.

(** ** KangarooTwelve, KT256 and their TurboSHAKE calls *)
Lemma turbo_lengths r D M : (0 < r)%nat -> dom_range D = true -> Forall (fun b => length b = r) (turbo_inputs r D M).
Proof. intros Hr HD. unfold turbo_inputs. rewrite turbo_pad_eq by assumption. apply blocks_lengths; [exact Hr|apply pad_bytes_mod; exact Hr]. Qed.
Lemma kt_shape nr sec cs c m : exists i D X, kt_inputs nr sec cs c m = i ++ [turbo_inputs (200 - 2 * sec) D X] /\ dom_range D = true /\
  forall l, In l i -> exists Y, l = turbo_inputs (200 - 2 * sec) 11 Y.
Proof.
  unfold kt_inputs. cbv zeta. destruct (_ <=? _)%nat.
  - eexists [], 7, _. split; [reflexivity|]. split; [reflexivity|]. intros l [].
  - eexists _, 6, _. split; [reflexivity|]. split; [reflexivity|]. intros l Hl. apply in_map_iff in Hl. destruct Hl as (j & <- & _). eexists; reflexivity.
Qed.
Lemma kt_lengths nr sec cs c m : (sec < 100)%nat -> Forall (Forall (fun b => length b = (200 - 2 * sec)%nat)) (kt_inputs nr sec cs c m).
Proof.
  intros Hs. destruct (kt_shape nr sec cs c m) as (i & D & X & -> & HD & Hi). apply Forall_app. split.
  - apply Forall_forall. intros l Hl. destruct (Hi l Hl) as [Y ->]. apply turbo_lengths; [lia|reflexivity].
  - constructor; [apply turbo_lengths; [lia|exact HD]|constructor].
Qed.
Lemma kt_separate nr sec1 sec2 c1 c2 m1 m2 : (sec1 < 100)%nat -> (sec2 < 100)%nat -> short c1 -> short c2 ->
  map (map to_state) (kt_inputs nr sec1 (N.to_nat 8192) c1 m1) = map (map to_state) (kt_inputs nr sec2 (N.to_nat 8192) c2 m2) ->
  sec1 = sec2 /\ c1 = c2 /\ m1 = m2.
Proof.
  generalize (kt_inputs_code nr sec1 c1 c2 m1 m2).
  generalize (N.to_nat 8192). intros cs KI S1 S2 C1 C2 E.
  assert (X : sec1 = sec2).
  { destruct (kt_shape nr sec1 cs c1 m1) as (i1 & D1 & X1 & E1 & HD1 & _), (kt_shape nr sec2 cs c2 m2) as (i2 & D2 & X2 & E2 & HD2 & _).
    rewrite E1, E2, !map_app in E. cbn [map] in E. apply app_inj_tail in E. destruct E as [_ E].
    apply turbo_wide_inj in E; auto; lia. }
  subst sec2. split; [reflexivity|]. apply KI; auto.
  apply (map_eq_inj (map to_state) (Forall (fun b => length b = (200 - 2 * sec1)%nat))); auto using kt_lengths.
  intros x y Hx Hy Exy. apply (map_eq_inj to_state (fun b => length b = (200 - 2 * sec1)%nat)); auto.
  intros a b Ha Hb. apply to_state_inj. lia.
Qed.
Lemma k12_wide B nr sec : In (B, nr, sec) [(128, 12, 16); (256, 14, 32); (256, 12, 32)]%nat ->
  xprocesses (k12_type (N.of_nat B) nr) (kt_spec k12_param nr sec)
    (fun p m => map (map to_state) (kt_inputs nr sec (N.to_nat 8192) p m))
    (fun _ (_ : list N) blocks => fold_left (absorb_state nr) blocks (zeros 25)) (fun _ => zeros 25)
    (fun _ A n => keccak_out nr (200 - 2 * sec) n A).
Proof.
  intros H. eapply xprocesses_refold; [exact (k12_processes B nr sec H)|]. intros p m. cbv beta.
  assert (Hs : (sec < 100)%nat) by (destruct H as [E|[E|[E|[]]]]; injection E as <- <- <-; lia). clear H.
  generalize (N.to_nat 8192). intros cs. generalize (kt_lengths nr sec cs p m Hs). generalize (kt_inputs nr sec cs p m). intros l F.
  
  cut (forall A, fold_left (fun (_ : list N) blocks => fold_left (absorb_state nr) blocks (zeros 25)) (map (map to_state) l) A
    = fold_left (kt_step nr (200 - 2 * sec)) l A); [intros G; exact (G (zeros 25))|].
  induction F as [|x l Hx _ IH]; intros A; [reflexivity|]. cbn [map fold_left]. rewrite IH. f_equal.
  unfold kt_step. apply wide_fold. exact Hx.
Qed.

(** ** The code absorbs these blocks *)
Lemma sha3_wide hs : In hs [224; 256; 384; 512] ->
  both_process (sha3_type hs) (sha3_static_type hs) (sha3_spec (N.to_nat (hs / 8)))
    (fun _ m => map to_state (kf_inputs (FSha3 hs) m)) (fun _ => absorb_state 24) (fun _ => zeros 25)
    (fun _ => keccak_out 24 (200 - 2 * N.to_nat (hs / 8)) (N.to_nat (hs / 8))).
Proof.
  intros H. eapply (both_refold _ _ _ (fun _ m => keccak_inputs (200 - 2 * N.to_nat (hs / 8)) [false; true] m)
    (fun _ => absorb_block 24 (200 - 2 * N.to_nat (hs / 8))) (fun _ => zeros 25)).
  - apply both_from; [exact (conj (good_sha3 hs H) (good_sha3_static hs H))|reflexivity].
  - intros p m. exact (kf_absorb (FSha3 hs) m (zeros 25) (or_introl H)).
Qed.
Lemma shake_wide :
  xprocesses (shake_type 128) (shake_spec 16) (fun _ m => map to_state (kf_inputs (FShake 16) m))
    (fun _ => absorb_state 24) (fun _ => zeros 25) (fun _ A n => keccak_out 24 168 n A) /\
  xprocesses (shake_type 256) (shake_spec 32) (fun _ m => map to_state (kf_inputs (FShake 32) m))
    (fun _ => absorb_state 24) (fun _ => zeros 25) (fun _ A n => keccak_out 24 136 n A).
Proof.
  split.
  - eapply (xprocesses_refold _ _ (fun _ => keccak_inputs 168 [true; true; true; true]) (fun _ => absorb_block 24 168) (fun _ => zeros 25)).
    + apply xgood_processes; [apply (xgood_shake 128 21 16); [lia|reflexivity|reflexivity]|reflexivity].
    + intros p m. exact (kf_absorb (FShake 16) m (zeros 25) (or_introl (or_introl eq_refl))).
  - eapply (xprocesses_refold _ _ (fun _ => keccak_inputs 136 [true; true; true; true]) (fun _ => absorb_block 24 136) (fun _ => zeros 25)).
    + apply xgood_processes; [apply (xgood_shake 256 17 32); [lia|reflexivity|reflexivity]|reflexivity].
    + intros p m. exact (kf_absorb (FShake 32) m (zeros 25) (or_introl (or_intror eq_refl))).
Qed.
Lemma cshake_wide :
  xprocesses (cshake_type 128) (cshake_spec 16) (fun p m => map to_state (kf_inputs (FCshake 16 (fst p) (snd p)) m))
    (fun _ => absorb_state 24) (fun _ => zeros 25) (fun _ A n => keccak_out 24 168 n A) /\
  xprocesses (cshake_type 256) (cshake_spec 32) (fun p m => map to_state (kf_inputs (FCshake 32 (fst p) (snd p)) m))
    (fun _ => absorb_state 24) (fun _ => zeros 25) (fun _ A n => keccak_out 24 136 n A).
Proof.
  split; eapply xprocesses_refold; [exact (proj1 cshake_processes)| |exact (proj2 cshake_processes)|]; intros [fn cust] m; cbn [fst snd].
  - refine (kf_absorb (FCshake 16 fn cust) m (zeros 25) _). right. left. eauto.
  - refine (kf_absorb (FCshake 32 fn cust) m (zeros 25) _). right. left. eauto.
Qed.
Lemma kmac_wide hs : bits_up_to (2 ^ 64 - 1) hs ->
  both_process (kmac_type 128 hs) (kmac_static_type 128 hs) (kmac_spec 16 hs)
    (fun p m => map to_state (kf_inputs (FKmac 16 hs (fst p) (snd p)) m))
    (fun _ => absorb_state 24) (fun _ => zeros 25) (fun _ => keccak_out 24 168 (N.to_nat (hs / 8))) /\
  both_process (kmac_type 256 hs) (kmac_static_type 256 hs) (kmac_spec 32 hs)
    (fun p m => map to_state (kf_inputs (FKmac 32 hs (fst p) (snd p)) m))
    (fun _ => absorb_state 24) (fun _ => zeros 25) (fun _ => keccak_out 24 136 (N.to_nat (hs / 8))).
Proof.
  intros H. split; eapply both_refold; [exact (proj1 (kmac_processes hs H))| |exact (proj2 (kmac_processes hs H))|]; intros [key cust] m; cbn [fst snd].
  - refine (kf_absorb (FKmac 16 hs key cust) m (zeros 25) _). right. right. eauto.
  - refine (kf_absorb (FKmac 32 hs key cust) m (zeros 25) _). right. right. eauto.
Qed.
Lemma kmacxof_wide :
  xprocesses (kmacxof_type 128) (kmacxof_spec 16) (fun p m => map to_state (kf_inputs (FKmac 16 0 (fst p) (snd p)) m))
    (fun _ => absorb_state 24) (fun _ => zeros 25) (fun _ A n => keccak_out 24 168 n A) /\
  xprocesses (kmacxof_type 256) (kmacxof_spec 32) (fun p m => map to_state (kf_inputs (FKmac 32 0 (fst p) (snd p)) m))
    (fun _ => absorb_state 24) (fun _ => zeros 25) (fun _ A n => keccak_out 24 136 n A).
Proof.
  split; eapply xprocesses_refold; [exact (proj1 kmacxof_processes)| |exact (proj2 kmacxof_processes)|]; intros [key cust] m; cbn [fst snd].
  - refine (kf_absorb (FKmac 16 0 key cust) m (zeros 25) _). right. right. eauto.
  - refine (kf_absorb (FKmac 32 0 key cust) m (zeros 25) _). right. right. eauto.
Qed.
