(** * Equal outputs of sponges (C56). *)
From Verif Require Import Base Lemmas WordLemmas TableLemmas SpecCommon Hasher HasherSpec HasherProof Library LibraryProof XLibraryProof LibraryTypes
  LibraryTypesProof Inputs PadInj PadInjSponge Process ProcessTypes Bind BindTypes KeccakSpec SpongeProof EncodeProof Sha3Spec Sha3Proof AsconSpec AsconProof K12Spec K12Proof ShakeProof KmacProof
  Inj InjKeccak InjAscon Domain CollideSpec Collide.

Lemma sponge_collide {A B C} (step : A -> B -> A) (dA : dec A) iv (inner : A -> C) out (Q : A -> Prop) (V : B -> Prop) l1 l2 :
  dec (list B) -> Q iv -> (forall a b, Q a -> V b -> Q (step a b)) ->
  (forall a1 a2 b1 b2, Q a1 -> Q a2 -> V b1 -> V b2 -> step a1 b1 = step a2 b2 -> inner a1 = inner a2 /\ (a1 = a2 -> b1 = b2)) ->
  Forall V l1 -> Forall V l2 -> l1 <> [] -> l2 <> [] -> l1 <> l2 -> out (fold_left step l1 iv) = out (fold_left step l2 iv) ->
  inner_or_out step iv inner out l1 l2.
Proof.
  intros dB Q0 Q1 I V1 V2 N1 N2 N E. destruct (dA (fold_left step l1 iv) (fold_left step l2 iv)) as [X|X]; [left|right; split; assumption].
  destruct (exists_last N1) as (q1 & b1 & ->), (exists_last N2) as (q2 & b2 & ->). unfold inner_collide. rewrite !removelast_last.
  rewrite !fold_left_app in X. cbn [fold_left] in X. apply Forall_app in V1, V2. destruct V1 as [V1 B1], V2 as [V2 B2].
  assert (K : forall q, Forall V q -> forall a, Q a -> Q (fold_left step q a)).
  { clear - Q1. induction q as [|b q IH]; intros H a Ha; cbn [fold_left]; [exact Ha|]. inversion H; subst. apply IH; auto. }
  inversion B1 as [|? ? W1 _]; inversion B2 as [|? ? W2 _]; subst.
  destruct (I _ _ _ _ (K q1 V1 iv Q0) (K q2 V2 iv Q0) W1 W2 X) as [J1 J2]. split; [|exact J1].
  intros F. subst q2. apply N. rewrite (J2 eq_refl). reflexivity.
Qed.

(** ** Keccak *)
Definition kblock (r : nat) (b : list N) : Prop := length b = r /\ bytes_ok b.
Lemma skipn_map2 {A B C} (f : A -> B -> C) n : forall a b, skipn n (map2 f a b) = map2 f (skipn n a) (skipn n b).
Proof.
  induction n as [|n IH]; intros a b; [reflexivity|]. destruct a as [|x a], b as [|y b]; cbn [skipn map2]; auto.
  destruct (skipn n a); reflexivity.
Qed.
Lemma le_words_skip k i : forall n d, skipn i (le_words k (i + n) d) = le_words k n (skipn (i * k) d).
Proof.
  induction i as [|i IH]; intros n d; [reflexivity|]. cbn [Nat.add le_words skipn Nat.mul]. rewrite IH, skipn_skipn. do 2 f_equal. lia.
Qed.
Lemma map2_xor_zeros n : forall a, length a = n -> map2 N.lxor a (zeros n) = a.
Proof. induction n as [|n IH]; intros [|x a] L; cbn [length] in L; try lia; [reflexivity|]. cbn [zeros repeat map2]. rewrite N.lxor_0_r. f_equal. apply IH. lia. Qed.
Lemma le_words_zeros k n m : le_words k n (zeros m) = zeros n.
Proof.
  revert m. induction n as [|n IH]; intros m; [reflexivity|]. cbn [le_words zeros repeat]. f_equal.
  - assert (Z : forall j, le_word (repeat 0 j) = 0) by (induction j as [|j J]; [reflexivity|cbn [repeat le_word]; rewrite J; reflexivity]).
    unfold zeros. rewrite firstn_fill. apply Z.
  - assert (S : forall j i, skipn i (zeros j) = zeros (j - i)).
    { induction j as [|j J]; intros [|i]; try reflexivity. cbn [zeros repeat skipn]. apply J. }
    rewrite S. apply IH.
Qed.
Lemma block_words_ok r b : (r <= 200)%nat -> kblock r b -> kstate (le_words 8 25 (b ++ zeros (200 - r))).
Proof.
  intros Hr [L Hb]. split; [apply le_words_length|]. apply (le_words_lt 8 25). apply bytes_ok_app; [exact Hb|apply bytes_ok_zeros].
Qed.
Lemma absorb_state_ok nr r a b : (r <= 200)%nat -> kstate a -> kblock r b -> kstate (absorb_block nr r a b).
Proof.
  intros Hr Ha Hb. unfold absorb_block. apply keccak_p_inj. pose proof (block_words_ok r b Hr Hb) as [L W]. destruct Ha as [La Wa].
  split; [rewrite map2_length; lia|]. clear - Wa W. revert W. generalize (le_words 8 25 (b ++ zeros (200 - r))).
  induction Wa as [|x a Hx Ha IH]; intros l Hl; [constructor|]. destruct l as [|y l]; [constructor|]. inversion Hl; subst. cbn [map2].
  constructor; [apply xor_word; assumption|apply IH; assumption].
Qed.
Lemma absorb_collide nr r a1 a2 b1 b2 : (r <= 200)%nat -> (r mod 8 = 0)%nat -> kstate a1 -> kstate a2 -> kblock r b1 -> kblock r b2 ->
  absorb_block nr r a1 b1 = absorb_block nr r a2 b2 -> keccak_inner r a1 = keccak_inner r a2 /\ (a1 = a2 -> b1 = b2).
Proof.
  intros Hr Hm A1 A2 B1 B2 E. unfold absorb_block in E.
  assert (S : forall a b, kstate a -> kblock r b -> kstate (map2 N.lxor a (le_words 8 25 (b ++ zeros (200 - r))))).
  { intros a b [La Wa] Hb. pose proof (block_words_ok r b Hr Hb) as [L W]. split; [rewrite map2_length; lia|].
    clear - Wa W. revert W. generalize (le_words 8 25 (b ++ zeros (200 - r))).
    induction Wa as [|x a Hx Ha IH]; intros l Hl; [constructor|]. destruct l as [|y l]; [constructor|]. inversion Hl; subst. cbn [map2].
    constructor; [apply xor_word; assumption|apply IH; assumption]. }
  apply (proj1 (keccak_p_inj nr)) in E; [|apply S; assumption..]. split.
  - apply (f_equal (skipn (r / 8))) in E. rewrite !skipn_map2 in E. unfold keccak_inner.
    assert (Z : forall b, kblock r b -> skipn (r / 8) (le_words 8 25 (b ++ zeros (200 - r))) = zeros (25 - r / 8)).
    { intros b [L _]. pose proof (Nat.div_mod r 8 ltac:(lia)) as D. rewrite Hm in D.
      replace 25%nat with (r / 8 + (25 - r / 8))%nat at 1 by lia. rewrite le_words_skip.
      replace (r / 8 * 8)%nat with (length b) by lia. rewrite skipn_app, skipn_all, Nat.sub_diag. cbn [app skipn]. apply le_words_zeros. }
    rewrite !Z in E by assumption. destruct A1 as [L1 _], A2 as [L2 _]. rewrite !map2_xor_zeros in E by (rewrite skipn_length; lia). exact E.
  - intros ->. destruct A2 as [L2 _]. apply map2_lxor_inj in E; [|rewrite le_words_length; lia..].
    destruct B1 as [L1 O1], B2 as [L3 O2].
    apply le_words_inj in E; try (apply bytes_ok_app; auto using bytes_ok_zeros); try (rewrite app_length, zeros_length; lia).
    apply app_inv_tail in E. exact E.
Qed.
Definition ns_dec : dec (list N) := list_eq_dec N.eq_dec.
Definition nss_dec : dec (list (list N)) := list_eq_dec ns_dec.
Lemma keccak_start_ok : kstate (zeros 25).
Proof. split; [reflexivity|]. unfold zeros. apply Forall_forall. intros x H. apply repeat_spec in H. subst. reflexivity. Qed.
Lemma keccak_collide nr r n l1 l2 : (r <= 200)%nat -> (r mod 8 = 0)%nat -> Forall (kblock r) l1 -> Forall (kblock r) l2 -> l1 <> [] -> l2 <> [] ->
  l1 <> l2 -> keccak_out nr r n (fold_left (absorb_block nr r) l1 (zeros 25)) = keccak_out nr r n (fold_left (absorb_block nr r) l2 (zeros 25)) ->
  inner_or_out (absorb_block nr r) (zeros 25) (keccak_inner r) (keccak_out nr r n) l1 l2.
Proof.
  intros Hr Hm V1 V2 N1 N2 N E.
  apply (sponge_collide (absorb_block nr r) ns_dec (zeros 25) (keccak_inner r) (keccak_out nr r n) kstate (kblock r)); auto using nss_dec, keccak_start_ok, absorb_state_ok.
  intros a1 a2 b1 b2. apply absorb_collide; assumption.
Qed.

(** The blocks of the Keccak functions. *)
Lemma blocks_ok r p : (0 < r)%nat -> (length p mod r = 0)%nat -> bytes_ok p -> p <> [] -> Forall (kblock r) (blocks r p) /\ blocks r p <> [].
Proof.
  intros Hr Hm Hp Hn. pose proof (blocks_lengths r p Hr Hm) as L. pose proof (blocks_concat r p Hr Hm) as C. split.
  - apply Forall_forall. intros b Hb. rewrite Forall_forall in L. split; [exact (L b Hb)|].
    rewrite <- C in Hp. clear - Hb Hp. induction (blocks r p) as [|a l IH]; [destruct Hb|]. cbn [concat] in Hp. apply Forall_app in Hp.
    destruct Hp as [H1 H2], Hb as [->|Hb]; auto.
  - intros E. rewrite E in C. cbn in C. congruence.
Qed.
Lemma pad_blocks_ok r D m : (0 < r)%nat -> D < 256 -> bytes_ok m -> Forall (kblock r) (blocks r (pad_bytes r D m)) /\ blocks r (pad_bytes r D m) <> [].
Proof.
  intros Hr HD Hm. apply blocks_ok; auto using pad_bytes_mod.
  - apply bytes_ok_app; [exact Hm|apply dpad_ok; exact HD].
  - unfold pad_bytes, dpad. destruct (_ =? _)%nat; intros E; apply app_eq_nil in E; destruct E as [_ E]; discriminate.
Qed.
Definition sfx_ok (s : list bool) : Prop := In s [[false; true]; [true; true; true; true]; [false; false]].
Lemma sfx_facts s : sfx_ok s -> (length s <= 6)%nat /\ dom_range (suffix_byte s) = true /\ suffix_byte s < 256.
Proof. intros [<-|[<-|[<-|[]]]]; (split; [cbn; lia|split; reflexivity]). Qed.
Lemma keccak_blocks_ok r s m : (0 < r)%nat -> sfx_ok s -> is_bytes m -> Forall (kblock r) (keccak_inputs r s m) /\ keccak_inputs r s m <> [].
Proof. intros Hr Hs Hm. destruct (sfx_facts s Hs) as (L & _ & D). rewrite keccak_inputs_pad by auto. apply pad_blocks_ok; auto. Qed.

(** Every map from messages to blocks of a Keccak function, for fixed parameters. *)
Definition keccak_ins (r : nat) (ins : list N -> list (list N)) : Prop :=
  exists s f, sfx_ok s /\ (forall m, is_bytes m -> ins m = keccak_inputs r s (f m) /\ is_bytes (f m)) /\ forall m1 m2, f m1 = f m2 -> m1 = m2.
Lemma keccak_equal nr r n ins m1 m2 : (0 < r <= 200)%nat -> (r mod 8 = 0)%nat -> keccak_ins r ins -> is_bytes m1 -> is_bytes m2 -> m1 <> m2 ->
  keccak_out nr r n (fold_left (absorb_block nr r) (ins m1) (zeros 25)) = keccak_out nr r n (fold_left (absorb_block nr r) (ins m2) (zeros 25)) ->
  inner_or_out (absorb_block nr r) (zeros 25) (keccak_inner r) (keccak_out nr r n) (ins m1) (ins m2).
Proof.
  intros [H0 Hr] Hm (s & f & Hs & F & I) M1 M2 N. destruct (F m1 M1) as [-> B1], (F m2 M2) as [-> B2].
  destruct (keccak_blocks_ok r s (f m1) H0 Hs B1) as [V1 N1], (keccak_blocks_ok r s (f m2) H0 Hs B2) as [V2 N2].
  apply keccak_collide; auto. intros E. apply N, I. exact (keccak_separates r s H0 Hs _ _ B1 B2 E).
Qed.
Lemma plain_ins r s : sfx_ok s -> keccak_ins r (keccak_inputs r s).
Proof. intros H. exists s, (fun m => m). auto. Qed.
Lemma cshake_ins sec p : (sec < 100)%nat -> is_bytes (fst p) -> is_bytes (snd p) -> keccak_ins (200 - 2 * sec) (cshake_inputs code_bytepad sec p).
Proof.
  intros Hs Hf Hc. destruct p as [f c]. cbn [fst snd] in *.
  assert (X : (f, c) = ([], []) \/ (f, c) <> ([], [])) by (destruct f, c; [left; reflexivity|right; discriminate..]).
  destruct X as [X|X].
  - injection X as -> ->. exists [true; true; true; true], (fun m => m). split; [right; left; reflexivity|]. auto.
  - exists [false; false], (fun m => code_bytepad (encode_string f ++ encode_string c) (200 - 2 * sec) ++ m).
    split; [right; right; left; reflexivity|]. split.
    + intros m Hm. split; [destruct f, c; try reflexivity; congruence|]. apply is_bytes_app; [|exact Hm].
      apply pad_ok; [exact code_bytepad_pads|lia|]. apply is_bytes_app; apply encode_string_ok; assumption.
    + intros m1 m2 E. apply app_inv_head in E. exact E.
Qed.
Lemma kmac_ins sec L p : (sec < 100)%nat -> L < 2 ^ 64 -> is_bytes (fst p) -> is_bytes (snd p) -> keccak_ins (200 - 2 * sec) (kmac_inputs code_bytepad sec L p).
Proof.
  intros Hs HL Hk Hc. destruct (cshake_ins sec (KMAC_name, snd p) Hs) as (s & f & S1 & S2 & S3); [repeat constructor|exact Hc|].
  assert (RO : is_bytes (right_enc L)).
  { pose proof (left_enc_ok L HL) as K. unfold left_enc in K. inversion K; subst. apply is_bytes_app; [assumption|]. constructor; [assumption|constructor]. }
  exists s, (fun m => f (kmac_input sec (fst p) m L)). split; [exact S1|]. split.
  - intros m Hm. apply (S2 (kmac_input sec (fst p) m L)). unfold kmac_input.
    apply is_bytes_app; [apply pad_ok; [exact bytepad_pads|lia|apply encode_string_ok; exact Hk]|]. apply is_bytes_app; assumption.
  - intros m1 m2 E. apply S3 in E. unfold kmac_input in E. apply app_inv_head in E. apply app_inv_tail in E. exact E.
Qed.
Definition pair_bytes (p : list N * list N) : Prop := is_bytes (fst p) /\ is_bytes (snd p).

(** ** KangarooTwelve *)
Lemma turbo_blocks_ok r D m : (0 < r)%nat -> dom_range D = true -> is_bytes m -> Forall (kblock r) (turbo_inputs r D m) /\ turbo_inputs r D m <> [].
Proof.
  intros Hr HD Hm. unfold turbo_inputs. rewrite PadInjSponge.turbo_pad_eq by auto. apply pad_blocks_ok; auto. destruct (dom_lor D HD) as (_ & _ & X). lia.
Qed.
Lemma keccak_out_short nr r n A : (n <= r <= 200)%nat -> (0 < r)%nat -> kstate A -> keccak_out nr r n A = firstn n (words_bytes 8 A) /\ length (keccak_out nr r n A) = n.
Proof.
  intros Hn Hr [L _]. unfold keccak_out. assert (W : length (words_bytes 8 A) = 200%nat) by (rewrite words_bytes_length, L; reflexivity).
  rewrite squeeze_stream_short by lia. split; [reflexivity|]. rewrite firstn_length, W. lia.
Qed.
Lemma turbo_state_ok nr r l : (r <= 200)%nat -> Forall (kblock r) l -> kstate (fold_left (absorb_block nr r) l (zeros 25)).
Proof.
  intros Hr V. generalize keccak_start_ok. generalize (zeros 25) as a. induction V as [|b l Hb Hl IH]; intros a Ha; cbn [fold_left]; [exact Ha|].
  apply IH, absorb_state_ok; auto.
Qed.
Lemma turbo_out nr r D m n : turbo nr r D m n = keccak_out nr r n (fold_left (absorb_block nr r) (turbo_inputs r D m) (zeros 25)).
Proof. reflexivity. Qed.
Lemma turbo_bytes nr r D m n : (n <= r <= 200)%nat -> (0 < r)%nat -> dom_range D = true -> is_bytes m -> is_bytes (turbo nr r D m n) /\ length (turbo nr r D m n) = n.
Proof.
  intros Hn Hr HD Hm. rewrite turbo_out. destruct (turbo_blocks_ok r D m Hr HD Hm) as [V _].
  destruct (keccak_out_short nr r n _ Hn Hr (turbo_state_ok nr r _ ltac:(lia) V)) as [E L]. split; [|exact L].
  rewrite E. apply Forall_firstn, words_bytes_ok.
Qed.
Lemma turbo_equal nr r D1 D2 m1 m2 n : (0 < r <= 200)%nat -> (r mod 8 = 0)%nat -> dom_range D1 = true -> dom_range D2 = true ->
  is_bytes m1 -> is_bytes m2 -> turbo_inputs r D1 m1 <> turbo_inputs r D2 m2 -> turbo nr r D1 m1 n = turbo nr r D2 m2 n ->
  inner_or_out (absorb_block nr r) (zeros 25) (keccak_inner r) (keccak_out nr r n) (turbo_inputs r D1 m1) (turbo_inputs r D2 m2).
Proof.
  intros Hr Hm D1' D2' M1 M2 N E. destruct (turbo_blocks_ok r D1 m1 ltac:(lia) D1' M1), (turbo_blocks_ok r D2 m2 ltac:(lia) D2' M2).
  apply keccak_collide; auto. lia.
Qed.
Lemma length_encode_length x : (1 <= length (length_encode x) <= 9)%nat.
Proof.
  unfold length_encode. cbv zeta. pose proof (N.mod_lt x (2 ^ 64) ltac:(discriminate)) as H. generalize dependent (x mod 2 ^ 64). intros y H.
  destruct (N.eqb_spec y 0) as [->|Hy]; [cbn; lia|]. unfold right_enc. rewrite app_length, be_bytes_length. cbn [length].
  unfold num_bytes. destruct (N.eqb_spec y 0) as [Z|_]; [congruence|].
  assert (N.log2 y < 64) by (apply N.log2_lt_pow2; lia). assert (Z : N.log2 y / 8 < 8) by (apply N.div_lt_upper_bound; lia).
  revert Z. generalize (N.log2 y / 8). intros z Z. lia.
Qed.
Lemma flat_map_length_const {A B} (f : A -> list B) k l : (forall x, In x l -> length (f x) = k) -> length (flat_map f l) = (length l * k)%nat.
Proof.
  induction l as [|a l IH]; intros H; [reflexivity|]. cbn [flat_map length]. rewrite app_length, H, IH by (intros; try apply H; cbn; auto). lia.
Qed.
Lemma flat_map_eq_at {A B} (f g : A -> list B) k l : (forall x, In x l -> length (f x) = k /\ length (g x) = k) -> flat_map f l = flat_map g l ->
  forall x, In x l -> f x = g x.
Proof.
  induction l as [|a l IH]; intros H E x Hx; [destruct Hx|]. cbn [flat_map] in E. destruct (H a (or_introl eq_refl)) as [F G].
  apply app_inj_head_len in E; [|lia]. destruct E as [E1 E2], Hx as [<-|Hx]; [exact E1|]. apply IH; auto. intros y Hy. apply H. right. exact Hy.
Qed.
Lemma chunk_bytes cs S i : is_bytes S -> is_bytes (chunk_of cs S i).
Proof. intros H. apply Forall_firstn, Forall_skipn, H. Qed.
(** The chunks of different strings differ somewhere. *)
Lemma chunk_differs cs n S T : (length S <= n * cs)%nat -> (length T <= n * cs)%nat -> S <> T -> exists i, (i < n)%nat /\ chunk_of cs S i <> chunk_of cs T i.
Proof.
  intros HS HT N. destruct (Exists_dec (fun i => chunk_of cs S i <> chunk_of cs T i) (seq 0 n)) as [X|X].
  - intros i. destruct (ns_dec (chunk_of cs S i) (chunk_of cs T i)); auto.
  - apply Exists_exists in X. destruct X as (i & Hi & X). apply in_seq in Hi. exists i. split; [lia|exact X].
  - exfalso. apply N, (chunks_inj cs n); auto. intros i Hi. destruct (ns_dec (chunk_of cs S i) (chunk_of cs T i)) as [E|E]; [exact E|].
    exfalso. apply X, Exists_exists. exists i. split; [apply in_seq; lia|exact E].
Qed.
Lemma kt_equal nr sec cs c m1 m2 n : In sec [16; 32]%nat -> (0 < cs)%nat -> is_bytes c -> is_bytes m1 -> is_bytes m2 -> m1 <> m2 ->
  let r := (200 - 2 * sec)%nat in
  keccak_out nr r n (fold_left (kt_step nr r) (kt_inputs nr sec cs c m1) (zeros 25)) =
  keccak_out nr r n (fold_left (kt_step nr r) (kt_inputs nr sec cs c m2) (zeros 25)) ->
  turbo_collide nr r n (2 * sec) (kt_inputs nr sec cs c m1) (kt_inputs nr sec cs c m2).
Proof.
  intros Hsec Hcs Hc M1 M2 Hne r E.
  assert (Hr : (0 < r <= 200)%nat /\ (r mod 8 = 0)%nat /\ (2 * sec <= r)%nat) by (subst r; destruct Hsec as [<-|[<-|[]]]; cbn; lia).
  destruct Hr as (Hr & Hm & Hk).
  assert (SB : forall m, is_bytes m -> is_bytes (m ++ c ++ length_encode (N.of_nat (length c)))).
  { intros m Hb. apply is_bytes_app; [exact Hb|]. apply is_bytes_app; [exact Hc|apply length_encode_ok]. }
  assert (SN : m1 ++ c ++ length_encode (N.of_nat (length c)) <> m2 ++ c ++ length_encode (N.of_nat (length c))).
  { intros X. apply app_inv_tail in X. congruence. }
  apply SB in M1, M2. unfold kt_inputs in *. cbv zeta in *. fold r in E |- *.
  set (S1 := m1 ++ c ++ _) in *. set (S2 := m2 ++ c ++ _) in *. clearbody S1 S2.
  set (num (S : list N) := ((length S + cs - 1) / cs)%nat). set (cv (S : list N) (i : nat) := turbo nr r 11 (chunk_of cs S i) (2 * sec)).
  assert (Num : forall S : list N, (cs < length S)%nat -> (length S <= num S * cs)%nat /\ (1 <= num S)%nat).
  { intros S HS. unfold num. pose proof (Nat.div_mod (length S + cs - 1) cs ltac:(lia)).
    pose proof (Nat.mod_upper_bound (length S + cs - 1) cs ltac:(lia)). split; nia. }
  set (node (S : list N) := chunk_of cs S 0 ++ [3; 0; 0; 0; 0; 0; 0; 0] ++ flat_map (cv S) (seq 1 (num S - 1)) ++ length_encode (N.of_nat (num S - 1)) ++ [255; 255]).
  assert (CV : forall S i, is_bytes S -> is_bytes (cv S i) /\ length (cv S i) = (2 * sec)%nat).
  { intros S i HS. apply turbo_bytes; [lia|lia|reflexivity|apply chunk_bytes; exact HS]. }
  assert (NB : forall S, is_bytes S -> is_bytes (node S)).
  { intros S HS. unfold node. apply is_bytes_app; [apply chunk_bytes; exact HS|]. apply is_bytes_app; [repeat constructor|].
    apply is_bytes_app; [|apply is_bytes_app; [apply length_encode_ok|repeat constructor]].
    generalize (seq 1 (num S - 1)) as l. induction l as [|i l IH]; [constructor|]. cbn [flat_map]. apply is_bytes_app; [apply CV; exact HS|exact IH]. }
  assert (L7 : forall S, last [turbo_inputs r 7 S] [] = turbo_inputs r 7 S) by reflexivity.
  change (fun i => turbo nr r 11 (chunk_of cs S1 i) (2 * sec)) with (cv S1) in *. change (fun i => turbo nr r 11 (chunk_of cs S2 i) (2 * sec)) with (cv S2) in *.
  change ((length S1 + cs - 1) / cs)%nat with (num S1) in *. change ((length S2 + cs - 1) / cs)%nat with (num S2) in *.
  fold (node S1) in E |- *. fold (node S2) in E |- *.
  destruct (Nat.leb_spec (length S1) cs) as [A1|A1], (Nat.leb_spec (length S2) cs) as [A2|A2]; rewrite ?fold_left_app in E; cbn [fold_left] in E;
    unfold kt_step in E; rewrite <- !turbo_out in E.
  - left. rewrite !L7. split; [|apply turbo_equal; auto; try reflexivity]; intros X; apply turbo_inputs_inj in X; try reflexivity; try lia; tauto.
  - left. rewrite L7, last_last. split; [|apply turbo_equal; auto; try reflexivity];
      intros X; apply turbo_inputs_inj in X; try reflexivity; try lia; destruct X as [_ X]; discriminate.
  - left. rewrite L7, last_last. split; [|apply turbo_equal; auto; try reflexivity];
      intros X; apply turbo_inputs_inj in X; try reflexivity; try lia; destruct X as [_ X]; discriminate.
  - destruct (ns_dec (node S1) (node S2)) as [X|X].
    + right. unfold node in X. destruct (Num S1 A1) as [B1 C1], (Num S2 A2) as [B2 C2].
      assert (LL : forall S, is_bytes S -> length (flat_map (cv S) (seq 1 (num S - 1))) = ((num S - 1) * (2 * sec))%nat).
      { intros S HS. rewrite (flat_map_length_const _ (2 * sec)) by (intros; apply CV; exact HS). rewrite seq_length. reflexivity. }
      assert (n12 : num S1 = num S2).
      { apply (f_equal (@length N)) in X. rewrite !app_length, !LL in X by assumption. unfold chunk_of in X. cbn [Nat.mul skipn length] in X.
        rewrite !firstn_length in X.
        pose proof (length_encode_length (N.of_nat (num S1 - 1))). pose proof (length_encode_length (N.of_nat (num S2 - 1))).
        destruct Hsec as [<-|[<-|[]]]; lia. }
      rewrite <- n12 in X. apply app_inj_head_len in X.
      2:{ unfold chunk_of. cbn [Nat.mul skipn]. rewrite !firstn_length. lia. }
      destruct X as [X0 X]. apply app_inv_head in X. apply app_inv_tail in X.
      rewrite <- n12 in B2. destruct (chunk_differs cs (num S1) S1 S2 B1 B2 SN) as ([|i] & Hi & Di); [contradiction|].
      assert (Ii : In (Datatypes.S i) (seq 1 (num S1 - 1))) by (apply in_seq; lia).
      pose proof (flat_map_eq_at _ _ (2 * sec) _ (fun x _ => conj (proj2 (CV S1 x M1)) (proj2 (CV S2 x M2))) X _ Ii) as Y.
      exists (turbo_inputs r 11 (chunk_of cs S1 (Datatypes.S i))), (turbo_inputs r 11 (chunk_of cs S2 (Datatypes.S i))).
      split; [apply in_or_app; left; exact (in_map (fun i => turbo_inputs r 11 (chunk_of cs S1 i)) _ _ Ii)|].
      split; [apply in_or_app; left; rewrite <- n12; exact (in_map (fun i => turbo_inputs r 11 (chunk_of cs S2 i)) _ _ Ii)|].
      assert (Z : turbo_inputs r 11 (chunk_of cs S1 (Datatypes.S i)) <> turbo_inputs r 11 (chunk_of cs S2 (Datatypes.S i))).
      { intros Z. apply turbo_inputs_inj in Z; try reflexivity; try lia. tauto. }
      split; [exact Z|]. apply turbo_equal; auto using chunk_bytes; reflexivity.
    + left. rewrite !last_last. split; [|apply turbo_equal; auto; try reflexivity]; intros Y; apply turbo_inputs_inj in Y; try reflexivity; try lia; tauto.
Qed.
