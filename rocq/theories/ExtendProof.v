(** * Proof of C64. *)
From Verif Require Import Base Lemmas WordLemmas SpecCommon Hasher HasherSpec HasherProof Library LibraryProof LibraryTypes
  LibraryTypesProof MdProof Md5Spec Sha1Spec Sha2 Sha2Spec Sha2Proof Sm3Spec WhirlpoolSpec Inputs PadInj Process ProcessTypes PropertiesPad
  Bind BindTypes Inj InjArx CollideSpec Collide CollideSponge CollideWords CollideTypes ExtendSpec.

(** Reading a list of words back. *)
Lemma be_word_bytes k x : x < 256 ^ N.of_nat k -> be_word (be_bytes k x) = x.
Proof. intros H. unfold be_word, be_bytes. rewrite rev_involutive, le_word_bytes. apply N.mod_small, H. Qed.
Lemma be_words_flat k : forall l, words_ok (8 * N.of_nat k) l -> be_words k (length l) (flat_map (be_bytes k) l) = l.
Proof.
  assert (P : 256 ^ N.of_nat k = 2 ^ (8 * N.of_nat k)) by (rewrite N.pow_mul_r; reflexivity).
  induction l as [|x l IH]; intros H; [reflexivity|]. inversion H; subst. cbn [length be_words flat_map].
  rewrite firstn_app, skipn_app, be_bytes_length, Nat.sub_diag, firstn_all2, skipn_all2 by (rewrite be_bytes_length; lia).
  cbn [firstn skipn app]. rewrite app_nil_r, be_word_bytes by (rewrite P; assumption). f_equal. apply IH. assumption.
Qed.
Lemma le_words_flat k : forall l, words_ok (8 * N.of_nat k) l -> le_words k (length l) (flat_map (le_bytes k) l) = l.
Proof.
  assert (P : 256 ^ N.of_nat k = 2 ^ (8 * N.of_nat k)) by (rewrite N.pow_mul_r; reflexivity).
  induction l as [|x l IH]; intros H; [reflexivity|]. inversion H; subst. cbn [length le_words flat_map].
  rewrite firstn_app, skipn_app, le_bytes_length, Nat.sub_diag, firstn_all2, skipn_all2 by (rewrite le_bytes_length; lia).
  cbn [firstn skipn app]. rewrite app_nil_r, le_word_bytes, N.mod_small by (rewrite P; assumption). f_equal. apply IH. assumption.
Qed.

Lemma since_absorb {P} (T : htype P) d : forall ops m, since_from T m (ops ++ [HBase (Absorb FPtr d)]) = since_from T m ops ++ d.
Proof. induction ops as [|[[f c|c|q v]|buf| |] ops IH]; intros m; cbn [app since_from]; auto. Qed.
Lemma since_absorb2 {P} (T : htype P) a b ops :
  since T (ops ++ [HBase (Absorb FPtr a); HBase (Absorb FPtr b)]) = since T ops ++ a ++ b.
Proof.
  change [HBase (Absorb FPtr a); HBase (Absorb FPtr b)] with ([HBase (Absorb FPtr a)] ++ [@HBase (p_param P) (Absorb FPtr b)]).
  unfold since. rewrite app_assoc, !since_absorb, app_assoc. reflexivity.
Qed.

Lemma pad_tail bs enc m : (forall x y, length (enc x) = length (enc y)) ->
  md_pad bs (enc (bitlen m mod 2 ^ 64)) m = m ++ tail_of bs enc (length m).
Proof. intros He. unfold md_pad, tail_of, bitlen. rewrite (He 0 ((8 * N.of_nat (length m)) mod 2 ^ 64)). reflexivity. Qed.
Lemma blocks_split bs a b : (0 < bs)%nat -> (length a mod bs = 0)%nat -> (length b mod bs = 0)%nat -> blocks bs (a ++ b) = blocks bs a ++ blocks bs b.
Proof.
  intros Hb Ha Hc. apply Nat.mod_divides in Ha, Hc; try lia. destruct Ha as [n Ha], Hc as [k Hc].
  rewrite (blocks_app n k), (blocks_mul n bs a), (blocks_mul k bs b); auto; lia.
Qed.
Lemma inputs_tail bs enc m x : (0 < bs)%nat -> (forall x y, length (enc x) = length (enc y)) ->
  md_inputs bs enc (m ++ tail_of bs enc (length m) ++ x) = md_inputs bs enc m ++
    blocks bs (x ++ tail_of bs enc (length m + length (tail_of bs enc (length m)) + length x)).
Proof.
  intros Hb He. unfold md_inputs.
  pose proof (md_pad_mod bs (enc (bitlen m mod 2 ^ 64)) m Hb) as M1.
  pose proof (md_pad_mod bs (enc (bitlen (m ++ tail_of bs enc (length m) ++ x) mod 2 ^ 64)) (m ++ tail_of bs enc (length m) ++ x) Hb) as M2.
  rewrite !pad_tail in * by exact He. rewrite !app_length in *. rewrite !Nat.add_assoc in *.
  set (t := tail_of bs enc (length m)) in *. set (u := tail_of bs enc (length m + length t + length x)) in *.
  replace ((m ++ t ++ x) ++ u) with ((m ++ t) ++ (x ++ u)) by (rewrite <- !app_assoc; reflexivity).
  apply blocks_split; [exact Hb|rewrite app_length; exact M1|].
  rewrite app_length. apply Nat.mod_divides in M1, M2; try lia. destruct M1 as [p M1], M2 as [q M2].
  assert (length x + length u = (q - p) * bs)%nat as -> by nia. apply Nat.mod_mul. lia.
Qed.

Lemma md_extends {P} (T : htype P) S bs enc {A} (step : A -> list N -> A) iv load store store' (Q : A -> Prop) :
  @processes P T S A (list N) (fun _ => md_inputs bs enc) (fun _ => step) (fun _ => iv) (fun _ => store') ->
  (forall h, store' h = store h) ->
  (0 < bs)%nat -> (forall x y, length (enc x) = length (enc y)) -> (forall x, is_bytes (enc x)) ->
  Q iv -> (forall h b, Q h -> Q (step h b)) -> (forall h, Q h -> load (store h) = h) ->
  extends T bs enc (forged bs enc step load store).
Proof.
  intros HP HS Hb He Hbytes Q0 Q1 HL g ops d x Hg Hc Hx E n.
  assert (Ht : is_bytes (tail_of bs enc n)).
  { unfold tail_of. apply Forall_app. split; [repeat constructor|]. apply Forall_app. split; [apply Forall_forall; intros y Hy; apply repeat_spec in Hy; subst y; reflexivity|apply Hbytes]. }
  assert (Hc' : hcalls T (ops ++ [HBase (Absorb FPtr (tail_of bs enc n)); HBase (Absorb FPtr x)])).
  { apply Forall_app. split; [exact Hc|]. constructor; [exact Ht|]. constructor; [exact Hx|]. constructor. }
  rewrite HP in E by assumption. rewrite HP by assumption. cbv zeta in E |- *. rewrite since_absorb2.
  subst n. rewrite inputs_tail, fold_left_app by assumption. rewrite HS in *.
  remember (fold_left step (md_inputs bs enc (since T ops)) iv) as h eqn:Eh.
  assert (Qh : Q h).
  { subst h. clear - Q0 Q1. generalize (md_inputs bs enc (since T ops)), iv, Q0. induction l as [|b l IH]; intros h Hh; [exact Hh|]. apply IH, Q1, Hh. }
  injection E as <-. unfold forged. rewrite (HL h Qh). reflexivity.
Qed.

Lemma le_is_bytes k x : is_bytes (le_bytes k x).
Proof. exact (le_bytes_ok k x). Qed.
Lemma be_is_bytes k x : is_bytes (be_bytes k x).
Proof. exact (be_bytes_ok k x). Qed.

Lemma md5_extends : extends md5_type 64 (le_bytes 8) md5_forged.
Proof.
  eapply (md_extends _ _ _ _ _ _ _ _ _ (wreg4 32) C47_md5); [reflexivity|lia|apply le_enc|apply le_is_bytes|repeat split; reflexivity|intros; apply md5_words|].
  intros [[[a b] c] d] (A & B & C & D).
  replace (le_bytes 4 a ++ le_bytes 4 b ++ le_bytes 4 c ++ le_bytes 4 d) with (flat_map (le_bytes 4) [a; b; c; d]) by (cbn [flat_map]; rewrite app_nil_r; reflexivity).
  change 4%nat with (length [a; b; c; d]) at 2. rewrite (le_words_flat 4) by (repeat constructor; assumption). reflexivity.
Qed.
Lemma sha1_extends : extends sha1_type 64 (be_bytes 8) sha1_forged.
Proof.
  eapply (md_extends _ _ _ _ _ _ _ _ _ (wreg5 32) C47_sha1); [reflexivity|lia|apply be_enc|apply be_is_bytes|repeat split; reflexivity|intros; apply sha1_words|].
  intros [[[[a b] c] d] e] ((A & B & C & D) & E).
  change 5%nat with (length [a; b; c; d; e]). rewrite (be_words_flat 4) by (repeat constructor; assumption). reflexivity.
Qed.
Lemma load8_regs P r : p_w P = 8 * N.of_nat (p_k P) -> wreg8 (p_w P) r -> load8 (be_words (p_k P) 8 (regs_bytes P r)) = r.
Proof.
  intros HP. destruct r as [[[[[[[a b] c] d] e] f] g] h]. intros ((A & B & C & D) & F & G & H & I). rewrite HP in *. unfold regs_bytes.
  change 8%nat with (length [a; b; c; d; e; f; g; h]) at 1. rewrite be_words_flat by (repeat constructor; assumption). reflexivity.
Qed.
Lemma sha256_extends : extends sha256_type 64 (be_bytes 8) sha256_forged.
Proof.
  eapply (md_extends _ _ _ _ _ _ _ _ _ (wreg8 32) (proj1 (proj2 C47_sha2))); [intros h; apply (regs_all params256); reflexivity|lia|apply be_enc|apply be_is_bytes|repeat split; reflexivity|intros; apply (sha2_words params256)|].
  intros h H. exact (load8_regs params256 h eq_refl H).
Qed.
Lemma sha512_extends T : T = sha512_type 512 \/ T = sha512_static_type 512 -> extends T 128 (be_bytes 16) sha512_forged.
Proof.
  intros HT. assert (B : bits_up_to 512 512) by (repeat split; discriminate).
  destruct (proj2 (proj2 (proj2 C47_sha2)) 512 B) as [C1 C2].
  destruct HT as [-> | ->]; [eapply (md_extends _ _ _ _ _ _ _ _ _ (wreg8 64) C1)|eapply (md_extends _ _ _ _ _ _ _ _ _ (wreg8 64) C2)];
    try (intros h; apply (regs_all params512); reflexivity); try lia; try apply be_enc; try apply be_is_bytes; try (repeat split; reflexivity);
    try (intros; apply (sha2_words params512)); intros h H; exact (load8_regs params512 h eq_refl H).
Qed.
Lemma sm3_extends : extends sm3_type 64 (be_bytes 8) sm3_forged.
Proof.
  eapply (md_extends _ _ _ _ _ _ _ _ _ (wlen 32 8) C47_sm3); [reflexivity|lia|apply be_enc|apply be_is_bytes|split; [reflexivity|repeat constructor]|intros; apply sm3_words; assumption|].
  intros h [L W]. rewrite <- L at 1. apply (be_words_flat 4). exact W.
Qed.
Lemma whirlpool_extends : extends whirlpool_type 64 (be_bytes 32) whirlpool_forged.
Proof.
  eapply (md_extends _ _ _ _ _ _ _ _ _ (fun _ => True) C47_whirlpool); [reflexivity|lia|apply be_enc|apply be_is_bytes|exact I|intros; exact I|reflexivity].
Qed.

(** Equal digests stay equal. *)
Lemma extends_collide {P} (T : htype P) bs enc f : extends T bs enc f ->
  forall g1 g2 ops1 ops2 d x, ht_mem_ok T g1 -> ht_mem_ok T g2 -> hcalls T ops1 -> hcalls T ops2 -> is_bytes x ->
  length (since T ops1) = length (since T ops2) ->
  after T g1 ops1 [HDigestIter] = Ok [OBytes d] -> after T g2 ops2 [HDigestIter] = Ok [OBytes d] ->
  let more := [HBase (Absorb FPtr (tail_of bs enc (length (since T ops1)))); HBase (Absorb FPtr x)] in
  after T g1 (ops1 ++ more) [HDigestIter] = after T g2 (ops2 ++ more) [HDigestIter].
Proof.
  intros H g1 g2 ops1 ops2 d x M1 M2 C1 C2 Hx L E1 E2 more. unfold more.
  rewrite (H g1 ops1 d x M1 C1 Hx E1). rewrite L. rewrite (H g2 ops2 d x M2 C2 Hx E2). reflexivity.
Qed.
