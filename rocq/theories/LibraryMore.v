(** * Further consequences: hexadecimal decoding, pieces with digests in between, static variants. *)
From Verif Require Import Base Lemmas Hasher HasherSpec HasherProof Library LibraryProof XLibraryProof LibraryTypes LibraryTypesProof.

(** ** Hexadecimal strings *)
Definition hex_value (c : N) : N := if c <? 97 then c - 48 else c - 87.
Fixpoint hex_decode (s : list N) : list N :=
  match s with
  | a :: b :: r => (16 * hex_value a + hex_value b) :: hex_decode r
  | _ => []
  end.
Definition is_hex_char (c : N) : Prop := 48 <= c <= 57 \/ 97 <= c <= 102.

Lemma nibble_ok : forall d, d < 16 -> hex_value (nibble_char d) = d /\ is_hex_char (nibble_char d).
Proof.
  assert (H : forallb (fun d => (hex_value (nibble_char d) =? d) && (((48 <=? nibble_char d) && (nibble_char d <=? 57)) ||
    ((97 <=? nibble_char d) && (nibble_char d <=? 102)))) (map N.of_nat (seq 0 16)) = true) by reflexivity.
  rewrite forallb_forall in H. intros d Hd.
  assert (Hi : In d (map N.of_nat (seq 0 16))).
  { apply in_map_iff. exists (N.to_nat d). split; [lia|]. apply in_seq. lia. }
  specialize (H d Hi). apply andb_true_iff in H. destruct H as [H1 H2]. apply N.eqb_eq in H1.
  split; [exact H1|]. unfold is_hex_char. apply orb_true_iff in H2. rewrite !andb_true_iff, !N.leb_le in H2. lia.
Qed.
Lemma hex_decode_ok b : is_bytes b -> hex_decode (spec_hex b) = b.
Proof.
  induction b as [|x b IH]; intros H; [reflexivity|]. inversion H as [|? ? Hx Hb]; subst.
  cbn [spec_hex flat_map app hex_decode]. fold (spec_hex b). rewrite IH by exact Hb. f_equal.
  rewrite (proj1 (nibble_ok (x / 16) ltac:(apply N.div_lt_upper_bound; lia))).
  rewrite (proj1 (nibble_ok (x mod 16) ltac:(apply N.mod_lt; lia))).
  symmetry. apply N.div_mod'.
Qed.
Lemma spec_hex_chars b : is_bytes b -> Forall is_hex_char (spec_hex b) /\ length (spec_hex b) = (2 * length b)%nat.
Proof.
  induction b as [|x b IH]; intros H; [split; [constructor|reflexivity]|]. inversion H as [|? ? Hx Hb]; subst.
  cbn [spec_hex flat_map app]. fold (spec_hex b). destruct (IH Hb) as [I1 I2]. split; [|cbn [length]; lia].
  constructor; [apply nibble_ok; apply N.div_lt_upper_bound; lia|].
  constructor; [apply nibble_ok; apply N.mod_lt; lia|exact I1].
Qed.
(** Two hex strings are equal iff the byte strings are. *)
Lemma spec_hex_inj a b : is_bytes a -> is_bytes b -> (spec_hex a = spec_hex b <-> a = b).
Proof.
  intros Ha Hb. split; [|congruence]. intros E. rewrite <- (hex_decode_ok a Ha), <- (hex_decode_ok b Hb), E. reflexivity.
Qed.

(** ** Pieces with digests anywhere in between *)
Section Good.
  Context {P : hash_provider} {T : htype P} {S : hash_spec (p_param P)}.
  Hypothesis G : good T S.

  Definition pieces (ops : list (hash_op (p_param P))) : list N :=
    flat_map (fun o => match o with HBase (Absorb f d) => match f with FBadStream => [] | _ => d end | _ => [] end) ops.
  Definition absorb_or_digest (o : hash_op (p_param P)) : bool :=
    match o with HBase (Absorb _ _) => true | HBase _ => false | _ => true end.
  Lemma ast_pieces ops : forall p msg, forallb absorb_or_digest ops = true ->
    ast S (p, msg) ops = (p, msg ++ pieces ops).
  Proof.
    induction ops as [|o r IH]; intros p msg H; [cbn; rewrite app_nil_r; reflexivity|].
    cbn [forallb] in H. apply andb_true_iff in H. destruct H as [Ho Hr]. rewrite ast_cons.
    destruct o as [[f d|b|q v]|buf| |]; try discriminate Ho; cbn [astep abase fst].
    - rewrite IH by exact Hr. cbn [pieces flat_map]. unfold pieces. rewrite app_assoc. reflexivity.
    - rewrite IH by exact Hr. reflexivity.
    - rewrite IH by exact Hr. reflexivity.
    - rewrite IH by exact Hr. reflexivity.
  Qed.
  Lemma pieces_bytes ops : hcalls T ops -> is_bytes (pieces ops).
  Proof.
    intros H. apply Forall_flat_map. eapply Forall_impl; [|exact H].
    intros [[f d|b|q v]|buf| |] Ho; try constructor. destruct f; try exact Ho; constructor.
  Qed.
  Theorem pieces_continue g pre ops d : ht_mem_ok T g -> hcalls T pre -> hcalls T ops ->
    forallb absorb_or_digest ops = true -> is_digest d = true ->
    exists b, after T g (pre ++ ops) [d] = Ok [b] /\ after T g (pre ++ [HBase (Absorb FPtr (pieces ops))]) [d] = Ok [b].
  Proof.
    intros Hg H1 H2 Ho Hd.
    assert (Hc : hcalls T [d]) by (constructor; [destruct d; [discriminate Hd|exact I..]|constructor]).
    assert (Hp : hcalls T [HBase (Absorb FPtr (pieces ops))]) by (constructor; [apply pieces_bytes; exact H2|constructor]).
    rewrite !(after_eq G) by (auto; apply hcalls_app; auto). rewrite !ast_app.
    destruct (ast S (afresh S) pre) as [p msg]. rewrite ast_pieces by exact Ho.
    unfold ast. cbn [arun astep abase fst absorbed].
    destruct d as [?|buf| |]; [discriminate Hd|..]; cbn [arun astep snd]; eexists; split; reflexivity.
  Qed.
End Good.

(** ** Static variants *)
Theorem static_same P (T T' : htype P) : static_pair T T' -> forall g g' pre post,
  ht_mem_ok T g -> ht_mem_ok T' g' -> hcalls T pre -> hcalls T post ->
  ht_size T = ht_size T' /\ after T g pre post = after T' g' pre post.
Proof.
  intros H g g' pre post Hg Hg' H1 H2.
  assert (C : ht_clr T = ht_clr T') by (destruct H; reflexivity).
  destruct (static_pair_good P T T' H) as (S & G & G').
  assert (K : forall ops, hcalls T ops -> hcalls T' ops) by (unfold hcalls; rewrite C; auto).
  split.
  - rewrite <- (g_size _ _ G). apply (g_size _ _ G').
  - rewrite (after_eq G), (after_eq G') by auto. reflexivity.
Qed.
