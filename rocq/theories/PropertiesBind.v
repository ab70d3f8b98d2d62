(** * Parameters, sizes and messages are bound together (C53). *)
From Verif Require Import Base Lemmas SpecCommon Hasher HasherSpec Library LibraryTypes LibraryTypesProof Blake2 Blake2p Blake2Spec Blake2pSpec Blake2Sim
  Blake2pSim BlakeSpec BlakeProof EchoSpec EchoSim Echo Blake Skein SkeinSpec SkeinSim Inputs Process ProcessTypes Bind BindTypes PropertiesPad.

(** ** BLAKE2 and BLAKE2X

    [b2_reached w k p m]: some object of word size [w] and kind [k] (digest of [nn] bytes, or
    BLAKE2X with length field [L]) has, after some sequence of calls, parameters [p] and
    absorbed bytes [m]. The code then processes [blake2_inputs w (key_pad w (pk p) ++ m)]
    starting from [b2_iv w k p]. *)
Theorem C53_blake2_inputs w hs : wordsize w -> bits_up_to (8 * w) hs ->
  both_process (blake2_type w BHash hs) (blake2_static_type w BHash hs) (blake2_spec w hs)
    (fun p m => blake2_inputs w (key_pad w (pk p) ++ m)) (fun _ => b2_step w false) (b2_iv w (KHash (hs / 8)))
    (fun _ h => firstn (N.to_nat (hs / 8)) (words_bytes (wb w) h)).
Proof. exact (C47_blake2 w hs). Qed.
Theorem C53_blake2x_inputs w hs : wordsize w -> bits_up_to (8 * w * (w / 8) * 4 - 16) hs ->
  both_process (blake2_type w BXhash hs) (blake2_static_type w BXhash hs) (blake2x_spec w hs)
    (fun p m => blake2_inputs w (key_pad w (pk p) ++ m)) (fun _ => b2_step w false) (b2_iv w (KX (N.of_nat (N.to_nat (hs / 8)))))
    (fun p h => x_hash_out w (N.to_nat (hs / 8)) p (words_bytes (wb w) h)).
Proof. exact (C47_blake2x w hs). Qed.
Theorem C53_blake2x_xof_inputs w : wordsize w -> xprocesses (blake2x_xof_type w) (blake2x_xof_spec w)
    (fun p m => blake2_inputs w (key_pad w (pk p) ++ m)) (fun _ => b2_step w false) (b2_iv w (KX (x_unknown w)))
    (fun p h n => x_stream_out w p (words_bytes (wb w) h) n).
Proof. exact (C47_blake2x_xof w). Qed.
Theorem C53_blake2 w k1 k2 p1 p2 m1 m2 : wordsize w -> b2_reached w k1 p1 m1 -> b2_reached w k2 p2 m2 ->
  b2_iv w k1 p1 = b2_iv w k2 p2 ->
  blake2_inputs w (key_pad w (pk p1) ++ m1) = blake2_inputs w (key_pad w (pk p2) ++ m2) ->
  k1 = k2 /\ p1 = p2 /\ m1 = m2.
Proof. exact (b2_reached_bind w k1 k2 p1 p2 m1 m2). Qed.
(** Both hypotheses can hold, for keyed blake2b-256 with a salt after a reset. *)
Example C53_blake2_reached :
  b2_reached 64 (KHash 32) (mkb2p [7] (repeat 1 16) (zeros 16)) [97] /\
  b2_reached 64 (KX (2 ^ 32 - 1)) (mkb2p [7] (zeros 16) (zeros 16)) [97].
Proof.
  split.
  - refine (b2r_hash 64 256 (blake2_type 64 BHash 256)
      [HBase (SetParam B2Key [7]); HBase (Absorb FStr [1; 2]); HBase (SetParam B2Salt (repeat 1 16)); HBase (Absorb FStr [97])]
      _ (or_introl eq_refl) _); [repeat split; vm_compute; congruence|repeat constructor; reflexivity].
  - refine (b2r_xof 64 [XBase (SetParam B2Key [7]); XBase (Absorb FStr [1; 2]); XSqueezeIter 3; XBase (Reset false); XBase (Absorb FStr [97])] _).
    cbn. repeat split; auto; repeat constructor; reflexivity.
Qed.
(** A key is not the same as a message starting with the padded key. *)
Example C53_key_is_not_message : 
  let p1 := mkb2p [7] (zeros 16) (zeros 16) in let p2 := mkb2p [] (zeros 16) (zeros 16) in
  blake2_inputs 64 (key_pad 64 (pk p1) ++ [97]) = blake2_inputs 64 (key_pad 64 (pk p2) ++ ([7] ++ zeros 127) ++ [97]) /\
  b2_iv 64 (KHash 32) p1 <> b2_iv 64 (KHash 32) p2.
Proof. vm_compute. split; [reflexivity|discriminate]. Qed.

(** Nodes of one tree or of different trees: two nodes with the same initial value are the
    same node with the same salt and personalization. The output nodes of BLAKE2X are those
    with an index below 2^32. *)
Theorem C53_nodes w n1 n2 s1 s2 p1 p2 : wordsize w -> node_ok w n1 -> node_ok w n2 ->
  half_ok w s1 -> half_ok w s2 -> half_ok w p1 -> half_ok w p2 ->
  init_h w (node_tree w n1) s1 p1 = init_h w (node_tree w n2) s2 p2 -> n1 = n2 /\ s1 = s2 /\ p1 = p2.
Proof. exact (node_bind w n1 n2 s1 s2 p1 p2). Qed.
Example C53_nodes_ok : node_ok 64 (NOut (2 ^ 32 - 1) 64 (2 ^ 32 - 1)) /\ node_ok 32 (NLeaf 32 5 7) /\ node_ok 32 (NRoot 32 5) /\
  node_ok 32 (NSeq (KHash 20) 32) /\ half_ok 32 (repeat 255 8).
Proof. unfold node_ok, half_ok, kind_ok, x_unknown. cbn [N.eqb Pos.eqb]. repeat split; try (vm_compute; lia || discriminate || reflexivity);
  try (vm_compute; auto with arith); repeat constructor. Qed.
(** They are the nodes the code uses: [x_hash_out] and [x_stream_out] consist of [x_node]s. *)
Theorem C53_x_node w L salt pers i j h0 :
  x_node w L salt pers i j h0 = firstn j (words_bytes (wb w)
    (fold_left (b2_step w false) (blake2_inputs w h0) (init_h w (node_tree w (NOut (N.of_nat i) j L)) salt pers))).
Proof. unfold x_node, blake2_tree. rewrite <- blake2_core_fold. reflexivity. Qed.

(** ** BLAKE2bp and BLAKE2sp *)
Theorem C53_blake2p_inputs w hs : wordsize w -> bits_up_to (8 * w) hs ->
  both_process (blake2p_type w hs) (blake2p_static_type w hs) (blake2p_spec w hs)
    (fun p m => blake2p_inputs w (pk p) m)
    (fun p l ins => l ++ [words_bytes (wb w) (fold_left (b2_step w (length l =? degree w - 1)%nat) ins
       (init_h w (node_tree w (NLeaf (hs / 8) (length (pk p)) (length l))) (ps p) (pp p)))])
    (fun _ => [])
    (fun p l => firstn (N.to_nat (hs / 8)) (blake2_tree w true (node_tree w (NRoot (hs / 8) (length (pk p)))) (ps p) (pp p) (concat l))).
Proof. exact (C47_blake2p w hs). Qed.
Theorem C53_blake2p w nn1 nn2 p1 p2 m1 m2 : wordsize w -> b2p_reached w nn1 p1 m1 -> b2p_reached w nn2 p2 m2 ->
  init_h w (node_tree w (NLeaf nn1 (length (pk p1)) 0)) (ps p1) (pp p1) = init_h w (node_tree w (NLeaf nn2 (length (pk p2)) 0)) (ps p2) (pp p2) ->
  blake2p_inputs w (pk p1) m1 = blake2p_inputs w (pk p2) m2 -> nn1 = nn2 /\ p1 = p2 /\ m1 = m2.
Proof. exact (b2p_reached_bind w nn1 nn2 p1 p2 m1 m2). Qed.
Example C53_blake2p_reached : b2p_reached 32 32 (mkb2p [7] (zeros 8) (repeat 1 8)) [97].
Proof.
  refine (b2pr 32 256 (blake2p_type 32 256)
      [HBase (SetParam B2Key [7]); HBase (Absorb FStr [1; 2]); HBase (SetParam B2Pers (repeat 1 8)); HBase (Absorb FStr [97])]
      _ (or_introl eq_refl) _); [repeat split; vm_compute; congruence|repeat constructor; try discriminate; reflexivity].
Qed.

(** ** Skein: from the all-zero state on, the code processes key, configuration,
    personalization, nonce and message in this order. *)
Theorem C53_skein_inputs nw hs : In nw [4; 8; 16]%nat -> bits_up_to (2 ^ 64 - 1) hs ->
  both_process (skein_type nw hs) (skein_static_type nw hs) (skein_spec nw hs)
    (skein_all_inputs nw hs) (fun _ H x => ubi_block nw H (snd x) (fst x)) (fun _ => zeros nw)
    (fun _ G => skein_output nw G (N.to_nat (hs / 8))).
Proof.
  intros Hn H. apply both_from; [exact (good_skein nw hs Hn H)|]. intros p m. cbn [sp_digest skein_spec].
  rewrite skein_all_fold. exact (skein_fold nw hs (N.to_nat (hs / 8)) p m).
Qed.
Theorem C53_skein_xof_inputs nw : In nw [4; 8; 16]%nat -> xprocesses (skein_xof_type nw) (skein_xof_spec nw)
    (skein_all_inputs nw (2 ^ 64 - 1)) (fun _ H x => ubi_block nw H (snd x) (fst x)) (fun _ => zeros nw)
    (fun _ G n => skein_output nw G n).
Proof.
  intros Hn. apply xgood_processes; [exact (xgood_skein nw Hn)|]. intros p m n. cbn [xs_out skein_xof_spec].
  rewrite skein_all_fold. exact (skein_fold nw (2 ^ 64 - 1) n p m).
Qed.
(** [sk_reached nw No p m]: an object with output length field [No] (2^64 - 1 for the
    extendable-output forms) can have parameters [p] and absorbed bytes [m]. *)
Theorem C53_skein nw No1 No2 p1 p2 m1 m2 : (0 < nw)%nat -> sk_reached nw No1 p1 m1 -> sk_reached nw No2 p2 m2 ->
  skein_short p1 -> skein_short p2 -> N.of_nat (length m1) < 2 ^ 64 -> N.of_nat (length m2) < 2 ^ 64 ->
  skein_all_inputs nw No1 p1 m1 = skein_all_inputs nw No2 p2 m2 -> No1 = No2 /\ p1 = p2 /\ m1 = m2.
Proof. exact (sk_reached_bind nw No1 No2 p1 p2 m1 m2). Qed.
Example C53_skein_reached : let p := mkskein [1] [2] [3; 4] in sk_reached 8 256 p [97] /\ skein_short p /\ length (skein_all_inputs 8 256 p [97]) = 5%nat.
Proof.
  split; [|split; [repeat split; reflexivity|reflexivity]].
  refine (skr_hash 8 256 (skein_type 8 256)
      [HBase (SetParam SkPers [1]); HBase (Absorb FStr [1; 2]); HBase (SetParam SkNonce [2]); HBase (SetParam SkKey [3; 4]); HBase (Absorb FStr [97])]
      _ (or_introl eq_refl) _); [repeat split; vm_compute; congruence|repeat constructor; reflexivity].
Qed.

(** ** BLAKE and ECHO: the salt is an argument of every compression. *)
Theorem C53_blake_inputs hs : In hs [224; 256; 384; 512] -> both_process (blake_type hs) (blake_static_type hs) (blake_spec hs)
  (fun s m => salted s (blake_inputs hs m))
  (fun _ h x => compressb (blake_w hs) h (be_words (wb (blake_w hs)) 4 (fst x)) (be_words (wb (blake_w hs)) 16 (fst (snd x))) (snd (snd x)))
  (fun _ => blake_IV hs) (fun _ h => firstn (N.to_nat (hs / 8)) (flat_map (be_bytes (wb (blake_w hs))) h)).
Proof.
  intros H. apply both_from; [exact (good_blake hs H)|]. intros p m. cbv beta.
  rewrite (salted_fold (fun s h x => compressb (blake_w hs) h (be_words (wb (blake_w hs)) 4 s) (be_words (wb (blake_w hs)) 16 (fst x)) (snd x)) p).
  exact (blake_fold hs p m).
Qed.
Theorem C53_blake hs1 hs2 s1 s2 m1 m2 : bl_reached hs1 s1 m1 -> bl_reached hs2 s2 m2 ->
  N.of_nat (length m1) < 2 ^ 61 -> N.of_nat (length m2) < 2 ^ 61 ->
  blake_IV hs1 = blake_IV hs2 -> salted s1 (blake_inputs hs1 m1) = salted s2 (blake_inputs hs2 m2) -> hs1 = hs2 /\ s1 = s2 /\ m1 = m2.
Proof. exact (bl_reached_bind hs1 hs2 s1 s2 m1 m2). Qed.
Theorem C53_echo_inputs hs : bits_up_to 512 hs -> both_process (echo_type hs) (echo_static_type hs) (echo_spec hs)
  (fun s m => salted s (echo_inputs hs m)) (fun _ V x => echo_compress hs (fst x) V (fst (snd x)) (snd (snd x)))
  (fun _ => repeat (le_bytes 16 hs) (echo_words hs)) (fun _ V => firstn (N.to_nat (hs / 8)) (concat V)).
Proof.
  intros H. apply both_from; [exact (good_echo hs H)|]. intros p m. cbv beta.
  rewrite (salted_fold (fun s V x => echo_compress hs s V (fst x) (snd x)) p). exact (echo_fold hs p m).
Qed.
Theorem C53_echo hs1 hs2 s1 s2 m1 m2 : ec_reached hs1 s1 m1 -> ec_reached hs2 s2 m2 ->
  repeat (le_bytes 16 hs1) (echo_words hs1) = repeat (le_bytes 16 hs2) (echo_words hs2) ->
  salted s1 (echo_inputs hs1 m1) = salted s2 (echo_inputs hs2 m2) -> hs1 = hs2 /\ s1 = s2 /\ m1 = m2.
Proof. exact (ec_reached_bind hs1 hs2 s1 s2 m1 m2). Qed.
Example C53_salts_reached : bl_reached 224 (repeat 1 16) [97] /\ ec_reached 224 (repeat 1 16) [97].
Proof.
  split.
  - refine (blr 224 (blake_type 224) [HBase (SetParam BlSalt (repeat 1 16)); HBase (Absorb FStr [97])] _ (or_introl eq_refl) _);
      [cbn; auto|repeat constructor; reflexivity].
  - refine (ecr 224 (echo_type 224) [HBase (SetParam EcSalt (repeat 1 16)); HBase (Absorb FStr [97])] _ (or_introl eq_refl) _);
      [repeat split; vm_compute; congruence|repeat constructor; reflexivity].
Qed.

Definition bind_theorems := (@C53_blake2_inputs, @C53_blake2x_inputs, @C53_blake2x_xof_inputs, @C53_blake2, @C53_nodes, @C53_x_node, @C53_blake2p_inputs, @C53_blake2p, @C53_skein_inputs, @C53_skein_xof_inputs,
  @C53_skein, @C53_blake_inputs, @C53_blake, @C53_echo_inputs, @C53_echo).
Print Assumptions bind_theorems.
