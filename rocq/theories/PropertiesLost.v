(** * Fixed-output types in arbitrary histories, and blake2bp / blake2sp after reset(true).

    [hany] admits every sequence of calls with byte arguments, reset(true) included, on
    every type. *)
From Verif Require Import Base Hasher HasherSpec Library LibraryTypes LibraryProof LibraryMore AnyCalls LibraryAny TwoPhase
  Blake2 Blake2Spec Blake2p Blake2pSpec Blake2Sim Blake2pLostSpec Blake2pLost.

(** ** C01, C02, C52 *)
Theorem C01_any_history P (T : htype P) : library T -> forall g pre l f post,
  f <> FBadStream -> ht_mem_ok T g -> hany pre -> Forall (fun p => is_bytes (snd p)) l -> hany post ->
  exists r, after T g (pre ++ map ab l) post = Ok r /\
    after T g (pre ++ [HBase (Absorb f (stream_bytes l))]) post = Ok r.
Proof. intros H. destruct (library_good2 P T H) as (S & lost & G). exact (forms2 G). Qed.
Theorem C01_any_history_empty P (T : htype P) : library T -> forall g pre f post,
  ht_mem_ok T g -> hany pre -> hany post ->
  exists r, after T g (pre ++ [HBase (Absorb f [])]) post = Ok r /\ after T g pre post = Ok r.
Proof. intros H. destruct (library_good2 P T H) as (S & lost & G). exact (nothing2 G). Qed.
Theorem C02_any_history P (T : htype P) : library T -> forall g pre f1 f2 d post,
  f1 <> FBadStream -> f2 <> FBadStream -> ht_mem_ok T g -> hany pre -> is_bytes d -> hany post ->
  exists r, after T g (pre ++ [HBase (Absorb f1 d)]) post = Ok r /\
    after T g (pre ++ [HBase (Absorb f2 d)]) post = Ok r.
Proof.
  intros H g pre f1 f2 d post H1 H2 Hg Hp Hd Hq.
  destruct (C01_any_history P T H g pre [(f1, d)] f2 post H2 Hg Hp (Forall_cons (f1, d) Hd (Forall_nil _)) Hq) as (r & E1 & E2).
  exists r. split; [exact E1|]. unfold stream_bytes in E2. cbn [flat_map fst snd] in E2. rewrite app_nil_r in E2.
  destruct f1; try contradiction; exact E2.
Qed.
Theorem C52_any_history P (T : htype P) : library T -> forall g pre ops d,
  ht_mem_ok T g -> hany pre -> hany ops -> forallb absorb_or_digest ops = true -> is_digest d = true ->
  exists b, after T g (pre ++ ops) [d] = Ok [b] /\ after T g (pre ++ [HBase (Absorb FPtr (pieces ops))]) [d] = Ok [b].
Proof. intros H. destruct (library_good2 P T H) as (S & lost & G). exact (pieces2 G). Qed.

(** ** C04, C39

    [kept pre]: the set_* calls since the last reset(true), after one reset(true) if there
    was any. *)
Theorem C04_any_history P (T : htype P) : library T -> forall g pre post,
  ht_mem_ok T g -> hany pre -> hany post ->
  exists r, after T g (pre ++ [HBase (Reset false)]) post = Ok r /\ after T g (kept pre) post = Ok r.
Proof. intros H. destruct (library_good2 P T H) as (S & lost & G). exact (reset2 G). Qed.
Theorem C39_any_history P (T : htype P) : library T -> forall g pre q v post,
  ht_mem_ok T g -> hany pre -> is_bytes v -> hany post -> ht_accepts T q v = true ->
  exists r, after T g (pre ++ [HBase (SetParam q v)]) post = Ok r /\
    after T g (kept pre ++ [HBase (SetParam q v)]) post = Ok r.
Proof.
  intros H g pre q v post Hg Hp Hv Hq Ha. destruct (library_good2 P T H) as (S & lost & G).
  apply (set2 G); auto. rewrite (any_set_throws T H g pre q v Hg Hp Hv), Ha. reflexivity.
Qed.

(** ** C06, C07 *)
Theorem C06_any_history P (T : htype P) : library T -> forall g pre, ht_mem_ok T g -> hany pre ->
  exists d, length d = ht_size T /\ after T g pre [HDigestIter] = Ok [OBytes d] /\
    forall buf, after T g pre [HDigestBuf buf] =
      Ok [if (length buf <? ht_size T)%nat then OThrow else OBytes (d ++ skipn (ht_size T) buf)].
Proof.
  intros H g pre Hg Hp. destruct (library_good2 P T H) as (S & lost & G).
  destruct (digest_forms2 G g pre Hg Hp) as (d & D1 & D2 & D3 & D4 & D5). eauto.
Qed.
Theorem C07_any_history P (T : htype P) : library T -> forall g pre, ht_mem_ok T g -> hany pre ->
  exists d h, after T g pre [HDigestIter] = Ok [OBytes d] /\ after T g pre [HHexDigest] = Ok [OBytes h] /\
    is_bytes d /\ h = spec_hex d /\ length h = (2 * ht_size T)%nat /\ Forall is_hex_char h /\ hex_decode h = d.
Proof.
  intros H g pre Hg Hp. destruct (library_good2 P T H) as (S & lost & G).
  destruct (digest_forms2 G g pre Hg Hp) as (d & D1 & D2 & D3 & D4 & D5).
  exists d, (spec_hex d). destruct (spec_hex_chars d D2) as [C1 C2]. rewrite D1 in C2.
  repeat (split; auto using hex_decode_ok).
Qed.

(** ** C13 *)
Theorem C13_any_history P (T T' : htype P) : static_pair T T' -> forall g g' pre post,
  ht_mem_ok T g -> ht_mem_ok T' g' -> hany pre -> hany post ->
  ht_size T = ht_size T' /\ after T g pre post = after T' g' pre post.
Proof. exact (static2 P T T'). Qed.

(** ** C05, C25: what blake2bp and blake2sp compute after reset(true)

    [blake2p_lost] (Blake2pLostSpec.v): the message is dealt out to the leaves as before,
    but every node is an ordinary sequential BLAKE2 of the given length, key, salt and
    personalization. The parameters themselves are back at their defaults, and set_*
    calls, absorb and digest work on that function. *)
Theorem C05_blake2p_lost w hs : w = 64 \/ w = 32 -> bits_up_to (8 * w) hs -> forall (T : htype (blake2p w)),
  T = blake2p_type w hs \/ T = blake2p_static_type w hs -> forall g pre post, ht_mem_ok T g -> hany pre -> hany post ->
  after T g (pre ++ [HBase (Reset true)]) post = Ok (snd (arun (blake2p_lost_spec w hs) (afresh (blake2p_lost_spec w hs)) post)).
Proof. exact (lost_after w hs). Qed.
Theorem C05_blake2p_omp_lost w hs sch : w = 64 \/ w = 32 -> bits_up_to (8 * w) hs -> any_schedule w sch ->
  forall (T : htype (blake2p_omp w sch)), T = blake2p_omp_type w hs sch \/ T = blake2p_omp_static_type w hs sch ->
  forall g pre post, ht_mem_ok T g -> hany pre -> hany post ->
  after T g (pre ++ [HBase (Reset true)]) post = Ok (snd (arun (blake2p_lost_spec w hs) (afresh (blake2p_lost_spec w hs)) post)).
Proof. exact (lost_after_omp w hs sch). Qed.
(** One message, one key. *)
Theorem C25_reset_true_lost w hs : w = 64 \/ w = 32 -> bits_up_to (8 * w) hs -> forall g pre key msg,
  ht_mem_ok (blake2p_type w hs) g -> hany pre -> is_bytes key -> is_bytes msg -> (N.of_nat (length key) <= w) ->
  after (blake2p_type w hs) g (pre ++ [HBase (Reset true)])
    [HBase (SetParam B2Key key); HBase (Absorb FPtr msg); HDigestIter] =
  Ok [ODone; ODone; OBytes (blake2p_lost w (hs / 8) key (zeros (2 * wb w)) (zeros (2 * wb w)) msg)].
Proof.
  intros Hw Hhs g pre key msg Hg Hp Hk Hm Hl.
  rewrite (C05_blake2p_lost w hs Hw Hhs _ (or_introl eq_refl)); auto.
  - cbn [arun astep abase blake2p_lost_spec sp_set afresh sp_default sp_digest]. unfold b2_spec_set.
    replace (length key <=? hb w)%nat with true; [reflexivity|]. symmetry. apply Nat.leb_le.
    destruct Hw; subst w; cbn; lia.
  - repeat (apply Forall_cons || apply Forall_nil); cbn; auto.
Qed.

Example lost_example : hany (param := b2_param) [HBase (Absorb FStr [1; 2]); HBase (Reset true); HDigestIter; HBase (SetParam B2Key [1; 2])] /\
  ~ hcalls (blake2p_type 64 512) [HBase (Reset true)] /\ library (blake2p_type 64 512) /\ bits_up_to (8 * 64) 512 /\
  kept (param := b2_param) [HBase (SetParam B2Salt [7]); HBase (Reset true); HDigestIter; HBase (SetParam B2Key [1; 2])]
  = [HBase (Reset true); HBase (SetParam B2Key [1; 2])].
Proof.
  split; [repeat constructor|]. split; [|split; [constructor; repeat split; reflexivity || discriminate|repeat split; discriminate]].
  intros H. apply Forall_inv in H. specialize (H eq_refl). discriminate H.
Qed.
(** The function differs from BLAKE2bp already on the empty message. *)
Example lost_differs : blake2p_lost 64 64 [] (zeros 16) (zeros 16) [] <> blake2p_hash 64 64 [] (zeros 16) (zeros 16) [].
Proof. intros H. apply (f_equal (fun l => hd 0 l)) in H. vm_compute in H. discriminate H. Qed.

Definition lost_all := (C01_any_history, C01_any_history_empty, C02_any_history, C52_any_history, C04_any_history, C39_any_history,
  C06_any_history, C07_any_history, C13_any_history, C05_blake2p_lost, C05_blake2p_omp_lost, C25_reset_true_lost).
Print Assumptions lost_all.
