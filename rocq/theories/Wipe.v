(** * What clear() leaves in memory (C51). *)
From Verif Require Import Base Lemmas Hasher MdState Md5 Sha1 Sha2 Sm3 Whirlpool TTable Groestl Kupyna Streebog Jh Lsh
  Blake Echo Skein Blake2 Blake2p Sha3 Shake Kmac K12 Ascon Esch.

(** ** The memory that holds secrets: chaining state, message buffer, key material.
    The members at e.g. md5_provider.hpp:188-191. *)
Definition st_mem (s : st) : list (list N) := [sh s; sm s].
(** h contains the message buffer (echo_provider.hpp:209). echo_provider.hpp:280-281. *)
Definition ec_mem (s : ec_st) : list (list N) := st_mem (ecs s) ++ [ecsalt s].
(** skein_provider.hpp:380-387. *)
Definition sk_mem (s : sk_st) : list (list N) := st_mem (skc s) ++ [skhb s; skp s; skn s; skk s].
(** blake2_provider.hpp:377-381. *)
Definition b2_mem (s : b2_st) : list (list N) := st_mem (b2c s) ++ [b2s s; b2p s; b2k s].
(** blake2p_provider.hpp:179-181. *)
Definition b2p_mem_of (s : b2p_st) : list (list N) := bpm s :: b2_mem (bpmain s) ++ flat_map b2_mem (bpleaf s).
(** shake_provider.hpp:169-172. *)
Definition shake_mem (s : shake_st) : list (list N) := st_mem (hk s) ++ [hN s; hS s].
(** kmac_provider.hpp:123-124. *)
Definition kmac_mem (s : kmac_st) : list (list N) := kmK s :: shake_mem (kmsh s).
(** k12m14_provider.hpp:133-136. *)
Definition k12_mem (s : k12_st) : list (list N) := km s :: kS s :: shake_mem (kmain s) ++ shake_mem (kchild s).

(** Specification; no code of /repo. *)
Definition all_zero (mem : list (list N)) : Prop := Forall (Forall (fun b => b = 0)) mem.

(** clear() overwrites the whole memory with zeros. Specification; no code of /repo. *)
Definition wipes (P : provider) (mem : pst P -> list (list N)) : Prop :=
  forall s, exists s', p_clear P s = Ok s' /\ all_zero (mem s') /\ map (@length N) (mem s') = map (@length N) (mem s).
(** The same when clear() first runs zero_memory ([w], on states whose arrays have the right
    length) and then empties the strings or sets other non-secret fields ([d]).
    Specification; no code of /repo. *)
Definition wipes_then (P : provider) (mem : pst P -> list (list N)) (ok : pst P -> Prop) (w d : pst P -> pst P) : Prop :=
  forall s, ok s -> p_clear P s = Ok (d (w s)) /\ all_zero (mem (w s)) /\
    map (@length N) (mem (w s)) = map (@length N) (mem s).

Lemma zero_ok l : Forall (fun b => b = 0) (zero_memory l).
Proof. unfold zero_memory, zeros. induction (length l); constructor; auto. Qed.
Lemma zero_len l : length (zero_memory l) = length l.
Proof. apply zeros_length. Qed.
Ltac wiped := unfold all_zero; cbn -[zero_memory]; repeat apply Forall_cons; try apply Forall_nil;
  try apply zero_ok; repeat constructor.
Ltac wipe := intros s; eexists; split; [reflexivity|]; split; [wiped|cbn -[zero_memory]; rewrite ?zero_len; reflexivity].

Lemma md5_wipes : wipes md5 st_mem. Proof. wipe. Qed.
Lemma sha1_wipes : wipes sha1 st_mem. Proof. wipe. Qed.
Lemma sha256_wipes : wipes sha256_family (fun s => st_mem (s2 s)). Proof. wipe. Qed.
Lemma sha512_wipes : wipes sha512_family (fun s => st_mem (s2 s)). Proof. wipe. Qed.
Lemma sm3_wipes sem : wipes (sm3 sem) st_mem. Proof. wipe. Qed.
Lemma whirlpool_wipes : wipes whirlpool st_mem. Proof. wipe. Qed.
Lemma groestl_wipes : wipes groestl (fun s => st_mem (cls s)). Proof. wipe. Qed.
Lemma kupyna_wipes : wipes kupyna (fun s => st_mem (cls s)). Proof. wipe. Qed.
Lemma streebog_wipes : wipes streebog (fun s => st_mem (sbs s)). Proof. wipe. Qed.
Lemma jh_wipes : wipes jh (fun s => st_mem (jhs s)). Proof. wipe. Qed.
Lemma lsh_wipes sem w : wipes (lsh sem w) (fun s => st_mem (lss s)). Proof. wipe. Qed.
Lemma blake_wipes : wipes blake (fun s => st_mem (bls s)). Proof. wipe. Qed.
Lemma echo_wipes : wipes echo ec_mem. Proof. wipe. Qed.
Lemma sha3_wipes : wipes sha3 (fun s => st_mem (k3 s)). Proof. wipe. Qed.
Lemma esch_wipes : wipes esch (fun s => st_mem (ek s)). Proof. wipe. Qed.
Lemma esch_xof_wipes : wipes esch_xof (fun s => st_mem (ek s)). Proof. wipe. Qed.
Lemma ascon_hash_wipes : wipes ascon_hash (fun s => st_mem (ak s)). Proof. wipe. Qed.
Lemma ascon_xof_wipes : wipes ascon_xof (fun s => st_mem (ak s)). Proof. wipe. Qed.
Lemma ascon_cxof_wipes : wipes ascon_cxof (fun s => st_mem (ak s)). Proof. wipe. Qed.

(** Used in proofs; no code of /repo. *)
Definition any {A} (_ : A) : Prop := True.
Ltac wipe_then := intros s _; split; [reflexivity|]; split; [wiped|cbn -[zero_memory]; rewrite ?zero_len; reflexivity].
(** skein_provider.hpp:309-311. *)
Definition sk_drop (s : sk_st) : sk_st := mksk (skc s) (skhb s) (skhs s) (sksq s) [] [] [].
(** shake_provider.hpp:164-165. *)
Definition shake_drop (s : shake_st) : shake_st := mksh (hk s) [] [] (hsq s) (hsfx s).
(** k12m14_provider.hpp:124-128. *)
Definition k12_drop (s : k12_st) : k12_st :=
  mkk12 (shake_drop (kmain s)) (shake_drop (kchild s)) (km s) [] (kpos s) (ktotal s) (kchunk s) (ksq s).
(** K then holds the encoding of the empty key. kmac_provider.hpp:115. *)
Definition kmac_drop (B : N) (s : kmac_st) : kmac_st :=
  mkkm (kmac_bytepad B []) (kmhs s) (kmsq s) (shake_drop (kmsh s)).
(** blake2_provider.hpp:296-300. *)
Definition b2_drop (s : b2_st) : b2_st :=
  mkb2 (b2c s) (b2s s) (b2p s) [] (b2hs s) (b2xo s) (b2sq s) 0 0 0.
Lemma skein_wipes nw : wipes_then (skein nw) sk_mem any sk_wipe sk_drop. Proof. wipe_then. Qed.
Lemma skein_xof_wipes nw : wipes_then (skein_xof nw) sk_mem any sk_wipe sk_drop. Proof. wipe_then. Qed.
Lemma shake_wipes B : wipes_then (shake B 24) shake_mem any shake_wipe shake_drop. Proof. wipe_then. Qed.
Lemma cshake_wipes B : wipes_then (cshake B 24) shake_mem any shake_wipe shake_drop. Proof. wipe_then. Qed.
Lemma k12_wipes B R : wipes_then (k12 B R) k12_mem any k12_wipe k12_drop. Proof. wipe_then. Qed.
Lemma kmac_wipes B : wipes_then (kmac B) kmac_mem any kmac_wipe (kmac_drop B). Proof. wipe_then. Qed.
Lemma kmacxof_wipes B : wipes_then (kmacxof B) kmac_mem any kmac_wipe (kmac_drop B). Proof. wipe_then. Qed.

(** blake2_provider.hpp:378-379. *)
Definition b2_arrays (s : b2_st) : Prop := length (b2s s) = 2%nat /\ length (b2p s) = 2%nat.
Lemma b2_wipe_zero s : all_zero (b2_mem (b2_wipe s)).
Proof. wiped. Qed.
Lemma b2_wipe_len s : b2_arrays s -> map (@length N) (b2_mem (b2_wipe s)) = map (@length N) (b2_mem s).
Proof. intros [H1 H2]. cbn -[zero_memory]. rewrite !zero_len, H1, H2. reflexivity. Qed.
Lemma blake2_wipes w ty : wipes_then (blake2 w ty) b2_mem b2_arrays b2_wipe b2_drop.
Proof. intros s H. split; [reflexivity|]. split; [apply b2_wipe_zero|apply b2_wipe_len, H]. Qed.
Lemma blake2x_xof_wipes w : wipes_then (blake2x_xof w) b2_mem b2_arrays b2_wipe b2_drop.
Proof. intros s H. split; [reflexivity|]. split; [apply b2_wipe_zero|apply b2_wipe_len, H]. Qed.

(** blake2p: the inner objects too. blake2p_provider.hpp:134-137. *)
Definition b2p_wipe (s : b2p_st) : b2p_st :=
  mkb2pst (b2_wipe (bpmain s)) (map b2_wipe (bpleaf s)) (zero_memory (bpm s)) (bppos s) (bptotal s) (bphs s).
(** blake2p_provider.hpp:135-137. *)
Definition b2p_drop (s : b2p_st) : b2p_st :=
  mkb2pst (b2_drop (bpmain s)) (map b2_drop (bpleaf s)) (bpm s) (bppos s) (bptotal s) (bphs s).
(** blake2_provider.hpp:378-379. *)
Definition b2p_arrays (s : b2p_st) : Prop := b2_arrays (bpmain s) /\ Forall b2_arrays (bpleaf s).
Lemma each_map {A B} (f : A -> B) l : forall i, each (fun _ x => Ok (f x)) i l = Ok (map f l).
Proof. induction l as [|x l IH]; intros i; [reflexivity|]. cbn [each bind map]. rewrite IH. reflexivity. Qed.
Lemma blake2p_wipes w tf : wipes_then (blake2p_with w tf) b2p_mem_of b2p_arrays b2p_wipe b2p_drop.
Proof.
  intros s [H1 H2]. split; [|split].
  - cbn [p_clear blake2p_with hp]. unfold b2p_clear.
    change (each (fun _ : nat => b2_clear)) with (each (fun (_ : nat) x => Ok (b2_drop (b2_wipe x)))).
    rewrite each_map. cbn [bind b2_clear]. unfold b2p_drop, b2p_wipe. cbn [bpleaf bpmain bpm bppos bptotal bphs].
    rewrite map_map. reflexivity.
  - unfold all_zero, b2p_mem_of, b2p_wipe. cbn [bpleaf bpmain bpm]. apply Forall_cons; [apply zero_ok|].
    apply Forall_app. split; [apply b2_wipe_zero|]. apply Forall_flat_map. apply Forall_map.
    apply Forall_forall. intros x _. apply b2_wipe_zero.
  - unfold b2p_mem_of, b2p_wipe. cbn [bpleaf bpmain bpm map]. rewrite zero_len, !map_app, b2_wipe_len by exact H1.
    do 2 f_equal. induction H2 as [|x l Hx _ IH]; [reflexivity|]. cbn [map flat_map]. rewrite !map_app, IH, b2_wipe_len by exact Hx.
    reflexivity.
Qed.

(** ** reset(true): nothing of the history is left *)
(** [shape]: digest size and lengths of the arrays, which do not change during the life of
    an object. Specification; no code of /repo. *)
Definition forgets (P : provider) {A} (shape : pst P -> A) : Prop :=
  forall s1 s2, shape s1 = shape s2 -> reset P true s1 = reset P true s2.
(** Specification; no code of /repo. *)
Definition st_shape (s : st) : nat * nat := (length (sh s), length (sm s)).
Lemma zero_ext a b : length a = length b -> zero_memory a = zero_memory b.
Proof. unfold zero_memory. intros ->. reflexivity. Qed.
Ltac same_shape H := unfold st_shape in H; injection H; clear H; intros;
  repeat match goal with H : length _ = length _ |- _ => apply zero_ext in H end.
Ltac forget C I := intros x1 x2 H; same_shape H; unfold reset;
  cbn [p_clear p_init hp xp md5 sha1 sha256_family sha512_family sm3 whirlpool groestl kupyna streebog jh lsh blake echo
    sha3 esch esch_xof ascon_hash ascon_xof]; unfold C; cbn [bind]; unfold I; cbn [bind sh sm s2 s2_hs cls clhs sbs sbhs jhs jhhs lss lshs
    bls blhs ecs ecsalt echs k3 k3_hs k3_rate ek ehs ak aZ];
  repeat match goal with H : _ = _ |- _ => rewrite H; clear H end; reflexivity.
Lemma md5_forgets : forgets md5 st_shape.
Proof. forget md5_clear md5_init. Qed.
Lemma sha1_forgets : forgets sha1 st_shape.
Proof. forget sha1_clear sha1_init. Qed.
Lemma sha256_forgets : forgets sha256_family (fun s => (s2_hs s, st_shape (s2 s))).
Proof. forget sha2_clear sha256_init. Qed.
Lemma sm3_forgets sem : forgets (sm3 sem) st_shape.
Proof. forget sm3_clear sm3_init. Qed.
Lemma whirlpool_forgets : forgets whirlpool st_shape.
Proof. forget wp_clear wp_init. Qed.
Lemma groestl_forgets : forgets groestl (fun s => (clhs s, st_shape (cls s))).
Proof. forget gr_clear gr_init. Qed.
Lemma kupyna_forgets : forgets kupyna (fun s => (clhs s, st_shape (cls s))).
Proof. forget ku_clear ku_init. Qed.
Lemma streebog_forgets : forgets streebog (fun s => (sbhs s, st_shape (sbs s))).
Proof. forget sb_clear sb_init. Qed.
Lemma jh_forgets : forgets jh (fun s => (jhhs s, st_shape (jhs s))).
Proof. forget jh_clear jh_init. Qed.
Lemma lsh_forgets sem w : forgets (lsh sem w) (fun s => (lshs s, st_shape (lss s))).
Proof. forget lsh_clear lsh_init. Qed.
Lemma blake_forgets : forgets blake (fun s => (blhs s, st_shape (bls s))).
Proof. forget bl_clear bl_init. Qed.
Lemma sha3_forgets : forgets sha3 (fun s => (k3_hs s, k3_rate s, st_shape (k3 s))).
Proof. forget sha3_clear sha3_init. Qed.
Lemma esch_forgets : forgets esch (fun s => (ehs s, st_shape (ek s))).
Proof. forget esch_clear esch_init. Qed.
Lemma esch_xof_forgets : forgets esch_xof (fun s => (ehs s, st_shape (ek s))).
Proof. forget esch_clear esch_init. Qed.
Lemma echo_forgets : forgets echo (fun s => (echs s, length (ecsalt s))).
Proof. forget ec_clear ec_init. Qed.
Lemma sha512_forgets : forgets sha512_family (fun s => (s2_hs s, st_shape (s2 s))).
Proof. forget sha2_clear sha512_init. Qed.
Lemma ascon_hash_forgets : forgets ascon_hash (fun s => (aZ s, st_shape (ak s))).
Proof. forget ascon_clear ascon_init. Qed.
Lemma ascon_xof_forgets : forgets ascon_xof (fun s => (aZ s, st_shape (ak s))).
Proof. forget ascon_clear ascon_init. Qed.

Ltac forget' H := intros x1 x2 H; same_shape H; unfold reset;
  cbn [p_clear p_init hp xp skein skein_xof sk_base shake cshake kmac kmacxof kmac_base k12 blake2 blake2x_xof b2_base].
Ltac use_all := repeat match goal with H : _ = _ |- _ => rewrite H; clear H end; reflexivity.
Lemma skein_forgets nw : forgets (skein nw) (fun s => (skhs s, st_shape (skc s), length (skhb s))).
Proof. forget' H. unfold sk_clear, sk_wipe, sk_init, sk_H. cbn [bind skc skhb skhs sksq skp skn skk sh sm]. use_all. Qed.
Lemma skein_xof_forgets nw : forgets (skein_xof nw) (fun s => (skhs s, st_shape (skc s), length (skhb s))).
Proof. forget' H. unfold sk_clear, sk_wipe, sk_init, sk_H. cbn [bind skc skhb skhs sksq skp skn skk sh sm]. use_all. Qed.
Lemma shake_forgets B : forgets (shake B 24) (fun s => st_shape (hk s)).
Proof. forget' H. unfold shake_clear, shake_wipe, shake_init. cbn [bind hk hN hS hsq hsfx sh sm]. use_all. Qed.
Lemma cshake_forgets B : forgets (cshake B 24) (fun s => st_shape (hk s)).
Proof. forget' H. unfold shake_clear, shake_wipe, shake_init. cbn [bind hk hN hS hsq hsfx sh sm]. use_all. Qed.
Lemma kmac_forgets B : forgets (kmac B) (fun s => (kmhs s, st_shape (hk (kmsh s)))).
Proof. forget' H. unfold kmac_clear, kmac_init, shake_clear, shake_wipe, shake_init. cbn [bind kmK kmhs kmsq kmsh hk hN hS hsq hsfx sh sm]. use_all. Qed.
Lemma kmacxof_forgets B : forgets (kmacxof B) (fun s => (kmhs s, st_shape (hk (kmsh s)))).
Proof. forget' H. unfold kmac_clear, kmac_init, shake_clear, shake_wipe, shake_init. cbn [bind kmK kmhs kmsq kmsh hk hN hS hsq hsfx sh sm]. use_all. Qed.
Lemma blake2_forgets w ty : forgets (blake2 w ty) (fun s => (b2hs s, st_shape (b2c s))).
Proof. forget' H. unfold b2_clear, b2_wipe, b2_init. cbn [bind b2c b2s b2p b2k b2hs b2xo b2sq b2fo b2nd b2no sh sm]. use_all. Qed.
Lemma blake2x_xof_forgets w : forgets (blake2x_xof w) (fun s => (b2hs s, st_shape (b2c s))).
Proof. forget' H. unfold b2_clear, b2_wipe, b2_init. cbn [bind b2c b2s b2p b2k b2hs b2xo b2sq b2fo b2nd b2no sh sm]. use_all. Qed.
(** The leaves and the root of blake2p. Specification; no code of /repo. *)
Definition b2_shape (s : b2_st) := (b2hs s, st_shape (b2c s)).
Lemma b2_reset_eq w : forall x1 x2, b2_shape x1 = b2_shape x2 ->
  (s <- b2_clear x1 ;; b2_init w BHash s) = (s <- b2_clear x2 ;; b2_init w BHash s).
Proof. exact (blake2_forgets w BHash). Qed.
Lemma each_eq {A B} (f : A -> res B) l1 : forall l2 i, map (fun x => f x) l1 = map f l2 -> each (fun _ => f) i l1 = each (fun _ => f) i l2.
Proof.
  induction l1 as [|x l1 IH]; intros [|y l2] i H; try discriminate; [reflexivity|]. cbn [map] in H. injection H as H1 H2.
  cbn [each]. rewrite H1, (IH l2 _ H2). reflexivity.
Qed.
Lemma blake2p_forgets w tf : forgets (blake2p_with w tf)
  (fun s => (bphs s, length (bpm s), b2_shape (bpmain s), map b2_shape (bpleaf s))).
Proof.
  intros x1 x2 H.
  assert (H' : bphs x1 = bphs x2 /\ length (bpm x1) = length (bpm x2) /\ b2_shape (bpmain x1) = b2_shape (bpmain x2) /\
    map b2_shape (bpleaf x1) = map b2_shape (bpleaf x2)) by (repeat split; congruence).
  clear H. destruct H' as (H1 & H2 & H3 & H4). apply zero_ext in H2. unfold reset. cbn [p_clear p_init hp blake2p_with].
  unfold b2p_clear. change (each (fun _ : nat => b2_clear)) with (each (fun (_ : nat) x => Ok (b2_drop (b2_wipe x)))).
  rewrite !each_map. cbn [bind b2_clear]. unfold b2p_init. cbn [bpmain bpleaf bpm bphs].
  pose proof (b2_reset_eq w _ _ H3) as E. unfold b2_clear in E. cbn [bind] in E. unfold b2_clear. rewrite E. clear E.
  rewrite (each_eq (b2_init w BHash) (map (fun x => b2_drop (b2_wipe x)) (bpleaf x1)) (map (fun x => b2_drop (b2_wipe x)) (bpleaf x2))).
  - rewrite H1, H2. reflexivity.
  - clear - H4. revert H4. generalize (bpleaf x1) (bpleaf x2). intros l1. induction l1 as [|x l1 IH]; intros [|y l2] H; try discriminate; [reflexivity|].
    cbn [map] in *. assert (Ha : b2_shape x = b2_shape y) by congruence. assert (Hb : map b2_shape l1 = map b2_shape l2) by congruence.
    rewrite (IH l2 Hb). f_equal. exact (b2_reset_eq w _ _ Ha).
Qed.
(** K12 keeps the stale position and flags of the child object, which is initialised before
    its next use; its memory does not depend on the history. Specification; no code of /repo. *)
Definition forgets_mem (P : provider) (mem : pst P -> list (list N)) {A} (shape : pst P -> A) : Prop :=
  forall s1 s2 s1', shape s1 = shape s2 -> reset P true s1 = Ok s1' ->
  exists s2', reset P true s2 = Ok s2' /\ mem s1' = mem s2'.
Lemma k12_forgets B R : forgets_mem (k12 B R) k12_mem
  (fun s => (length (km s), st_shape (hk (kmain s)), st_shape (hk (kchild s)))).
Proof.
  intros x1 x2 x H E. same_shape H. revert E. unfold reset. cbn [p_clear p_init xp k12].
  unfold k12_clear, k12_wipe, k12_init, shake_clear, shake_wipe, shake_init. cbn [bind kmain kchild km kS hk hN hS hsq hsfx sh sm kpos ktotal kchunk ksq].
  intros E. injection E as <-. eexists. split; [reflexivity|]. unfold k12_mem, shake_mem, st_mem. cbn [bind kmain kchild km kS hk hN hS hsq hsfx sh sm].
  use_all.
Qed.
(** ascon_cxof keeps the customization string. *)
Lemma ascon_cxof_keeps : exists s1 s2 : ascon_st, st_shape (ak s1) = st_shape (ak s2) /\
  p_clear ascon_cxof s1 = Ok s1 /\ p_clear ascon_cxof s2 = Ok s2 /\ aZ s1 <> aZ s2.
Proof.
  exists (mkas (mkst (zeros 5) (zeros 64) 0 0) [115] false), (mkas (mkst (zeros 5) (zeros 64) 0 0) [] false).
  repeat split. discriminate.
Qed.
Lemma md5_reset_iv : exists s s', reset md5 true s = Ok s' /\ ~ all_zero (st_mem s').
Proof.
  exists (mkst (zeros 4) (zeros 64) 0 0). eexists. split; [reflexivity|].
  intros H. inversion H as [|? ? H1 ?]. inversion H1. discriminate.
Qed.
