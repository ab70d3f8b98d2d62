(** * C55: domain separation between functions of one family.

    [processes], [both_process] and [xprocesses] (Inputs.v) say what the code feeds to a
    compression function or permutation, starting from which value; the theorems of C47,
    C43 and C53 give them for every hash function. Here: two different functions never do
    the same. *)
From Verif Require Import Base SpecCommon Hasher HasherSpec Library LibraryProof XLibraryProof LibraryTypes LibraryTypesProof
  Sha2 Sha2Spec Sha2Proof GroestlSpec KupynaSpec JhSpec StreebogSpec LshSpec KeccakSpec Sha3Spec K12 K12Spec Ascon AsconSpec EschSpec BlakeSpec EchoSpec
  Shake ShakeProof KmacProof K12Proof SpongeProof Kmac Inputs PadInj PadInjSponge Process ProcessTypes DomainSpec Domain.

(** ** Digest sizes that share a compression function start from different values *)

(** SHA-512/t for every t (t = 384 is SHA-384, t = 512 is SHA-512), as in C47_sha2. *)
Theorem C55_sha512 hs1 hs2 : bits_up_to 512 hs1 -> bits_up_to 512 hs2 -> iv_of W64 hs1 = iv_of W64 hs2 -> hs1 = hs2.
Proof. exact (sha512_sizes hs1 hs2). Qed.
Theorem C55_sha256 : iv_224 <> iv_256.
Proof. exact sha256_sizes. Qed.
Theorem C55_jh hs1 hs2 : bits_up_to 512 hs1 -> bits_up_to 512 hs2 -> jhs_iv hs1 = jhs_iv hs2 -> hs1 = hs2.
Proof. exact (jh_sizes hs1 hs2). Qed.
Theorem C55_lsh w hs1 hs2 : w = 64 \/ w = 32 -> bits_up_to (8 * w) hs1 -> bits_up_to (8 * w) hs2 -> lss_iv w hs1 = lss_iv w hs2 -> hs1 = hs2.
Proof. exact (lsh_sizes w hs1 hs2). Qed.
Theorem C55_groestl hs1 hs2 : bits_up_to 512 hs1 -> bits_up_to 512 hs2 ->
  grs_iv (grs_C hs1) hs1 = grs_iv (grs_C hs2) hs2 -> hs1 = hs2.
Proof. exact (groestl_sizes hs1 hs2). Qed.
Theorem C55_kupyna hs1 hs2 : In hs1 [256; 512] -> In hs2 [256; 512] -> kus_iv (kus_C hs1) = kus_iv (kus_C hs2) -> hs1 = hs2.
Proof. exact (kupyna_sizes hs1 hs2). Qed.
Theorem C55_streebog hs1 hs2 : In hs1 [256; 512] -> In hs2 [256; 512] -> sbs_iv hs1 = sbs_iv hs2 -> hs1 = hs2.
Proof. exact (streebog_sizes hs1 hs2). Qed.
Theorem C55_blake hs1 hs2 : In hs1 [224; 256; 384; 512] -> In hs2 [224; 256; 384; 512] -> blake_IV hs1 = blake_IV hs2 -> hs1 = hs2.
Proof. exact (blake_sizes hs1 hs2). Qed.
Theorem C55_echo hs1 hs2 : bits_up_to 512 hs1 -> bits_up_to 512 hs2 ->
  repeat (le_bytes 16 hs1) (echo_words hs1) = repeat (le_bytes 16 hs2) (echo_words hs2) -> hs1 = hs2.
Proof. exact (echo_sizes hs1 hs2). Qed.
Example C55_sizes : bits_up_to 512 224 /\ bits_up_to 512 232 /\ bits_up_to 256 232 /\ length (jhs_iv 232) = 128%nat /\ length (lss_iv 32 232) = 16%nat.
Proof. repeat split; vm_compute; congruence. Qed.

(** ** SHA-3, SHAKE, cSHAKE, KMAC and KMACXOF *)

(** All of them start from the zero state and absorb blocks of 200 bytes: their input
    blocks, extended with zeros. *)
Theorem C55_sha3_inputs hs : In hs [224; 256; 384; 512] ->
  both_process (sha3_type hs) (sha3_static_type hs) (sha3_spec (N.to_nat (hs / 8)))
    (fun _ m => map to_state (kf_inputs (FSha3 hs) m)) (fun _ => absorb_state 24) (fun _ => zeros 25)
    (fun _ => keccak_out 24 (200 - 2 * N.to_nat (hs / 8)) (N.to_nat (hs / 8))).
Proof. exact (sha3_wide hs). Qed.
Theorem C55_shake_inputs :
  xprocesses (shake_type 128) (shake_spec 16) (fun _ m => map to_state (kf_inputs (FShake 16) m))
    (fun _ => absorb_state 24) (fun _ => zeros 25) (fun _ A n => keccak_out 24 168 n A) /\
  xprocesses (shake_type 256) (shake_spec 32) (fun _ m => map to_state (kf_inputs (FShake 32) m))
    (fun _ => absorb_state 24) (fun _ => zeros 25) (fun _ A n => keccak_out 24 136 n A).
Proof. exact shake_wide. Qed.
Theorem C55_cshake_inputs :
  xprocesses (cshake_type 128) (cshake_spec 16) (fun p m => map to_state (kf_inputs (FCshake 16 (fst p) (snd p)) m))
    (fun _ => absorb_state 24) (fun _ => zeros 25) (fun _ A n => keccak_out 24 168 n A) /\
  xprocesses (cshake_type 256) (cshake_spec 32) (fun p m => map to_state (kf_inputs (FCshake 32 (fst p) (snd p)) m))
    (fun _ => absorb_state 24) (fun _ => zeros 25) (fun _ A n => keccak_out 24 136 n A).
Proof. exact cshake_wide. Qed.
Theorem C55_kmac_inputs hs : bits_up_to (2 ^ 64 - 1) hs ->
  both_process (kmac_type 128 hs) (kmac_static_type 128 hs) (kmac_spec 16 hs)
    (fun p m => map to_state (kf_inputs (FKmac 16 hs (fst p) (snd p)) m))
    (fun _ => absorb_state 24) (fun _ => zeros 25) (fun _ => keccak_out 24 168 (N.to_nat (hs / 8))) /\
  both_process (kmac_type 256 hs) (kmac_static_type 256 hs) (kmac_spec 32 hs)
    (fun p m => map to_state (kf_inputs (FKmac 32 hs (fst p) (snd p)) m))
    (fun _ => absorb_state 24) (fun _ => zeros 25) (fun _ => keccak_out 24 136 (N.to_nat (hs / 8))).
Proof. exact (kmac_wide hs). Qed.
Theorem C55_kmacxof_inputs :
  xprocesses (kmacxof_type 128) (kmacxof_spec 16) (fun p m => map to_state (kf_inputs (FKmac 16 0 (fst p) (snd p)) m))
    (fun _ => absorb_state 24) (fun _ => zeros 25) (fun _ A n => keccak_out 24 168 n A) /\
  xprocesses (kmacxof_type 256) (kmacxof_spec 32) (fun p m => map to_state (kf_inputs (FKmac 32 0 (fst p) (snd p)) m))
    (fun _ => absorb_state 24) (fun _ => zeros 25) (fun _ A n => keccak_out 24 136 n A).
Proof. exact kmacxof_wide. Qed.
(** Different functions, parameters or messages: different blocks, whatever the rates. *)
Theorem C55_keccak f1 f2 m1 m2 : kf_ok f1 -> kf_ok f2 -> is_bytes m1 -> is_bytes m2 ->
  map to_state (kf_inputs f1 m1) = map to_state (kf_inputs f2 m2) -> f1 = f2 /\ m1 = m2.
Proof. exact (kf_separate f1 f2 m1 m2). Qed.
(** The two exceptions in [kf_ok] are real: cSHAKE without name and customization is SHAKE,
    and cSHAKE with the name "KMAC" can be given what KMAC absorbs. *)
Theorem C55_keccak_exceptions : (forall sec m, kf_inputs (FCshake sec [] []) m = kf_inputs (FShake sec) m) /\
  (forall sec L key cust m, kf_inputs (FKmac sec L key cust) m = kf_inputs (FCshake sec KMAC_name cust) (kmac_input sec key m L)).
Proof. split; reflexivity. Qed.
Example C55_keccak_ok : kf_ok (FSha3 256) /\ kf_ok (FShake 32) /\ kf_ok (FCshake 32 [] [97]) /\ kf_ok (FKmac 32 0 [1; 2] []) /\ kf_ok (FKmac 16 256 [] [97]) /\
  kf_rate (FSha3 256) = kf_rate (FShake 32) /\ length (kf_inputs (FKmac 16 256 [] [97]) [98]) = 3%nat.
Proof.
  assert (H0 : short []) by (split; [constructor|reflexivity]). assert (H1 : short [97]) by (split; [repeat constructor|reflexivity]).
  assert (H2 : short [1; 2]) by (split; [repeat constructor|reflexivity]).
  cbn [kf_ok].
  split; [right; left; reflexivity|]. split; [right; reflexivity|].
  split; [split; [right; reflexivity|]; split; [exact H0|]; split; [exact H1|]; split; discriminate|].
  split; [split; [right; reflexivity|]; split; [reflexivity|]; split; assumption|].
  split; [split; [left; reflexivity|]; split; [reflexivity|]; split; assumption|].
  split; reflexivity.
Qed.

(** ** KangarooTwelve and KT256 (12 rounds) *)

(** The TurboSHAKE calls of the nodes, the final node last. M14 has another permutation. *)
Theorem C55_k12_inputs B nr sec : In (B, nr, sec) [(128, 12, 16); (256, 14, 32); (256, 12, 32)]%nat ->
  xprocesses (k12_type (N.of_nat B) nr) (kt_spec k12_param nr sec)
    (fun p m => map (map to_state) (kt_inputs nr sec (N.to_nat 8192) p m))
    (fun _ (_ : list N) blocks => fold_left (absorb_state nr) blocks (zeros 25)) (fun _ => zeros 25)
    (fun _ A n => keccak_out nr (200 - 2 * sec) n A).
Proof. exact (k12_wide B nr sec). Qed.
Theorem C55_k12 nr sec1 sec2 c1 c2 m1 m2 : In sec1 [16; 32]%nat -> In sec2 [16; 32]%nat -> short c1 -> short c2 ->
  map (map to_state) (kt_inputs nr sec1 (N.to_nat 8192) c1 m1) = map (map to_state) (kt_inputs nr sec2 (N.to_nat 8192) c2 m2) ->
  sec1 = sec2 /\ c1 = c2 /\ m1 = m2.
Proof. intros H1 H2. apply kt_separate; destruct H1 as [<-|[<-|[]]], H2 as [<-|[<-|[]]]; lia. Qed.

Example C55_k12_differ : map (map to_state) (kt_inputs 12 16 (N.to_nat 8192) [97] [98]) <> map (map to_state) (kt_inputs 12 32 (N.to_nat 8192) [97] [98]).
Proof.
  assert (H : short [97]) by (split; [repeat constructor|reflexivity]). intros E.
  apply C55_k12 in E; [destruct E as [E _]; discriminate E|left; reflexivity|right; left; reflexivity|exact H|exact H].
Qed.

(** ** Ascon and Esch *)

(** Ascon-Hash256, Ascon-XOF128 and Ascon-CXOF128 start from different states. *)
Theorem C55_ascon t1 t2 : ascon_start t1 = ascon_start t2 -> t1 = t2.
Proof. exact (ascon_starts t1 t2). Qed.
(** Esch and XOEsch have different constants in the last input. *)
Theorem C55_esch x1 x2 m1 m2 : is_bytes m1 -> is_bytes m2 -> esch_inputs x1 m1 = esch_inputs x2 m2 -> x1 = x2 /\ m1 = m2.
Proof. exact (esch_domains x1 x2 m1 m2). Qed.

Definition domain_theorems := (@C55_sha512, @C55_sha256, @C55_jh, @C55_lsh, @C55_groestl, @C55_kupyna, @C55_streebog, @C55_blake, @C55_echo,
@C55_sha3_inputs, @C55_shake_inputs, @C55_cshake_inputs, @C55_kmac_inputs, @C55_kmacxof_inputs, @C55_keccak, @C55_keccak_exceptions,
@C55_k12_inputs, @C55_k12, @C55_ascon, @C55_esch).
Print Assumptions domain_theorems.
