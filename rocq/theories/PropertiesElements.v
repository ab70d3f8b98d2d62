(** * C66: element types of arguments and results.

    [low_byte v] is [v mod 256]; [documented] are char, signed char and unsigned char; [cs] says
    whether char is signed. *)
From Coq Require Import ZArith.
From Verif Require Import Base Hasher Library LibraryTypes Elements ElementsProof.
From Verif Require Import PropertiesApi.
Local Open Scope N_scope.

(** C66, arguments: every form of absorb() compiles for the documented types and absorbs the
    values modulo 256, iterators also over other integer types; setters alike. *)
Theorem C66_absorb_documented cs f E vs : documented E -> absorb_of cs f E vs = Some (map low_byte vs).
Proof. exact (absorb_of_documented cs f E vs). Qed.
Theorem C66_absorb_iterator cs n s vs : absorb_of cs FIter (TInt n s) vs = Some (map low_byte vs).
Proof. exact (absorb_of_ints cs n s vs). Qed.
Theorem C66_set_documented cs E vs : documented E -> set_of cs E vs = Some (map low_byte vs).
Proof. intros [->|[->| ->]]; reflexivity. Qed.
(** Pointers, arrays, strings and streams of other integers do not compile, iterators over
    std::byte neither. *)
Theorem C66_absorb_others cs f n s vs : f <> FIter -> absorb_of cs f (TInt n s) vs = None.
Proof. destruct f; [reflexivity..|congruence]. Qed.
Theorem C66_absorb_std_byte cs f vs :
  absorb_of cs f TStdByte vs = match f with FIter => None | _ => Some (map low_byte vs) end.
Proof. destruct f; reflexivity. Qed.

(** Calls that compile and whose values agree modulo 256 are the same to every hasher. *)
Theorem C66_absorb_same P (T : htype P) : library T -> forall cs f1 f2 E1 E2 vs1 vs2 d1 d2 g pre post,
  absorb_of cs f1 E1 vs1 = Some d1 -> absorb_of cs f2 E2 vs2 = Some d2 -> map low_byte vs1 = map low_byte vs2 ->
  f1 <> FBadStream -> f2 <> FBadStream -> ht_mem_ok T g -> hcalls T pre -> hcalls T post ->
  exists r, after T g (pre ++ [HBase (Absorb f1 d1)]) post = Ok r /\ after T g (pre ++ [HBase (Absorb f2 d2)]) post = Ok r.
Proof.
  intros H cs f1 f2 E1 E2 vs1 vs2 d1 d2 g pre post A1 A2 E H1 H2 Hg Hp Hq.
  rewrite (absorb_of_low _ _ _ _ _ A1), (absorb_of_low _ _ _ _ _ A2), E.
  exact (C02_absorb_forms P T H g pre f1 f2 _ post H1 H2 Hg Hp (low_bytes_ok vs2) Hq).
Qed.
Theorem C66_absorb_same_xof P (T : xtype P) : xlibrary T -> forall cs f1 f2 E1 E2 vs1 vs2 d1 d2 g pre post,
  absorb_of cs f1 E1 vs1 = Some d1 -> absorb_of cs f2 E2 vs2 = Some d2 -> map low_byte vs1 = map low_byte vs2 ->
  f1 <> FBadStream -> f2 <> FBadStream -> xt_mem_ok T g -> xcalls T pre -> xflag T pre = false -> xcalls_from T false post ->
  exists r, xafter T g (pre ++ [XBase (Absorb f1 d1)]) post = Ok r /\ xafter T g (pre ++ [XBase (Absorb f2 d2)]) post = Ok r.
Proof.
  intros H cs f1 f2 E1 E2 vs1 vs2 d1 d2 g pre post A1 A2 E H1 H2 Hg Hp Hf Hq.
  rewrite (absorb_of_low _ _ _ _ _ A1), (absorb_of_low _ _ _ _ _ A2), E.
  exact (C02_absorb_forms_xof P T H g pre f1 f2 _ post H1 H2 Hg Hp Hf (low_bytes_ok vs2) Hq).
Qed.

(** C66, results: squeeze() into a buffer of every byte type and std::copy to every integer
    type give values of the type, which are the bytes modulo 256. *)
Theorem C66_squeeze_buffer cs E out : is_byte E = true -> is_bytes out ->
  exists vs, squeeze_buf_to cs E out = Some vs /\ map low_byte vs = out /\ Forall (in_type cs E) vs.
Proof. exact (squeeze_buffer cs E out). Qed.
Theorem C66_output_iterator cs E out : E <> TStdByte -> wide E -> is_bytes out ->
  exists vs, copied_to cs E out = Some vs /\ map low_byte vs = out /\ Forall (in_type cs E) vs.
Proof. exact (output_iterator cs E out). Qed.
(** Documented byte types: hashing what was written gives the hash of the bytes. *)
Theorem C66_round_trip cs f E out vs : documented E -> is_bytes out ->
  squeeze_buf_to cs E out = Some vs \/ copied_to cs E out = Some vs -> absorb_of cs f E vs = Some out.
Proof. exact (round_trip cs f E out vs). Qed.

(** digest(buffer, length) compiles for unsigned char only, *)
Theorem C66_digest_buffer_partial cs E out : is_bytes out ->
  (forall vs, digest_buf_to cs E out = Some vs <-> E = TUChar /\ vs = map Z.of_N out).
Proof. exact (digest_buffer cs E out). Qed.
(** although the documentation says char, unsigned char or signed char. *)
Theorem C66_digest_buffer_refuted : exists E, documented E /\ forall cs out, digest_buf_to cs E out = None.
Proof. exists TChar. split; [left; reflexivity|reflexivity]. Qed.

(** The same bytes as signed and unsigned elements. *)
Example C66_example :
  absorb_of true FPtr TChar [97; -1; -128]%Z = Some [97; 255; 128] /\
  absorb_of true FIter (TInt 32 true) [97; -1; 384]%Z = Some [97; 255; 128] /\
  Forall (in_type true TChar) [97; -1; -128]%Z /\ Forall (in_type true (TInt 32 true)) [97; -1; 384]%Z /\
  ~ in_type true TChar 255 /\ in_type false TChar 255 /\
  squeeze_buf_to true TSChar [97; 255; 128] = Some [97; -1; -128]%Z /\
  copied_to true (TInt 32 true) [97; 255; 128] = Some [97; 255; 128]%Z /\
  digest_buf_to true TUChar [97; 255; 128] = Some [97; 255; 128]%Z.
Proof. repeat split; try (repeat constructor; reflexivity). discriminate. Qed.

Definition C66_all :=
  (C66_absorb_documented, C66_absorb_iterator, C66_set_documented, C66_absorb_others, C66_absorb_std_byte,
   C66_absorb_same, C66_absorb_same_xof, C66_squeeze_buffer, C66_output_iterator, C66_round_trip,
   C66_digest_buffer_partial, C66_digest_buffer_refuted).
Print Assumptions C66_all.
