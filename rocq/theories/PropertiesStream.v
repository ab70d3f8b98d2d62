(** * C65: hex output and the global locale.

    [hexdigest_in l] is hexdigest() in a program whose global C++ locale is [l]: Stream.v has
    the string stream that hexdigest() creates. *)
From Coq Require Import ZArith.
From Verif Require Import Base Hasher HasherSpec Library LibraryTypes Md5 Shake Stream StreamProof.
From Verif Require Import PropertiesApi.
Local Open Scope N_scope.

(** C65: every locale that does not separate single digits. *)
Theorem C65_hexdigest_partial P (T : htype P) : library T -> forall l g pre, hd 0%Z (lgroup l) <> 1%Z ->
  ht_mem_ok T g -> hcalls T pre ->
  exists d, after T g pre [HDigestIter] = Ok [OBytes d] /\ hexdigest_in l T g pre = Ok (spec_hex d) /\
    after T g pre [HHexDigest] = Ok [OBytes (spec_hex d)].
Proof.
  intros H l g pre Hl Hg Hp. destruct (C07_hexdigest P T H g pre Hg Hp) as (d & h & D1 & D2 & D3 & -> & _).
  exists d. repeat split; auto. apply (hexdigest_exact T l g pre d D1 D3). auto.
Qed.
Theorem C65_hexsqueeze_partial P (T : xtype P) : xlibrary T -> forall l g pre n, hd 0%Z (lgroup l) <> 1%Z ->
  xt_mem_ok T g -> xcalls T pre -> (0 < n)%nat ->
  exists b, xafter T g pre [XSqueezeIter n] = Ok [OBytes b] /\ hexsqueeze_in l T g pre n = Ok (spec_hex b) /\
    xafter T g pre [XHexSqueeze n] = Ok [OBytes (spec_hex b)].
Proof.
  intros H l g pre n Hl Hg Hp Hn.
  destruct (C07_hexsqueeze P T H g pre n Hg Hp Hn) as (b & h & _ & D1 & D2 & _ & D3 & -> & _).
  exists b. repeat split; auto. rewrite (squeeze_iter_in T l g pre n b D1). f_equal. apply stream_exact; [exact D3|].
  left. apply Bool.not_true_iff_false. intros O. apply Hl, ones_hd, O.
Qed.

(** What the other locales print: the separator between the digits of every byte that has
    two without leading zeros. *)
Theorem C65_hexdigest_grouped P (T : htype P) : library T -> forall l g pre, hd 0%Z (lgroup l) = 1%Z ->
  ht_mem_ok T g -> hcalls T pre ->
  exists d, after T g pre [HDigestIter] = Ok [OBytes d] /\
    hexdigest_in l T g pre =
      Ok (flat_map (fun b => if b <? 16 then spec_hex [b]
                             else [nibble_char (b / 16); lsep l; nibble_char (b mod 16)]) d).
Proof.
  intros H l g pre Hl Hg Hp. destruct (C07_hexdigest P T H g pre Hg Hp) as (d & h & D1 & _ & D3 & _).
  exists d. split; [exact D1|]. exact (hexdigest_grouped T l g pre d Hl D1 D3).
Qed.
(** So the condition on the locale is exact, except for digests whose bytes are all below 16. *)
Theorem C65_exact P (T : htype P) : library T -> forall l g pre d, ht_mem_ok T g -> hcalls T pre ->
  after T g pre [HDigestIter] = Ok [OBytes d] ->
  (hexdigest_in l T g pre = Ok (spec_hex d) <-> hd 0%Z (lgroup l) <> 1%Z \/ Forall (fun b => b < 16) d).
Proof.
  intros H l g pre d Hg Hp E. destruct (C07_hexdigest P T H g pre Hg Hp) as (d2 & h & D1 & _ & D3 & _).
  assert (d2 = d) as -> by congruence. exact (hexdigest_exact T l g pre d E D3).
Qed.

(** The claim for all locales is false. *)
Definition single_digits : locale := mkloc [1]%Z 44.
Theorem C65_hexdigest_refuted : exists l g1, ht_mem_ok md5_type g1 /\
  after md5_type g1 [] [HHexDigest] <> (r <- hexdigest_in l md5_type g1 [] ;; Ok [OBytes r]) /\
  is_ok (hexdigest_in l md5_type g1 []) = true.
Proof.
  exists single_digits, (MdState.mkst [] (zeros 64) 0 0).
  split; [reflexivity|]. split; [vm_compute; discriminate|vm_compute; reflexivity].
Qed.

(** A locale with groups of three, then of two digits (as in India). *)
Definition indian : locale := mkloc [3; 2]%Z 44.
Definition example_hex := Eval vm_compute in
  (hex_stream indian [0; 1; 171; 255], hex_stream single_digits [0; 1; 171; 255]).
Example C65_example : hd 0%Z (lgroup indian) <> 1%Z /\ hd 0%Z (lgroup single_digits) = 1%Z /\
  example_hex = ([48; 48; 48; 49; 97; 98; 102; 102], [48; 48; 48; 49; 97; 44; 98; 102; 44; 102]).
Proof. repeat split; discriminate. Qed.
(** The separators of the formatting model on numbers with more digits: 12345678 in decimal. *)
Definition example_dec := Eval vm_compute in
  (obuf (os_uint 12345678 (os_new indian)), obuf (os_uint 12345678 (os_setw 12 (os_new (mkloc [3]%Z 46)))),
   obuf (os_uint 12345678 (os_new (mkloc [3; 0]%Z 46)))).
Example C65_example_dec : example_dec =
  ([49; 44; 50; 51; 44; 52; 53; 44; 54; 55; 56],      (* 1,23,45,678 *)
   [32; 32; 49; 50; 46; 51; 52; 53; 46; 54; 55; 56],  (* "  12.345.678" *)
   [49; 50; 51; 52; 53; 46; 54; 55; 56]).             (* 12345.678 *)
Proof. reflexivity. Qed.

Definition C65_all :=
  (C65_hexdigest_partial, C65_hexsqueeze_partial, C65_hexdigest_grouped, C65_exact, C65_hexdigest_refuted).
Print Assumptions C65_all.
