(** * C69: declaring hash objects

    A declaration without a size compiles if and only if the documentation gives the type one size, a
    default size, or unlimited output; a declaration with a size if and only if it gives several;
    a static_size type for the documented sizes only. The object has the documented size. *)
From Verif Require Import Base Hasher Library LibraryTypes Sha2 Jh Skein MdState AnyCalls Construct ConstructProof
  PropertiesLost.

(** The statement for declarations without a size is false of jh only, which has a default size of 512 bits. *)
Theorem C69_default_partial n : compiles (Plain n) None <-> doc_default n \/ n = Njh.
Proof. exact (default_compiles n). Qed.
Theorem C69_default_refuted : ~ (forall n, compiles (Plain n) None <-> doc_default n).
Proof. intros H. exact (proj1 (H Njh) ltac:(discriminate)). Qed.
Theorem C69_jh : construct (Plain Njh) None = construct (Plain Njh) (Some 512).
Proof. reflexivity. Qed.
(** Declarations with a size. *)
Theorem C69_sized n k : compiles (Plain n) (Some k) <-> doc_sized n.
Proof. exact (sized_compiles n k). Qed.
(** Types in static_size: exactly the documented sizes, up to the limit of blake2xb and blake2xs, *)
Theorem C69_static_partial n HS : HS <> 0 -> HS < 2 ^ 64 ->
  compiles (Static n HS) None <-> doc_bits (Static n HS) None HS /\ blake2x_limit n HS.
Proof. exact (static_compiles n HS). Qed.
(** but with 0 they are the types with a run-time size. *)
Theorem C69_static_zero n arg : compiles (Static n 0) arg <-> doc_sized n /\ compiles (Plain n) arg.
Proof. exact (static_zero_compiles n arg). Qed.
Theorem C69_static_refuted :
  ~ (forall n HS, HS < 2 ^ 64 -> compiles (Static n HS) None <-> doc_bits (Static n HS) None HS).
Proof.
  intros H. destruct (proj1 (H Nsha512 0 eq_refl) ltac:(discriminate)) as [[L _] _]. discriminate L.
Qed.
Theorem C69_static_zero_same n arg : doc_sized n -> construct (Static n 0) arg = construct (Plain n) arg.
Proof.
  intros H. apply construct_zero. unfold doc_sized in H. unfold is_choice. destruct (doc n); [destruct H|reflexivity|destruct H].
Qed.
(** A second size: an error for all types but Skein, which ignores it. *)
Theorem C69_two_sizes_partial n HS k : HS <> 0 ->
  compiles (Static n HS) (Some k) <-> is_skein n = true /\ HS mod 8 = 0.
Proof. exact (static_sized_compiles n HS k). Qed.
Theorem C69_two_sizes_refuted : ~ (forall n HS k, HS <> 0 -> ~ compiles (Static n HS) (Some k)).
Proof. intros H. apply (H Nskein512 256 512); discriminate. Qed.
Theorem C69_skein_ignores n HS k : is_skein n = true -> HS <> 0 ->
  construct (Static n HS) (Some k) = construct (Static n HS) None.
Proof. exact (skein_ignores n HS k). Qed.

(** Documented declarations construct one of the types the other theorems are about, of the documented size: *)
Theorem C69_documented d arg k : doc_bits d arg k -> blake2x_limit (name_of d) k ->
  exists P (T : htype P), construct d arg = Some (OHash P T) /\ library T /\ ht_size T = N.to_nat (k / 8).
Proof. exact (documented d arg k). Qed.
Theorem C69_xof n : doc n = Squeezed ->
  exists P (T : xtype P), construct (Plain n) None = Some (OXof P T) /\ xlibrary T.
Proof. exact (xof_declared n). Qed.
(** digests have that number of bits after every history, *)
Theorem C69_digest_bits d arg k : doc_bits d arg k -> blake2x_limit (name_of d) k ->
  exists P (T : htype P), construct d arg = Some (OHash P T) /\
    forall g pre, ht_mem_ok T g -> hany pre ->
    exists h, after T g pre [HDigestIter] = Ok [OBytes h] /\ N.of_nat (length h) = k / 8.
Proof.
  intros D B. destruct (documented d arg k D B) as (P & T & E & L & S). exists P, T. split; [exact E|].
  intros g pre Hg Hp. destruct (C06_any_history P T L g pre Hg Hp) as (h & Hl & Ha & _).
  exists h. split; [exact Ha|]. rewrite Hl, S. apply N2Nat.id.
Qed.
(** the default size is one of the sizes and means the same as giving that size, *)
Theorem C69_default_size n ok b : doc n = Choice ok (Some b) ->
  ok b /\ construct (Plain n) None = construct (Plain n) (Some b).
Proof. exact (default_size n ok b). Qed.
(** and the size as template argument means the same as an argument of the constructor. *)
Theorem C69_static_same n k : doc_bits (Static n k) None k -> blake2x_limit n k ->
  exists P (T1 T2 : htype P), construct (Plain n) (Some k) = Some (OHash P T1) /\
    construct (Static n k) None = Some (OHash P T2) /\
    forall g1 g2 pre post, ht_mem_ok T1 g1 -> ht_mem_ok T2 g2 -> hany pre -> hany post ->
    ht_size T1 = ht_size T2 /\ after T1 g1 pre post = after T2 g2 pre post.
Proof.
  intros D B. destruct (static_pairs n k D B) as (P & T1 & T2 & E1 & E2 & S). exists P, T1, T2.
  split; [exact E1|]. split; [exact E2|]. exact (C13_any_history P T1 T2 S).
Qed.
(** Nothing else can be constructed, except with the sizes that validate_hash_size lets through by
    mistake (C10), *)
Theorem C69_covered_partial d arg o : size_t_args d arg -> construct d arg = Some o ->
  match d with Plain n | Static n 0 => listed n = false | Static _ _ => True end -> covered o.
Proof. exact (all_covered d arg o). Qed.
(** and all types the theorems are about can be constructed. *)
Theorem C69_declared P (T : htype P) : library T -> openmp T \/ exists d arg, construct d arg = Some (OHash P T).
Proof. exact (all_declared P T). Qed.
Theorem C69_xdeclared P (T : xtype P) : xlibrary T -> exists n, construct (Plain n) None = Some (OXof P T).
Proof. exact (all_xdeclared P T). Qed.

(** Examples: the hypotheses are met, also by declarations that do not compile. *)
Example C69_example_documented :
  doc_bits (Plain Nsha512) None 512 /\ doc_bits (Plain Nsha512) (Some 256) 256 /\ doc_bits (Static Nblake2xb 16368) None 16368 /\
  doc_bits (Plain Nmd5) None 128 /\ doc Nskein1024_xof = Squeezed /\ blake2x_limit Nblake2xb 16368 /\
  ~ doc_bits (Static Nsha512 512) (Some 512) 512.
Proof. repeat split; try discriminate. intros []. Qed.
Example C69_example_construct :
  construct (Plain Nsha512) None = Some (OHash _ (sha512_type 512)) /\
  construct (Static Nsha512 256) None = Some (OHash _ (sha512_static_type 256)) /\
  construct (Static Nsha512 0) None = Some (OHash _ (sha512_type 512)) /\
  construct (Static Nskein512 256) (Some 512) = Some (OHash _ (skein_static_type 8 256)) /\
  construct (Static Nsha512 260) None = None /\ construct (Plain Ngroestl) None = None /\
  construct (Plain Nmd5) (Some 128) = None /\ construct (Plain Nskein512_xof) (Some 512) = None /\
  construct (Static Nmd5 128) None = None.
Proof. repeat split. Qed.
Example C69_example_covered : size_t_args (Static Nskein512 0) (Some 260) /\ listed Nskein512 = false /\
  covered (OHash _ (skein_type 8 260)) /\ ~ library (skein_type 8 260).
Proof.
  assert (C : covered (OHash _ (skein_type 8 260))).
  { apply (C69_covered_partial (Static Nskein512 0) (Some 260)); [split; reflexivity|reflexivity|reflexivity]. }
  split; [split; reflexivity|]. split; [reflexivity|]. split; [exact C|].
  intros H. refine (Sizes.new_ok _ (skein_type 8 260) (mkst (zeros 10) (zeros 64) 0 0, [], false) H _ _); [split; reflexivity|reflexivity].
Qed.

Definition C69_all := (C69_default_partial, C69_default_refuted, C69_jh, C69_sized, C69_static_partial, C69_static_zero,
  C69_static_refuted, C69_static_zero_same, C69_two_sizes_partial, C69_two_sizes_refuted, C69_skein_ignores, C69_documented,
  C69_xof, C69_digest_bits, C69_default_size, C69_static_same, C69_covered_partial, C69_declared, C69_xdeclared,
  C69_example_documented, C69_example_construct, C69_example_covered).
Print Assumptions C69_all.
