(** * Declaring hash objects: which constructors the compiler finds, and what they build (C69).

    LibraryTypes.v has one type per public name and size. Here is the step before: the
    declaration the caller writes, the constructors of hasher and of the provider that take part in
    overload resolution, default arguments and static_asserts. *)
From Verif Require Import Base Hasher MdState Library
  Md5 Sha1 Sha2 Sm3 Whirlpool Sha3 Shake Kmac K12 Ascon Esch Blake Blake2 Blake2p TTable Groestl Kupyna Streebog Jh Lsh Skein Echo
  LibraryTypes.

(** The names in namespace digestpp, algorithm/*.hpp. kt128 is a typedef of k12 (k12m14.hpp:68). *)
Inductive name :=
| Nmd5 | Nsha1 | Nsha224 | Nsha256 | Nsha384 | Nsha512 | Nsm3 | Nwhirlpool | Nsha3 | Nkmac128 | Nkmac256
| Nascon_hash | Nesch | Nblake | Ngroestl | Njh | Nlsh256 | Nlsh512 | Nskein256 | Nskein512 | Nskein1024 | Necho
| Nkupyna | Nstreebog | Nblake2b | Nblake2s | Nblake2xb | Nblake2xs | Nblake2bp | Nblake2sp
| Nshake128 | Nshake256 | Ncshake128 | Ncshake256 | Nkmac128_xof | Nkmac256_xof | Nk12 | Nm14 | Nkt256
| Nascon_xof | Nascon_cxof | Nesch256_xof | Nesch384_xof | Nblake2xb_xof | Nblake2xs_xof
| Nskein256_xof | Nskein512_xof | Nskein1024_xof.

(** [digestpp::n] or [digestpp::static_size::n<HS>]; [HS] is a size_t.
    The typedefs of algorithm/*.hpp. *)
Inductive decl := Plain (n : name) | Static (n : name) (HS : N).

(** What a declaration that compiles constructs. hasher.hpp:49-70. *)
Inductive object :=
| OHash (P : hash_provider) (T : htype P)
| OXof (P : xof_provider) (T : xtype P).

(** A constructor of a provider. E.g. sha3_provider.hpp:126-140. *)
Record ctor := {
  c_enabled : bool;              (* condition of std::enable_if *)
  c_size : option (option N);    (* None: no parameter; Some d: size_t hashsize with default argument d *)
  c_asserts : bool;              (* static_asserts of the body *)
  c_make : N -> object           (* the object for the value of hashsize *)
}.
(** The two constructors most providers have: one with a run-time size if HS is 0, one without
    parameters and with a static_assert otherwise. E.g. sha3_provider.hpp:126-132. *)
Definition run_time (HS : N) (default : option N) (make : N -> object) : ctor :=
  {| c_enabled := HS =? 0; c_size := Some default; c_asserts := true; c_make := make |}.
(** E.g. sha3_provider.hpp:134-140. *)
Definition static (HS : N) (asserts : bool) (make : N -> object) : ctor :=
  {| c_enabled := negb (HS =? 0); c_size := None; c_asserts := asserts; c_make := fun _ => make HS |}.
(** A constructor without parameters and template arguments, e.g. md5_provider.hpp:52 *)
Definition only (o : object) : list ctor :=
  [{| c_enabled := true; c_size := None; c_asserts := true; c_make := fun _ => o |}].
(** The static_asserts on sizes up to [max], e.g. echo_provider.hpp:174, and on lists of
    sizes, e.g. sha3_provider.hpp:139 *)
Definition up_to (max HS : N) : bool := (HS <=? max) && (0 <? HS) && (HS mod 8 =? 0).
(** E.g. sha3_provider.hpp:139. *)
Definition one_of (l : list N) (HS : N) : bool := existsb (N.eqb HS) l.

(** sha2_provider.hpp:98-111; [w] is 8 * sizeof(T), [O] the template argument. *)
Definition sha2_ctors (w O : N) (fixed run : N -> object) : list ctor :=
  [ {| c_enabled := negb (O =? 0); c_size := None;
       c_asserts := ((w =? 32) && ((O =? 224) || (O =? 256))) || ((w =? 64) && (0 <? O) && (O <=? 512) && (O mod 8 =? 0));
       c_make := fun _ => fixed O |};
    {| c_enabled := (w =? 64) && (O =? 0); c_size := Some (Some (if w =? 64 then 512 else 256));
       c_asserts := true; c_make := run |} ].
(** sha3_provider.hpp:127-141 *)
Definition sha3_ctors HS := [run_time HS None (fun k => OHash _ (sha3_type k));
  static HS (one_of [224; 256; 384; 512] HS) (fun k => OHash _ (sha3_static_type k))].
(** kmac_provider.hpp:43-57 with XOF false *)
Definition kmac_ctors B HS := [run_time HS None (fun k => OHash _ (kmac_type B k));
  static HS (HS mod 8 =? 0) (fun k => OHash _ (kmac_static_type B k))].
(** esch_provider.hpp:82-96 with XOF false *)
Definition esch_ctors HS := [run_time HS None (fun k => OHash _ (esch_type k));
  static HS (one_of [256; 384] HS) (fun k => OHash _ (esch_static_type k))].
(** blake_provider.hpp:153-167 *)
Definition blake_ctors HS := [run_time HS None (fun k => OHash _ (blake_type k));
  static HS (one_of [224; 256; 384; 512] HS) (fun k => OHash _ (blake_static_type k))].
(** groestl_provider.hpp:109-121 *)
Definition groestl_ctors HS := [run_time HS None (fun k => OHash _ (groestl_type k));
  static HS (up_to 512 HS) (fun k => OHash _ (groestl_static_type k))].
(** jh_provider.hpp:104-116 *)
Definition jh_ctors HS := [run_time HS (Some 512) (fun k => OHash _ (jh_type k));
  static HS (up_to 512 HS) (fun k => OHash _ (jh_static_type k))].
(** lsh_provider.hpp:75-89, 222 *)
Definition lsh_ctors w HS := [run_time HS None (fun k => OHash _ (lsh_type w k));
  static HS (up_to (if w =? 32 then 256 else 512) HS) (fun k => OHash _ (lsh_static_type w k))].
(** skein_provider.hpp:186-198, XOF false: the second constructor has a parameter too, and
    ignores it. *)
Definition skein_ctors nw HS :=
  let bits := 64 * N.of_nat nw in
  [run_time HS (Some bits) (fun k => OHash _ (skein_type nw k));
   {| c_enabled := negb (HS =? 0); c_size := Some (Some bits); c_asserts := (0 <? HS) && (HS mod 8 =? 0);
      c_make := fun _ => OHash _ (skein_static_type nw HS) |}].
(** skein_provider.hpp:186-191 with XOF true, HS = 0; [skein_xof_type] passes N. *)
Definition skein_xof_ctors nw := [run_time 0 (Some (64 * N.of_nat nw)) (fun _ => OXof _ (skein_xof_type nw))].
(** echo_provider.hpp:162-176 *)
Definition echo_ctors HS := [run_time HS None (fun k => OHash _ (echo_type k));
  static HS (up_to 512 HS) (fun k => OHash _ (echo_static_type k))].
(** kupyna_provider.hpp:108-120 *)
Definition kupyna_ctors HS := [run_time HS None (fun k => OHash _ (kupyna_type k));
  static HS (one_of [256; 512] HS) (fun k => OHash _ (kupyna_static_type k))].
(** streebog_provider.hpp:108-120 *)
Definition streebog_ctors HS := [run_time HS None (fun k => OHash _ (streebog_type k));
  static HS (one_of [256; 512] HS) (fun k => OHash _ (streebog_static_type k))].
(** blake2_provider.hpp:120-152, 376, type hash or x_hash; [w] is 8 * sizeof(T). *)
Definition blake2_ctors w ty HS :=
  let bits := if w =? 64 then 512 else 256 in
  let limit := match ty with BHash => bits | BXhash => bits * (w / 8) * 4 - 16 | BXof => 2 ^ 64 - 1 end in
  [run_time HS (Some bits) (fun k => OHash _ (blake2_type w ty k));
   static HS (up_to limit HS) (fun k => OHash _ (blake2_static_type w ty k))].
(** blake2_provider.hpp:120-136, type xof, HS = 0; [blake2x_xof_type] passes N. *)
Definition blake2_xof_ctors w :=
  [run_time 0 (Some (if w =? 64 then 512 else 256)) (fun _ => OXof _ (blake2x_xof_type w))].
(** blake2p_provider.hpp:27-62, 177, type hash *)
Definition blake2p_ctors w HS :=
  let bits := if w =? 64 then 512 else 256 in
  [run_time HS (Some bits) (fun k => OHash _ (blake2p_type w k));
   static HS (up_to bits HS) (fun k => OHash _ (blake2p_static_type w k))].

(** is_xof and the constructors of the provider of a name with template argument HS; the names without
    one ignore it. The typedefs are cited in LibraryTypes.v.
    Lines beside the entries: md5_provider.hpp:50-54 and so on. *)
Definition provider_ctors (n : name) (HS : N) : bool * list ctor :=
  match n with
  | Nmd5 => (false, only (OHash _ md5_type))              (* md5_provider.hpp:50-54 *)
  | Nsha1 => (false, only (OHash _ sha1_type))            (* sha1_provider.hpp:40-44 *)
  | Nsha224 => (false, sha2_ctors 32 224 (fun _ => OHash _ sha224_type) (fun _ => OHash _ sha224_type))
  | Nsha256 => (false, sha2_ctors 32 256 (fun _ => OHash _ sha256_type) (fun _ => OHash _ sha256_type))
  | Nsha384 => (false, sha2_ctors 64 384 (fun _ => OHash _ sha384_type) (fun _ => OHash _ sha384_type))
  | Nsha512 => (false, sha2_ctors 64 HS (fun k => OHash _ (sha512_static_type k)) (fun k => OHash _ (sha512_type k)))
  | Nsm3 => (false, only (OHash _ sm3_type))              (* sm3_provider.hpp:49-53 *)
  | Nwhirlpool => (false, only (OHash _ whirlpool_type))  (* whirlpool_provider.hpp:38-42 *)
  | Nsha3 => (false, sha3_ctors HS)
  | Nkmac128 => (false, kmac_ctors 128 HS)
  | Nkmac256 => (false, kmac_ctors 256 HS)
  | Nascon_hash => (false, only (OHash _ ascon_hash_type)) (* ascon_provider.hpp:24-29 *)
  | Nesch => (false, esch_ctors HS)
  | Nblake => (false, blake_ctors HS)
  | Ngroestl => (false, groestl_ctors HS)
  | Njh => (false, jh_ctors HS)
  | Nlsh256 => (false, lsh_ctors 32 HS)
  | Nlsh512 => (false, lsh_ctors 64 HS)
  | Nskein256 => (false, skein_ctors 4 HS)
  | Nskein512 => (false, skein_ctors 8 HS)
  | Nskein1024 => (false, skein_ctors 16 HS)
  | Necho => (false, echo_ctors HS)
  | Nkupyna => (false, kupyna_ctors HS)
  | Nstreebog => (false, streebog_ctors HS)
  | Nblake2b => (false, blake2_ctors 64 BHash HS)
  | Nblake2s => (false, blake2_ctors 32 BHash HS)
  | Nblake2xb => (false, blake2_ctors 64 BXhash HS)
  | Nblake2xs => (false, blake2_ctors 32 BXhash HS)
  | Nblake2bp => (false, blake2p_ctors 64 HS)
  | Nblake2sp => (false, blake2p_ctors 32 HS)
  | Nshake128 => (true, only (OXof _ (shake_type 128)))   (* shake_provider.hpp:58-63 *)
  | Nshake256 => (true, only (OXof _ (shake_type 256)))
  | Ncshake128 => (true, only (OXof _ (cshake_type 128)))
  | Ncshake256 => (true, only (OXof _ (cshake_type 256)))
  | Nkmac128_xof => (true, only (OXof _ (kmacxof_type 128))) (* kmac_provider.hpp:59-64 *)
  | Nkmac256_xof => (true, only (OXof _ (kmacxof_type 256)))
  | Nk12 => (true, only (OXof _ (k12_type 128 12)))       (* k12m14_provider.hpp:29-34 *)
  | Nm14 => (true, only (OXof _ (k12_type 256 14)))
  | Nkt256 => (true, only (OXof _ (k12_type 256 12)))
  | Nascon_xof => (true, only (OXof _ ascon_xof_type))    (* ascon_provider.hpp:24-29 *)
  | Nascon_cxof => (true, only (OXof _ ascon_cxof_type))
  | Nesch256_xof => (true, only (OXof _ (esch_xof_type 384 12))) (* esch_provider.hpp:98-102 *)
  | Nesch384_xof => (true, only (OXof _ (esch_xof_type 512 16)))
  | Nblake2xb_xof => (true, blake2_xof_ctors 64)
  | Nblake2xs_xof => (true, blake2_xof_ctors 32)
  | Nskein256_xof => (true, skein_xof_ctors 4)
  | Nskein512_xof => (true, skein_xof_ctors 8)
  | Nskein1024_xof => (true, skein_xof_ctors 16)
  end.
(** The names in namespace static_size: blake.hpp:102, blake2.hpp:318-420, blake2p.hpp:140, 174, echo.hpp:104,
    esch.hpp:144, groestl.hpp:88, jh.hpp:89, kmac.hpp:258, 296, kupyna.hpp:94, lsh.hpp:134, 159, sha2.hpp:197,
    sha3.hpp:90, skein.hpp:315, 349, 383, streebog.hpp:138. *)
Definition in_static_size (n : name) : bool :=
  match n with
  | Nsha512 | Nsha3 | Nkmac128 | Nkmac256 | Nesch | Nblake | Ngroestl | Njh | Nlsh256 | Nlsh512
  | Nskein256 | Nskein512 | Nskein1024 | Necho | Nkupyna | Nstreebog
  | Nblake2b | Nblake2s | Nblake2xb | Nblake2xs | Nblake2bp | Nblake2sp => true
  | _ => false
  end.

(** Overload resolution among the constructors of the provider: an enabled one that can be called
    without arguments, or with one of type size_t. The calls at hasher.hpp:49-70. *)
Definition viable (arg : option N) (c : ctor) : bool :=
  c_enabled c &&
  match arg, c_size c with
  | None, None | None, Some (Some _) | Some _, Some _ => true
  | _, _ => false
  end.
(** The value of the parameter hashsize; any, if there is none. hasher.hpp:67. *)
Definition size_of_arg (arg : option N) (c : ctor) : N :=
  match arg, c_size c with
  | Some k, _ => k
  | None, Some (Some k) => k
  | _, _ => 0
  end.
(** hasher.hpp:50-54, 67-71: the constructor without arguments takes part if the provider has one
    (bodies of constructors are not part of the test), the one with a size if the provider
    is no XOF. [None]: the declaration does not compile: no constructor, two equally good
    ones, or a static_assert. *)
Definition construct_with (x : bool) (l : list ctor) (arg : option N) : option object :=
  if match arg with Some _ => x | None => false end then None
  else match filter (viable arg) l with
       | [c] => if c_asserts c then Some (c_make c (size_of_arg arg c)) else None
       | _ => None
       end.
(** hasher.hpp:49-70 and the typedefs of algorithm/*.hpp. *)
Definition construct (d : decl) (arg : option N) : option object :=
  match d with
  | Plain n => let '(x, l) := provider_ctors n 0 in construct_with x l arg
  | Static n HS =>
    if in_static_size n then let '(x, l) := provider_ctors n HS in construct_with x l arg else None
  end.
(** Specification; no code of /repo. *)
Definition compiles (d : decl) (arg : option N) : Prop := construct d arg <> None.

(** ** The documentation *)
(** @outputsize and @defaultsize of algorithm/*.hpp (cited in LibraryTypes.v next to the typedefs);
    "arbitrary" is any positive number of bytes whose number of bits fits in size_t. *)
Inductive sizes :=
| Fixed (bits : N)                                      (* one size *)
| Choice (ok : N -> Prop) (default : option N)          (* @outputsize, @defaultsize *)
| Squeezed.                                             (* XOF *)
(** Specification; no code of /repo. *)
Definition arbitrary : N -> Prop := bits_up_to (2 ^ 64 - 1).
(** The comments of algorithm/*.hpp, lines beside the entries: md5.hpp:39-41 and so on. *)
Definition doc (n : name) : sizes :=
  match n with
  | Nmd5 => Fixed 128            (* md5.hpp:39-41 *)
  | Nsha1 => Fixed 160           (* sha1.hpp:32-34 *)
  | Nsha224 => Fixed 224         (* sha2.hpp:145-147 *)
  | Nsha256 => Fixed 256         (* sha2.hpp:109-111 *)
  | Nsha384 => Fixed 384         (* sha2.hpp:77-79 *)
  | Nsha512 => Choice (bits_up_to 512) (Some 512)  (* sha2.hpp:39-41 *)
  | Nsm3 => Fixed 256            (* sm3.hpp:39-41 *)
  | Nwhirlpool => Fixed 512      (* whirlpool.hpp:37-39 *)
  | Nsha3 => Choice (fun k => In k [224; 256; 384; 512]) None (* sha3.hpp:36-38 *)
  | Nkmac128 => Choice arbitrary None    (* kmac.hpp:44-46 *)
  | Nkmac256 => Choice arbitrary None    (* kmac.hpp:97-99 *)
  | Nascon_hash => Fixed 256     (* ascon.hpp:38 *)
  | Nesch => Choice (fun k => In k [256; 384]) None    (* esch.hpp:37-39 *)
  | Nblake => Choice (fun k => In k [224; 256; 384; 512]) None (* blake.hpp:30-32 *)
  | Ngroestl => Choice (bits_up_to 512) None (* groestl.hpp:33-35 *)
  | Njh => Choice (bits_up_to 512) None  (* jh.hpp:34-36 *)
  | Nlsh256 => Choice (bits_up_to 256) None (* lsh.hpp:41-43 *)
  | Nlsh512 => Choice (bits_up_to 512) None (* lsh.hpp:79-81 *)
  | Nskein256 => Choice arbitrary (Some 256)   (* skein.hpp:138-140 *)
  | Nskein512 => Choice arbitrary (Some 512)   (* skein.hpp:90-92 *)
  | Nskein1024 => Choice arbitrary (Some 1024) (* skein.hpp:42-44 *)
  | Necho => Choice (bits_up_to 512) None (* echo.hpp:35-37 *)
  | Nkupyna => Choice (fun k => In k [256; 512]) None  (* kupyna.hpp:38-40 *)
  | Nstreebog => Choice (fun k => In k [256; 512]) None (* streebog.hpp:61-63 *)
  | Nblake2b => Choice (bits_up_to 512) (Some 512) (* blake2.hpp:39-41 *)
  | Nblake2s => Choice (bits_up_to 256) (Some 256) (* blake2.hpp:88-90 *)
  | Nblake2xb => Choice arbitrary (Some 512) (* blake2.hpp:133-135 *)
  | Nblake2xs => Choice arbitrary (Some 256) (* blake2.hpp:176-178 *)
  | Nblake2bp => Choice (bits_up_to 512) (Some 512) (* blake2p.hpp:29-31 *)
  | Nblake2sp => Choice (bits_up_to 256) (Some 256) (* blake2p.hpp:67-69 *)
  | _ => Squeezed (* @xof: shake.hpp:36, 67, 98, 137, and likewise the other names *)
  end.
(** hasher.hpp:43-47: a fixed output size, a default output size, or an XOF. *)
Definition doc_default (n : name) : Prop :=
  match doc n with Fixed _ | Squeezed | Choice _ (Some _) => True | Choice _ None => False end.
(** hasher.hpp:58-63: several output sizes, and no XOF. *)
Definition doc_sized (n : name) : Prop := match doc n with Choice _ _ => True | _ => False end.
(** The digest size in bits of a documented declaration. Specification; no code of /repo. *)
Definition doc_bits (d : decl) (arg : option N) (k : N) : Prop :=
  match d, arg with
  | Plain n, None => match doc n with Fixed b => k = b | Choice _ (Some b) => k = b | _ => False end
  | Plain n, Some b => match doc n with Choice ok _ => ok b /\ k = b | _ => False end
  | Static n b, None => match doc n with Choice ok _ => ok b /\ k = b | _ => False end
  | Static _ _, Some _ => False
  end.

(** The names for which the constructors and the documentation differ. *)
(* the limit of blake2xb and blake2xs, see C10_blake2x_refuted. Specification; no code of /repo. *)
Definition blake2x_limit (n : name) (k : N) : Prop :=
  match n with Nblake2xb => k <= 16368 | Nblake2xs => k <= 4080 | _ => True end.
(* validate_hash_size of a list accepts every size but 0, see C10_size_list_refuted.
    Specification; no code of /repo. *)
Definition listed (n : name) : bool :=
  match n with Nsha3 | Nesch | Nblake | Nkupyna | Nstreebog => true | _ => false end.
(* the constructor of static_size that has a parameter. Specification; no code of /repo. *)
Definition is_skein (n : name) : bool :=
  match n with Nskein256 | Nskein512 | Nskein1024 => true | _ => false end.
(** A declaration of size_t arguments. Specification; no code of /repo. *)
Definition size_t_args (d : decl) (arg : option N) : Prop :=
  match d with Static _ HS => HS < 2 ^ 64 | Plain _ => True end /\
  match arg with Some k => k < 2 ^ 64 | None => True end.
(** One of the types the other theorems are about, or a constructor that throws.
    Specification; no code of /repo. *)
Definition covered (o : object) : Prop :=
  match o with
  | OHash P T => library T \/ (forall g, ht_mem_ok T g -> ht_new T g = Throw)
  | OXof P T => xlibrary T
  end.
(** BLAKE2bp and BLAKE2sp built with OpenMP: the same declarations. blake2p_provider.hpp:165-168. *)
Inductive openmp : forall P, htype P -> Prop :=
| openmp_run w hs sch : openmp _ (blake2p_omp_type w hs sch)
| openmp_static w hs sch : openmp _ (blake2p_omp_static_type w hs sch).
Arguments openmp {P}.
(** Used in proofs; no code of /repo. *)
Definition name_of (d : decl) : name := match d with Plain n | Static n _ => n end.
