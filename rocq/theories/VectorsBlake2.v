(** * Known answers for the BLAKE2 model: the examples in algorithm/blake2.hpp. *)
From Coq Require Import String.
From Verif Require Import Base Hasher HasherSpec VecUtil MdState Blake2.
Open Scope string_scope. Open Scope N_scope.

Definition b2g (w : N) : st := mkst (junk 8) (junk (b2_bs w)) 3 77.
Definition b2_fresh (w : N) (ty : b2_type) (hs : N) : res b2_st :=
  fresh_of (b2_ctor w ty hs (b2g w) 9) (b2_init w ty).

Example kat_blake2b : res_is (hexof (blake2 64 BHash) (b2_fresh 64 BHash 256) fox)
  "01718cec35cd3d796dd00020e0bfecb473ad23457d063b75eff29c0ffa2e58a9" = true.
Proof. vm_compute. reflexivity. Qed.
Example kat_blake2s : res_is (hexof (blake2 32 BHash) (b2_fresh 32 BHash 256) fox)
  "606beeec743ccbeff6cbcdf5d5302aa855c256c29b88c8ed331ea1a6bf3c8812" = true.
Proof. vm_compute. reflexivity. Qed.
Example kat_blake2xb : res_is (hexof (blake2 64 BXhash) (b2_fresh 64 BXhash 256) fox)
  "ca7a0c9c54b4b93c0bee0aa3a4d63e4f7fb87e3e0a9050522377fde76f0b6c01" = true.
Proof. vm_compute. reflexivity. Qed.
Example kat_blake2xs : res_is (hexof (blake2 32 BXhash) (b2_fresh 32 BXhash 512) fox)
  "e709f8377d21507c166e5dd2279a1f58b290792d65dafcc5647b6e439a974227503c341341572725709b874e95f13a438677aa6f9648467fd341e0f3e5421840" = true.
Proof. vm_compute. reflexivity. Qed.
Example kat_blake2xb_xof : res_is (xhexof (blake2x_xof 64) (b2_fresh 64 BXof 512) fox 32)
  "364e84ca4c103df292306c93ebba6f6633d5e9cc8a95e040498e9a012d5ca534" = true.
Proof. vm_compute. reflexivity. Qed.
Example kat_blake2xs_xof : res_is (xhexof (blake2x_xof 32) (b2_fresh 32 BXof 256) fox 64)
  "0650cde4df888a06eada0f0fecb3c17594304b4a03fdd678182f27db1238b1747e33c34ae539fe2179a7594442b5cc9a7a0f398bb15ac3095a397de6a60061d6" = true.
Proof. vm_compute. reflexivity. Qed.
