(** Constant tables of algorithm/detail/constants/sha1_constants.hpp,
    converted mechanically by tools/gen_constants.py. *)
From Coq Require Import NArith List.
Import ListNotations.
Open Scope N_scope.

(** constants/sha1_constants.hpp:21-23 sha1_constants::K *)
Definition sha1_K : list N :=
  [0x5a827999; 0x6ed9eba1; 0x8f1bbcdc; 0xca62c1d6].
