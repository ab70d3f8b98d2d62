(** Constant tables of algorithm/detail/constants/esch_constants.hpp,
    converted mechanically by tools/gen_constants.py. *)
From Coq Require Import NArith List.
Import ListNotations.
Open Scope N_scope.

(** constants/esch_constants.hpp:21-23 esch_constants::C *)
Definition esch_C : list N :=
  [0xb7e15162; 0xbf715880; 0x38b4da56; 0x324e7738; 0xbb1185eb; 0x4f7c7b57; 0xcfbfa1c8; 0xc2b3293d].
