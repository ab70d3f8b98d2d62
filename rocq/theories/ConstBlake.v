(** Constant tables of algorithm/detail/constants/blake_constants.hpp,
    converted mechanically by tools/gen_constants.py. *)
From Coq Require Import NArith List.
Import ListNotations.
Open Scope N_scope.

(** constants/blake_constants.hpp:24-27 blake_constants::c *)
Definition blake_c : list N :=
  [0x243f6a88; 0x85a308d3; 0x13198a2e; 0x03707344; 0xa4093822; 0x299f31d0; 0x082efa98; 0xec4e6c89;
   0x452821e6; 0x38d01377; 0xbe5466cf; 0x34e90c6c; 0xc0ac29b7; 0xc97c50dd; 0x3f84d5b5; 0xb5470917].

(** constants/blake_constants.hpp:30-35 blake_constants::c512 *)
Definition blake_c512 : list N :=
  [0x243f6a8885a308d3; 0x13198a2e03707344; 0xa4093822299f31d0; 0x082efa98ec4e6c89; 0x452821e638d01377; 0xbe5466cf34e90c6c; 0xc0ac29b7c97c50dd; 0x3f84d5b5b5470917;
   0x9216d5d98979fb1b; 0xd1310ba698dfb5ac; 0x2ffd72dbd01adfb7; 0xb8e1afed6a267e96; 0xba7c9045f12c7f99; 0x24a19947b3916cf7; 0x0801f2e2858efc16; 0x636920d871574e69].

(** constants/blake_constants.hpp:38-49 blake_constants::S *)
Definition blake_S : list (list N) :=
  [[0; 1; 2; 3; 4; 5; 6; 7;
   8; 9; 10; 11; 12; 13; 14; 15];
   [14; 10; 4; 8; 9; 15; 13; 6;
   1; 12; 0; 2; 11; 7; 5; 3];
   [11; 8; 12; 0; 5; 2; 15; 13;
   10; 14; 3; 6; 7; 1; 9; 4];
   [7; 9; 3; 1; 13; 12; 11; 14;
   2; 6; 5; 10; 4; 0; 15; 8];
   [9; 0; 5; 7; 2; 4; 10; 15;
   14; 1; 11; 12; 6; 8; 3; 13];
   [2; 12; 6; 10; 0; 11; 8; 3;
   4; 13; 7; 5; 15; 14; 1; 9];
   [12; 5; 1; 15; 14; 13; 4; 10;
   0; 7; 6; 3; 9; 2; 8; 11];
   [13; 11; 7; 14; 12; 1; 3; 9;
   5; 0; 15; 4; 8; 6; 2; 10];
   [6; 15; 14; 9; 11; 3; 0; 8;
   12; 2; 13; 7; 1; 4; 10; 5];
   [10; 2; 8; 4; 7; 6; 1; 5;
   15; 11; 9; 14; 3; 12; 13; 0]].
