(** * What the library computes where it departs from the standards.

    cSHAKE, KMAC and Streebog agree with their standards only for some inputs. The functions
    computed for all inputs are written down here, as variations of the specifications. *)
From Verif Require Import Base Hasher HasherSpec HasherWhen KeccakSpec Sha3Spec Shake ShakeProof Kmac KmacProof StreebogSpec.

(** ** The header of cSHAKE: 1 to w zero bytes are appended, instead of 0 to w - 1 *)
Definition bytepad_always (X : list N) (w : nat) : list N :=
  let z := left_enc (N.of_nat w) ++ X in
  z ++ zeros (w - length z mod w).
Definition cshake_coded (s : nat) (fn cust msg : list N) (n : nat) : list N :=
  match fn ++ cust with
  | [] => shake_xof s msg n
  | _ => keccak_c (200 - 2 * s) [false; false]
           (bytepad_always (encode_string fn ++ encode_string cust) (200 - 2 * s) ++ msg) n
  end.
Definition kmac_coded (s : nat) (key cust msg : list N) (L : N) (n : nat) : list N :=
  cshake_coded s KMAC_name cust (bytepad (encode_string key) (200 - 2 * s) ++ msg ++ right_enc L) n.

(** Names, customizations and keys are set as the standard says. *)
Definition cshake_coded_spec (s : nat) : xof_spec cshake_param :=
  with_out (cshake_spec s) (fun p msg n => cshake_coded s (fst p) (snd p) msg n).
Definition kmacxof_coded_spec (s : nat) : xof_spec kmac_param :=
  with_out (kmacxof_spec s) (fun p msg n => kmac_coded s (fst p) (snd p) msg 0 n).
Definition kmac_coded_spec (s : nat) (hs : N) : hash_spec kmac_param :=
  with_digest (kmac_spec s hs) (fun p msg => kmac_coded s (fst p) (snd p) msg hs (N.to_nat (hs / 8))).

(** ** The additions of Streebog

    The bit counter has 64 bits. In the checksum, the carry into a 64-bit digit is that of the
    sum of the two digits below it, to which the carry received by these is not added. *)
Definition dig (x i : N) : N := (x / 2 ^ (64 * i)) mod 2 ^ 64.
Definition coded_carry (s m i : N) : N :=
  if i =? 0 then 0 else (dig s (i - 1) + dig m (i - 1)) / 2 ^ 64.
Definition coded_sum (s m : N) : N :=
  fold_right (fun i r => ((dig s i + dig m i + coded_carry s m i) mod 2 ^ 64) * 2 ^ (64 * i) + r) 0
    [0; 1; 2; 3; 4; 5; 6; 7].
Definition coded_count (x y : N) : N := (x + y) mod 2 ^ 64.
Definition streebog_coded_spec (n : N) : hash_spec Empty_set :=
  with_digest (streebog_spec n) (fun _ msg => sbs_hash_with coded_count coded_sum n msg).
