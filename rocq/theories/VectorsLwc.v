(** Known answers for the Ascon and Esch models (tests, not proofs); from
    test/testvectors/{ascon_hash256,ascon_cxof128,esch256,esch384}.txt. *)
From Coq Require Import String.
From Verif Require Import Base Hasher VecUtil MdState Ascon Esch.
Local Open Scope string_scope.
Local Open Scope N_scope.

Definition ag : st := mkst (junk 5) (junk 64) 77 99.
Example kat_ascon_hash0 : bytes_are (last_bytes (hash_outs ascon_hash (fresh_of (ascon_ctor ag) (ascon_init AHash)) [HDigestIter]))
  "0B3BE5850F2F6B98CAF29F8FDEA89B64A1FA70AA249B8F839BD53BAA304D92B2" = true.
Proof. vm_compute. reflexivity. Qed.
Example kat_ascon_hash1 : bytes_are (last_bytes (hash_outs ascon_hash (fresh_of (ascon_ctor ag) (ascon_init AHash))
    [HBase (Absorb FPtr [0]); HDigestIter])) "0728621035AF3ED2BCA03BF6FDE900F9456F5330E4B5EE23E7F6A1E70291BC80" = true.
Proof. vm_compute. reflexivity. Qed.
Example kat_ascon_cxof : bytes_are (last_bytes (xof_outs ascon_cxof (fresh_of (ascon_ctor ag) (ascon_init ACxof))
    [XBase (SetParam AsCustomization [16]); XSqueezeIter 64]))
  "0C93A483E7D574D49FE52CCE03EE646117977D57A8AA57704AB4DAF44B501430FF6AC11A5D1FD6F2154B5C65728268270C8BB578508487B8965718ADA6272FD6" = true.
Proof. vm_compute. reflexivity. Qed.
Definition eg (w : nat) : st := mkst (junk w) (junk 128) 77 99.
Example kat_esch256 : bytes_are (last_bytes (hash_outs esch (fresh_of (esch_ctor 256 (eg 16)) esch_init)
    [HBase (Absorb FPtr [0; 1; 2]); HDigestIter])) "F33561BA7DCF690E4E1C519B28712A878028417A3974873F188AE33B289FCAB6" = true.
Proof. vm_compute. reflexivity. Qed.
Example kat_esch384 : bytes_are (last_bytes (hash_outs esch (fresh_of (esch_ctor 384 (eg 16)) esch_init)
    [HBase (Absorb FPtr (map N.of_nat (seq 0 16))); HDigestIter]))
  "0008F97D6BBB701D5E33FCC178EFE3E3D5E77915D4A4DAF6E1AE34CD28EDB895A053E19D930B50F72837E1A8F5B1F450" = true.
Proof. vm_compute. reflexivity. Qed.
