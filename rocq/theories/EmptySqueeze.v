(** * What an empty squeeze does: vocabulary of the statements.

    All counts are since the last restart, that is the last reset() or successful set_*. *)
From Verif Require Import Base Hasher HasherSpec Library LibraryTypes.

(** Number of bytes squeezed. Specification; no code of /repo. *)
Definition xcount1 {P} (T : xtype P) (k : nat) (o : xof_op (p_param P)) : nat :=
  match o with
  | XBase (Absorb _ _) => k
  | XBase (Reset _) => 0
  | XBase (SetParam q v) => if xt_accepts T q v then 0 else k
  | XSqueezeBuf n | XSqueezeIter n | XHexSqueeze n => k + n
  end%nat.
(** Specification; no code of /repo. *)
Definition xcount {P} (T : xtype P) (ops : list (xof_op (p_param P))) : nat := fold_left (xcount1 T) ops 0%nat.

(** The bytes absorbed. Specification; no code of /repo. *)
Definition xmsg1 {P} (T : xtype P) (m : list N) (o : xof_op (p_param P)) : list N :=
  match o with
  | XBase (Absorb f d) => m ++ absorbed f d
  | XBase (Reset _) => []
  | XBase (SetParam q v) => if xt_accepts T q v then [] else m
  | _ => m
  end.
(** Specification; no code of /repo. *)
Definition xmsg {P} (T : xtype P) (ops : list (xof_op (p_param P))) : list N := fold_left (xmsg1 T) ops [].

(** The sponge types, their rates in bytes, and the number of bytes the code appends to the
    message before the padding: kmac appends right_encode(0); none is given for k12, which
    is not a plain sponge. Specification; no code of /repo. *)
Inductive sponge : forall P, xtype P -> nat -> option nat -> Prop :=
| sponge_shake128 : sponge _ (shake_type 128) 168 (Some 0%nat)
| sponge_shake256 : sponge _ (shake_type 256) 136 (Some 0%nat)
| sponge_cshake128 : sponge _ (cshake_type 128) 168 (Some 0%nat)
| sponge_cshake256 : sponge _ (cshake_type 256) 136 (Some 0%nat)
| sponge_kmac128 : sponge _ (kmacxof_type 128) 168 (Some 2%nat)
| sponge_kmac256 : sponge _ (kmacxof_type 256) 136 (Some 2%nat)
| sponge_k12 : sponge _ (k12_type 128 12) 168 None
| sponge_m14 : sponge _ (k12_type 256 14) 136 None
| sponge_kt256 : sponge _ (k12_type 256 12) 136 None
| sponge_ascon_xof : sponge _ ascon_xof_type 8 (Some 0%nat)
| sponge_ascon_cxof : sponge _ ascon_cxof_type 8 (Some 0%nat).
Arguments sponge {P}.

(** The others. Specification; no code of /repo. *)
Inductive no_sponge : forall P, xtype P -> Prop :=
| ns_esch256 : no_sponge _ (esch_xof_type 384 12)
| ns_esch384 : no_sponge _ (esch_xof_type 512 16)
| ns_blake2xb : no_sponge _ (blake2x_xof_type 64)
| ns_blake2xs : no_sponge _ (blake2x_xof_type 32)
| ns_skein nw : In nw [4; 8; 16]%nat -> no_sponge _ (skein_xof_type nw).
Arguments no_sponge {P}.

(** The parameters in force in the standard [S]. Specification; no code of /repo. *)
Definition xparam {param} (S : xof_spec param) (ops : list (xof_op param)) : xs_params S :=
  fst (fst (fst (xrun S (xfresh S) ops))).

(** Bytes left in the buffer by [L] bytes of input when a full block of [bs] bytes is only
    processed once more input arrives. Specification; no code of /repo. *)
Definition held (L bs : nat) : nat := match L with O => 0 | S L => L mod bs + 1 end%nat.
