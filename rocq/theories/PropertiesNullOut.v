(** * C72: empty output behind a null pointer. *)
From Verif Require Import Base Hasher MdState Library LibraryTypes AnyCalls Shake Ascon NullOut NullOutProof NullOutLib PropertiesAny.

(** [null_squeeze P Z r]: [Z] is squeeze(nullptr, 0) of the provider [P], [r] the number of bytes
    in a block of output. Every type has one. *)
Theorem C72_types P (T : xtype P) : xlibrary T -> exists Z r, null_squeeze P Z r.
Proof. exact (xlibrary_squeeze P T). Qed.

(** ** memcpy may be given a null pointer and no bytes *)

(** Every history with such calls, on any memory, does what it does with empty arrays instead.
    Missing: the rules up to C23 and C++23, see below. *)
Theorem C72_same_partial P (T : xtype P) Z r : null_squeeze P Z r -> forall g pre post,
  zafter T Z false g pre post = xafter T g (map zplain pre) (map zplain post).
Proof. intros HZ g pre post. exact (z_lax T HZ g pre post). Qed.
(** In particular it is defined. *)
Theorem C72_defined_partial P (T : xtype P) Z r : xlibrary T -> null_squeeze P Z r -> forall g pre post,
  xt_mem_ok T g -> xany (map zplain pre) -> xany (map zplain post) ->
  exists l, zafter T Z false g pre post = Ok l /\ length l = length post.
Proof.
  intros HT HZ g pre post Hg A1 A2. destruct (C08_any_history_xof P T HT g _ _ Hg A1 A2) as (l & E & L).
  exists l. rewrite (z_lax T HZ), E. split; [reflexivity|]. rewrite map_length in L. exact L.
Qed.

(** ** memcpy must not be given a null pointer *)

(** The first squeeze of an object, or the first after reset(), does not copy: it is as with an
    empty array under both rules. *)
Theorem C72_first P (T : xtype P) Z r : xlibrary T -> null_squeeze P Z r -> forall strict g pre post,
  unread true pre = true ->
  zafter T Z strict g (map Plain pre) (NullSqueeze :: map Plain post) = xafter T g pre (XSqueezeBuf 0 :: post).
Proof. intros HT HZ strict g pre post. exact (z_first T HT HZ strict g pre post). Qed.
(** When the first squeeze ended inside a block of output, the next one is undefined. *)
Theorem C72_strict_refuted P (T : xtype P) Z r : xlibrary T -> null_squeeze P Z r -> forall g pre n o post rest,
  xt_mem_ok T g -> xany pre -> unread true pre = true -> squeezes n o -> (n mod r <> 0)%nat ->
  zafter T Z true g (map Plain (pre ++ [o]) ++ NullSqueeze :: post) rest = UB NullPointer.
Proof. intros HT HZ g pre n o post rest. exact (z_later T HT HZ g pre n o post rest). Qed.
(** Nothing else happens: a history does what it does with empty arrays, or reaches that copy. *)
Theorem C72_strict_or P (T : xtype P) Z r : null_squeeze P Z r -> forall g pre post,
  zafter T Z true g pre post = xafter T g (map zplain pre) (map zplain post) \/ zafter T Z true g pre post = UB NullPointer.
Proof. intros HZ g pre post. rewrite <- (z_lax T HZ). exact (z_strict T HZ g pre post). Qed.

(** ** Examples *)
Definition C72_mem : st := mkst [] (repeat 77 64) 5 9.
Definition ascon_a : list (xof_op Empty_set) := [XBase (Absorb FStr [97])].
(** Ascon-XOF128 of "a": three bytes, an empty squeeze, three more. *)
Example C72_ascon_lax :
  zafter ascon_xof_type ascon_squeeze_null false C72_mem (map Plain ascon_a) [Plain (XSqueezeBuf 3); NullSqueeze; Plain (XSqueezeBuf 3)] =
  zafter ascon_xof_type ascon_squeeze_null false C72_mem (map Plain ascon_a) (map Plain [XSqueezeBuf 3; XSqueezeBuf 0; XSqueezeBuf 3]).
Proof. vm_compute. reflexivity. Qed.
Example C72_ascon_strict :
  zafter ascon_xof_type ascon_squeeze_null true C72_mem (map Plain ascon_a) [Plain (XSqueezeBuf 3); NullSqueeze; Plain (XSqueezeBuf 3)] = UB NullPointer.
Proof. vm_compute. reflexivity. Qed.
(** After a whole block, [pos == r] and nothing is copied. *)
Example C72_ascon_block :
  match zafter ascon_xof_type ascon_squeeze_null true C72_mem (map Plain ascon_a) [Plain (XSqueezeBuf 8); NullSqueeze] with
  | Ok l => length l | _ => 0%nat end = 2%nat.
Proof. vm_compute. reflexivity. Qed.
(** The hypotheses hold for it. *)
Example C72_ascon_meets : xlibrary ascon_xof_type /\ null_squeeze ascon_xof ascon_squeeze_null 8 /\ xt_mem_ok ascon_xof_type C72_mem /\
  xany ascon_a /\ unread true ascon_a = true /\ squeezes 3 (@XSqueezeBuf Empty_set 3) /\ (3 mod 8 <> 0)%nat.
Proof.
  split; [exact xlib_ascon_xof|]. split; [exact nz_ascon_xof|]. split; [reflexivity|]. split; [repeat constructor|].
  split; [reflexivity|]. split; [left; reflexivity|discriminate].
Qed.
Example C72_unread : unread true (ascon_a ++ [XSqueezeBuf 3]) = false /\ unread true (ascon_a ++ [XSqueezeBuf 3; XBase (Reset false)]) = true.
Proof. split; reflexivity. Qed.

Definition null_out_all := (@C72_types, @C72_same_partial, @C72_defined_partial, @C72_first, @C72_strict_refuted, @C72_strict_or).
Print Assumptions null_out_all.
