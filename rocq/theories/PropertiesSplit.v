(** * C07, C11, C44: squeezing in arbitrary histories.

    [xany] admits every sequence of calls with byte arguments (AnyCalls.v), also absorbing
    after squeezing and empty squeezes. The results hold for the calls that follow, too:
    the object ends up in the same state. *)
From Verif Require Import Base Hasher Library LibraryTypes LibraryMore AnyCalls XLibraryProof HasherProof HasherSpec SplitAny Ascon.

Theorem C11_any_history P (T : xtype P) : xlibrary T -> forall g pre, xt_mem_ok T g -> xany pre -> forall ps post,
  ps <> [] -> Forall (fun p => (0 < snd p)%nat) ps -> xany post ->
  exists l b r, xafter T g pre (map piece ps ++ post) = Ok (l ++ r) /\
    xafter T g pre (XSqueezeBuf (sizes ps) :: post) = Ok (OBytes b :: r) /\
    length l = length ps /\ out_concat l = b /\ length b = sizes ps /\ is_bytes b.
Proof. intros H g pre Hg Hp. exact (any_pieces H g pre Hg Hp). Qed.
Theorem C44_any_history P (T : xtype P) : xlibrary T -> forall g pre n m, xt_mem_ok T g -> xany pre -> (0 < n <= m)%nat ->
  exists b c, xafter T g pre [XSqueezeBuf n] = Ok [OBytes b] /\ xafter T g pre [XSqueezeBuf m] = Ok [OBytes (b ++ c)] /\
    length b = n.
Proof. intros H g pre n m Hg Hp. exact (any_prefix H g pre Hg Hp n m). Qed.
Theorem C07_any_history_xof P (T : xtype P) : xlibrary T -> forall g pre, xt_mem_ok T g -> xany pre -> forall n post,
  (0 < n)%nat -> xany post ->
  exists b r, xafter T g pre (XSqueezeBuf n :: post) = Ok (OBytes b :: r) /\
    xafter T g pre (XSqueezeIter n :: post) = Ok (OBytes b :: r) /\
    xafter T g pre (XHexSqueeze n :: post) = Ok (OBytes (spec_hex b) :: r) /\ length b = n /\ is_bytes b.
Proof. intros H g pre Hg Hp. exact (any_forms H g pre Hg Hp). Qed.

Example split_example : xany (param := Empty_set) [XSqueezeBuf 3; XBase (Absorb FIter [1; 2]); XSqueezeBuf 0] /\
  ~ xcalls ascon_xof_type [XSqueezeBuf 3; XBase (Absorb FIter [1; 2])] /\
  map (piece (param := Empty_set)) [(true, 3%nat); (false, 4%nat)] = [XSqueezeIter 3; XSqueezeBuf 4] /\
  sizes [(true, 3%nat); (false, 4%nat)] = 7%nat /\ xlibrary ascon_xof_type.
Proof.
  split; [|split; [|split; [|split]]].
  - repeat constructor.
  - intros H. cbn in H. decompose [and] H. discriminate.
  - reflexivity.
  - reflexivity.
  - exact xlib_ascon_xof.
Qed.

Definition split_all := (C11_any_history, C44_any_history, C07_any_history_xof).
Print Assumptions split_all.
