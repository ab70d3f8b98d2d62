(** * C57: what a history leaves behind. *)
From Verif Require Import Base Hasher HasherSpec Library LibraryProof XLibraryProof LibraryTypes LibraryTypesProof MdState Md5 Shake Blake2 Inputs HistorySpec HistoryProof.

(** Every history is equivalent to its direct form on another object: the successful set_*
    calls since the last reset(true), then one absorb() with all the bytes since the last
    restart (then one squeeze() with the number of bytes squeezed since). *)
Theorem C57_direct P (T : htype P) : library T -> forall g g' ops post,
  ht_mem_ok T g -> ht_mem_ok T g' -> hcalls T ops -> hcalls T post ->
  exists r, after T g ops post = Ok r /\ after T g' (direct (settings T ops) (since T ops)) post = Ok r.
Proof. intros H. destruct (library_good P T H) as [S G]. exact (history_direct T S G). Qed.
Theorem C57_direct_xof P (T : xtype P) : xlibrary T -> forall g g' ops post,
  xt_mem_ok T g -> xt_mem_ok T g' -> xcalls T ops -> xcalls_from T (xflag T ops) post ->
  exists r, xafter T g ops post = Ok r /\ xafter T g' (xdirect (xsettings T ops) (xsince T ops) (squeezed T ops)) post = Ok r.
Proof. intros H. destruct (xlibrary_good P T H) as [S G]. exact (xhistory_direct T S G). Qed.
(** Of the set_* calls only the last value of each parameter matters, in no particular order,
    if none of the values is empty (see C48 for empty ones). *)
Theorem C57_last_values P (T : htype P) : library T -> forall g g' ops ops' post,
  ht_mem_ok T g -> ht_mem_ok T g' -> hcalls T ops -> hcalls T ops' -> hcalls T post ->
  no_empty (settings T ops) -> no_empty (settings T ops') -> same_values (settings T ops) (settings T ops') -> since T ops = since T ops' ->
  exists r, after T g ops post = Ok r /\ after T g' ops' post = Ok r.
Proof. intros H. destruct (library_good P T H) as [S G]. intros g g' ops ops' post. exact (history_same T S G g g' ops ops' post (param_dec P T H)). Qed.
Theorem C57_last_values_xof P (T : xtype P) : xlibrary T -> forall g g' ops ops' post,
  xt_mem_ok T g -> xt_mem_ok T g' -> xcalls T ops -> xcalls T ops' -> xcalls_from T (xflag T ops) post ->
  no_empty (xsettings T ops) -> no_empty (xsettings T ops') -> same_values (xsettings T ops) (xsettings T ops') ->
  xsince T ops = xsince T ops' -> squeezed T ops = squeezed T ops' ->
  exists r, xafter T g ops post = Ok r /\ xafter T g' ops' post = Ok r.
Proof. intros H. destruct (xlibrary_good P T H) as [S G]. intros g g' ops ops' post. exact (xhistory_same T S G g g' ops ops' post (xparam_dec P T H)). Qed.

(** ** Examples *)
Definition long_calls : list (hash_op (p_param (blake2 64 BHash))) :=
  [HBase (SetParam B2Key [9]); HBase (Absorb FPtr [1]); HHexDigest; HBase (SetParam B2Salt (repeat 5 16)); HBase (Reset true);
   HBase (SetParam B2Pers (repeat 4 16)); HBase (SetParam B2Key [1; 2]); HBase (Absorb FStr [7]); HBase (SetParam B2Salt [1]);
   HBase (Absorb FIter [8]); HDigestIter; HBase (SetParam B2Key [3]); HBase (Absorb FStream [10; 11]); HBase (Absorb FPtr [12])].
Definition short_calls : list (hash_op (p_param (blake2 64 BHash))) :=
  [HBase (SetParam B2Key [3]); HBase (SetParam B2Pers (repeat 4 16)); HBase (Absorb FPtr [10; 11; 12])].
Example C57_settings_example : settings (blake2_type 64 BHash 512) long_calls = [(B2Pers, repeat 4 16); (B2Key, [1; 2]); (B2Key, [3])] /\
  since (blake2_type 64 BHash 512) long_calls = [10; 11; 12] /\ hcalls (blake2_type 64 BHash 512) long_calls /\
  no_empty (settings (blake2_type 64 BHash 512) long_calls).
Proof.
  split; [vm_compute; reflexivity|]. split; [reflexivity|]. split.
  - unfold hcalls, long_calls. repeat (apply Forall_cons || apply Forall_nil); cbn; try exact I; try reflexivity; repeat constructor.
  - repeat (apply Forall_cons || apply Forall_nil); discriminate.
Qed.
Example C57_values_example : same_values (settings (blake2_type 64 BHash 512) long_calls) (settings (blake2_type 64 BHash 512) short_calls).
Proof.
  change (settings (blake2_type 64 BHash 512) long_calls) with [(B2Pers, repeat 4 16); (B2Key, [1; 2]); (B2Key, [3])].
  change (settings (blake2_type 64 BHash 512) short_calls) with [(B2Key, [3]); (B2Pers, repeat 4 16)].
  intros q v. split.
  - intros (a & b & E & H). destruct a as [|x [|y [|z [|? ?]]]]; cbn [app] in E; inversion E; subst.
    + exists [(B2Key, [3])], []. split; [reflexivity|intros w []].
    + exfalso. apply (H [3]). left. reflexivity.
    + exists [], [(B2Pers, repeat 4 16)]. split; [reflexivity|]. intros w [X|[]]. discriminate X.
  - intros (a & b & E & H). destruct a as [|x [|y [|z ?]]]; cbn [app] in E; inversion E; subst.
    + exists [(B2Pers, repeat 4 16); (B2Key, [1; 2])], []. split; [reflexivity|intros w []].
    + exists [], [(B2Key, [1; 2]); (B2Key, [3])]. split; [reflexivity|]. intros w [X|[X|[]]]; discriminate X.
Qed.
Example C57_squeezed_example :
  let ops := [XBase (SetParam CsName [1]); XBase (Absorb FStr [1]); XSqueezeBuf 5; XBase (Reset false); XBase (Absorb FPtr [2; 3]); XSqueezeIter 7; XHexSqueeze 200] in
  xcalls (cshake_type 128) ops /\ squeezed (cshake_type 128) ops = 207%nat /\ xsince (cshake_type 128) ops = [2; 3] /\
  xsettings (cshake_type 128) ops = [(CsName, [1])].
Proof. cbn zeta. split; [unfold xcalls; cbn; repeat split; try lia; try discriminate; repeat constructor|]. repeat split; reflexivity. Qed.

Definition history_theorems := (@C57_direct, @C57_direct_xof, @C57_last_values, @C57_last_values_xof).
Print Assumptions history_theorems.
