(** * Calls during which the caller's code throws (C58): statements and proofs. *)
From Verif Require Import Base Lemmas Hasher HasherSpec Library LibraryProof XLibraryProof LibraryTypes LibraryTypesProof Inputs HistorySpec HistoryProof Throws.
From Coq Require Import ZArith.

(** ** What is expected *)
(** The low byte of an integer. *)
Definition low_byte (z : Z) : N := Z.to_N (Z.land z 255).
(** The part of a stream that comes in whole buffers of 64 KiB. *)
Definition whole_buffers (c : list N) : list N := firstn (N.to_nat (65536 * (N.of_nat (length c) / 65536))) c.
(** A call that does not throw and leaves the object in the same state. *)
Definition quiet {param} (o : ehash_op param) : hash_op param :=
  match o with
  | EHCall o => o
  | EHValues zs _ => HBase (Absorb FIter (map low_byte zs))
  | EHStream c => HBase (Absorb FStream (whole_buffers c))
  | EHOut _ => HDigestIter
  end.
Definition xquiet {param} (o : exof_op param) : xof_op param :=
  match o with
  | EXCall o => o
  | EXValues zs _ => XBase (Absorb FIter (map low_byte zs))
  | EXStream c => XBase (Absorb FStream (whole_buffers c))
  | EXOut n _ => XSqueezeIter n
  end.
(** What the caller sees, from the result [x] of the plain call. *)
Definition cut (k : nat) (x : out) : eout :=
  match x with
  | OBytes b => if (k <? length b)%nat then Threw (firstn k b) else Returned x
  | _ => Returned x
  end.
Definition seen {param} (o : ehash_op param) (x : out) : eout :=
  match o with
  | EHCall _ | EHValues _ false => Returned x
  | EHValues _ true | EHStream _ => Threw []
  | EHOut k => cut k x
  end.
Definition xseen {param} (o : exof_op param) (x : out) : eout :=
  match o with
  | EXCall _ | EXValues _ false => Returned x
  | EXValues _ true | EXStream _ => Threw []
  | EXOut _ k => cut k x
  end.
Fixpoint map2 {A B C} (f : A -> B -> C) (l : list A) (m : list B) : list C :=
  match l, m with a :: l, b :: m => f a b :: map2 f l m | _, _ => [] end.

(** ** Proofs *)
Lemma to_byte_low z : to_byte z = low_byte z.
Proof. unfold to_byte, low_byte. change 255%Z with (Z.ones 8). rewrite Z.land_ones by lia. reflexivity. Qed.
Lemma low_byte_ok z : low_byte z < 256.
Proof. rewrite <- to_byte_low. unfold to_byte. pose proof (Z.mod_pos_bound z 256 ltac:(lia)). lia. Qed.
Lemma low_bytes_ok zs : is_bytes (map low_byte zs).
Proof. induction zs; constructor; [apply low_byte_ok|exact IHzs]. Qed.
Lemma absorb_values_plain P zs throws : forall s,
  absorb_values P s zs throws = (s' <- absorb_iter P s (map low_byte zs) ;; Ok (s', if throws then Threw [] else Returned ODone)).
Proof.
  induction zs as [|z zs IH]; intros s; cbn [absorb_values absorb_iter map]; [reflexivity|].
  rewrite to_byte_low. destruct (p_update P s [low_byte z]) as [s1| |]; [apply IH|reflexivity|reflexivity].
Qed.

Lemma whole_small c : N.of_nat (length c) < 65536 -> whole_buffers c = [].
Proof. intros H. unfold whole_buffers. rewrite N.div_small by lia. reflexivity. Qed.
Lemma whole_step c : 65536 <= N.of_nat (length c) ->
  whole_buffers c = firstn (N.to_nat 65536) c ++ whole_buffers (skipn (N.to_nat 65536) c).
Proof.
  intros H. unfold whole_buffers. rewrite skipn_length, Nat2N.inj_sub, N2Nat.id.
  set (n := N.of_nat (length c)) in *.
  assert (E : n = (n - 65536) + 1 * 65536) by lia.
  assert (E2 : n / 65536 = (n - 65536) / 65536 + 1) by (rewrite E at 1; apply N.div_add; lia).
  rewrite E2. set (q := (n - 65536) / 65536).
  replace (N.to_nat (65536 * (q + 1))) with (N.to_nat 65536 + N.to_nat (65536 * q))%nat by lia.
  rewrite <- (firstn_skipn (N.to_nat 65536) c) at 1.
  assert (L : length (firstn (N.to_nat 65536) c) = N.to_nat 65536) by (rewrite firstn_length; lia).
  rewrite <- L at 1. rewrite firstn_app_2. reflexivity.
Qed.
Lemma whole_ok c : is_bytes c -> is_bytes (whole_buffers c).
Proof. intros H. unfold whole_buffers, is_bytes in *. apply Forall_forall. intros x Hx. rewrite Forall_forall in H. apply H. rewrite <- (firstn_skipn (N.to_nat (65536 * (N.of_nat (length c) / 65536))) c). apply in_or_app. left. exact Hx. Qed.

Lemma stream_throws_plain P : forall fuel c s, (length c <= fuel)%nat -> forall fuel2, (length (whole_buffers c) <= fuel2)%nat ->
  absorb_stream_throws P fuel s c = (s' <- absorb_stream P fuel2 s (whole_buffers c) ;; Ok (s', Threw [])).
Proof.
  intros fuel. induction fuel as [|fuel IH]; intros c s Hf fuel2 H2.
  - assert (E : c = []) by (destruct c; [reflexivity|cbn in Hf; lia]). subst c. destruct fuel2; reflexivity.
  - cbn [absorb_stream_throws]. unfold tmp_buffer_size at 1. destruct (N.leb_spec 65536 (N.of_nat (length c))) as [H|H].
    + rewrite (whole_step c H) in *.
      set (b := firstn (N.to_nat 65536) c) in *. set (r := skipn (N.to_nat 65536) c) in *.
      assert (L : length b = N.to_nat 65536) by (unfold b; rewrite firstn_length; lia).
      rewrite app_length in H2. destruct fuel2 as [|fuel2]; [lia|].
      cbn [absorb_stream]. unfold tmp_buffer_size. rewrite app_length.
      replace (65536 <=? N.of_nat (length b + length (whole_buffers r))) with true by (symmetry; apply N.leb_le; lia).
      rewrite (firstn_app_exact b (whole_buffers r)), (skipn_app_exact b (whole_buffers r)) by lia. fold b.
      destruct (p_update P s b) as [s1| |]; [|reflexivity|reflexivity]. cbn [bind].
      fold r. apply IH.
      * unfold r. rewrite skipn_length. lia.
      * lia.
    + rewrite whole_small by lia. destruct fuel2; reflexivity.
Qed.

Lemma copy_out_cut b k : copy_out b k = cut k (OBytes b).
Proof. reflexivity. Qed.
Lemma estep_plain P s o : ehash_step P s o = (' (s', x) <- hash_step P s (quiet o) ;; Ok (s', seen o x)).
Proof.
  destruct o as [o|zs throws|c|k]; cbn [ehash_step quiet hash_step seen base_step absorb].
  - reflexivity.
  - rewrite absorb_values_plain. destruct (absorb_iter P s (map low_byte zs)); [destruct throws| |]; reflexivity.
  - rewrite (stream_throws_plain P (length c) c s (le_n _) (length (whole_buffers c)) (le_n _)). destruct (absorb_stream P _ s (whole_buffers c)); reflexivity.
  - destruct (digest_iter P s); reflexivity.
Qed.
Lemma exstep_plain P s o : exof_step P s o = (' (s', x) <- xof_step P s (xquiet o) ;; Ok (s', xseen o x)).
Proof.
  destruct o as [o|zs throws|c|n k]; cbn [exof_step xquiet xof_step xseen base_step absorb].
  - reflexivity.
  - rewrite absorb_values_plain. destruct (absorb_iter P s (map low_byte zs)); [destruct throws| |]; reflexivity.
  - rewrite (stream_throws_plain P (length c) c s (le_n _) (length (whole_buffers c)) (le_n _)). destruct (absorb_stream P _ s (whole_buffers c)); reflexivity.
  - destruct (squeeze_iter P s n) as [[s1 r]| |]; reflexivity.
Qed.

Theorem erun_plain P : forall ops s, ehash_run P s ops = (' (s', l) <- hash_run P s (map quiet ops) ;; Ok (s', map2 seen ops l)).
Proof.
  induction ops as [|o ops IH]; intros s; cbn [ehash_run map hash_run]; [reflexivity|].
  rewrite estep_plain. destruct (hash_step P s (quiet o)) as [[s1 x]| |]; [|reflexivity|reflexivity]. cbn [bind].
  rewrite IH. destruct (hash_run P s1 (map quiet ops)) as [[s2 l]| |]; reflexivity.
Qed.
Theorem exrun_plain P : forall ops s, exof_run P s ops = (' (s', l) <- xof_run P s (map xquiet ops) ;; Ok (s', map2 xseen ops l)).
Proof.
  induction ops as [|o ops IH]; intros s; cbn [exof_run map xof_run]; [reflexivity|].
  rewrite exstep_plain. destruct (xof_step P s (xquiet o)) as [[s1 x]| |]; [|reflexivity|reflexivity]. cbn [bind].
  rewrite IH. destruct (xof_run P s1 (map xquiet ops)) as [[s2 l]| |]; reflexivity.
Qed.

(** Results of [post] after [pre] on a new object. *)
Definition eafter {P} (T : htype P) (g : ht_mem T) (pre : list (ehash_op (p_param P))) (post : list (hash_op (p_param P))) : res (list out) :=
  s <- ht_new T g ;;
  ' (s, _) <- ehash_run P s pre ;;
  ' (_, l) <- hash_run P s post ;;
  Ok l.
Definition exafter {P} (T : xtype P) (g : xt_mem T) (pre : list (exof_op (p_param P))) (post : list (xof_op (p_param P))) : res (list out) :=
  s <- xt_new T g ;;
  ' (s, _) <- exof_run P s pre ;;
  ' (_, l) <- xof_run P s post ;;
  Ok l.
Lemma eafter_plain P (T : htype P) g pre post : eafter T g pre post = after T g (map quiet pre) post.
Proof.
  unfold eafter, after. destruct (ht_new T g) as [s| |]; [|reflexivity|reflexivity]. cbn [bind]. rewrite erun_plain.
  destruct (hash_run P s (map quiet pre)) as [[s1 l]| |]; reflexivity.
Qed.
Lemma exafter_plain P (T : xtype P) g pre post : exafter T g pre post = xafter T g (map xquiet pre) post.
Proof.
  unfold exafter, xafter. destruct (xt_new T g) as [s| |]; [|reflexivity|reflexivity]. cbn [bind]. rewrite exrun_plain.
  destruct (xof_run P s (map xquiet pre)) as [[s1 l]| |]; reflexivity.
Qed.
Theorem throws_direct P (T : htype P) : library T -> forall g g' ops post,
  ht_mem_ok T g -> ht_mem_ok T g' -> hcalls T (map quiet ops) -> hcalls T post ->
  exists r, eafter T g ops post = Ok r /\ after T g' (direct (settings T (map quiet ops)) (since T (map quiet ops))) post = Ok r.
Proof. intros H g g' ops post. rewrite eafter_plain. destruct (library_good P T H) as [S G]. exact (history_direct T S G g g' (map quiet ops) post). Qed.
Theorem throws_direct_xof P (T : xtype P) : xlibrary T -> forall g g' ops post,
  xt_mem_ok T g -> xt_mem_ok T g' -> xcalls T (map xquiet ops) -> xcalls_from T (xflag T (map xquiet ops)) post ->
  exists r, exafter T g ops post = Ok r /\ xafter T g' (xdirect (xsettings T (map xquiet ops)) (xsince T (map xquiet ops)) (squeezed T (map xquiet ops))) post = Ok r.
Proof. intros H g g' ops post. rewrite exafter_plain. destruct (xlibrary_good P T H) as [S G]. exact (xhistory_direct T S G g g' (map xquiet ops) post). Qed.
Lemma low_byte_eq z : (exists q, z = 256 * q + Z.of_N (low_byte z))%Z.
Proof. exists (z / 256)%Z. rewrite <- to_byte_low. unfold to_byte. rewrite Z2N.id by (apply Z.mod_pos_bound; lia). apply Z.div_mod. lia. Qed.
