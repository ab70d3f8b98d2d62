(** * reset(true) on blake2bp and blake2sp. *)
From Verif Require Import Base Hasher MdState Library LibraryTypes Blake2 Blake2p VecUtil.

(** blake2p_provider.hpp:132-138 clears the tree parameters, which init does not restore:
    the digests before and after reset(true), for every content of uninitialised memory. *)
Definition reset_true_differs {P} (T : htype P) : Prop :=
  forall g, ht_mem_ok T g -> exists a b,
    after T g [] [HDigestIter] = Ok [OBytes a] /\
    after T g [HBase (Reset true)] [HDigestIter] = Ok [OBytes b] /\ a <> b.

Lemma all_nth (l : list N) : l = map (fun i => nth i l 0) (seq 0 (length l)).
Proof.
  induction l as [|x r IH]; [reflexivity|]. cbn [length seq map nth]. f_equal.
  rewrite IH at 1. rewrite <- seq_shift, map_map. reflexivity.
Qed.

Lemma differs_check {P} (T : htype P) g pa pb :
  match after T g pa [HDigestIter], after T g pb [HDigestIter] with
  | Ok [OBytes a], Ok [OBytes b] => leqb a b
  | _, _ => true
  end = false ->
  exists a b, after T g pa [HDigestIter] = Ok [OBytes a] /\ after T g pb [HDigestIter] = Ok [OBytes b] /\ a <> b.
Proof.
  destruct (after T g pa [HDigestIter]) as [[|[|a|] [|? ?]]| |]; try discriminate.
  destruct (after T g pb [HDigestIter]) as [[|[|b|] [|? ?]]| |]; try discriminate.
  intros E. exists a, b. repeat split; auto. intros ->.
  assert (leqb b b = true) as F; [|congruence]. clear. induction b; cbn; [reflexivity|]. rewrite N.eqb_refl. exact IHb.
Qed.

(** The arrays of the memory element by element. *)
Definition word_mem (h : list N) (n : nat) (f : nat -> N) (p : nat) (t xo : N) : st * N := (mkst h (map f (seq 0 n)) p t, xo).
Lemma word_mem_ok (g : st * N) n : N.of_nat (length (sm (fst g))) = N.of_nat n ->
  exists h f p t xo, g = word_mem h n f p t xo.
Proof.
  destruct g as [[h m p t] xo]. cbn [fst sm]. intros H. apply Nat2N.inj in H. subst n. exists h, (fun i => nth i m 0), p, t, xo.
  unfold word_mem. rewrite <- all_nth. reflexivity.
Qed.
Ltac split_leaves H n :=
  match type of H with
  | Forall _ (?x :: ?r) =>
    let H1 := fresh in let H2 := fresh in let h := fresh in let f := fresh in let p := fresh in let t := fresh in let xo := fresh in
    apply Forall_cons_iff in H; destruct H as [H1 H2];
    destruct (word_mem_ok x n H1) as (h & f & p & t & xo & ->); clear H1; split_leaves H2 n
  | _ => idtac
  end.

Theorem blake2bp_reset_true : reset_true_differs (blake2p_type 64 512).
Proof.
  intros [gm gl m p t] (H1 & H2 & H3 & H4). cbn [gpmain gpleaf gpm] in *.
  change (length gl = 4%nat) in H2.
  destruct gl as [|x0 [|x1 [|x2 [|x3 [|? ?]]]]]; try discriminate H2.
  destruct (word_mem_ok gm 128 H1) as (h & f & p' & t' & xo & ->). split_leaves H3 128%nat.
  rewrite (all_nth m), H4. apply differs_check. vm_compute. reflexivity.
Qed.
Theorem blake2sp_reset_true : reset_true_differs (blake2p_type 32 256).
Proof.
  intros [gm gl m p t] (H1 & H2 & H3 & H4). cbn [gpmain gpleaf gpm] in *.
  change (length gl = 8%nat) in H2.
  destruct gl as [|x0 [|x1 [|x2 [|x3 [|x4 [|x5 [|x6 [|x7 [|? ?]]]]]]]]]; try discriminate H2.
  destruct (word_mem_ok gm 64 H1) as (h & f & p' & t' & xo & ->). split_leaves H3 64%nat.
  rewrite (all_nth m), H4. apply differs_check. vm_compute. reflexivity.
Qed.
(** The same after a set_* call. *)
Definition set_differs {P} (T : htype P) (q : p_param P) (v : list N) : Prop :=
  forall g, ht_mem_ok T g -> exists a b,
    after T g [HBase (SetParam q v)] [HDigestIter] = Ok [OBytes a] /\
    after T g [HBase (Reset true); HBase (SetParam q v)] [HDigestIter] = Ok [OBytes b] /\ a <> b.
Theorem blake2bp_set : set_differs (blake2p_type 64 512) B2Key [1].
Proof.
  intros [gm gl m p t] (H1 & H2 & H3 & H4). cbn [gpmain gpleaf gpm] in *.
  change (length gl = 4%nat) in H2.
  destruct gl as [|x0 [|x1 [|x2 [|x3 [|? ?]]]]]; try discriminate H2.
  destruct (word_mem_ok gm 128 H1) as (h & f & p' & t' & xo & ->). split_leaves H3 128%nat.
  rewrite (all_nth m), H4. apply differs_check. vm_compute. reflexivity.
Qed.
Theorem blake2sp_set : set_differs (blake2p_type 32 256) B2Key [1].
Proof.
  intros [gm gl m p t] (H1 & H2 & H3 & H4). cbn [gpmain gpleaf gpm] in *.
  change (length gl = 8%nat) in H2.
  destruct gl as [|x0 [|x1 [|x2 [|x3 [|x4 [|x5 [|x6 [|x7 [|? ?]]]]]]]]]; try discriminate H2.
  destruct (word_mem_ok gm 64 H1) as (h & f & p' & t' & xo & ->). split_leaves H3 64%nat.
  rewrite (all_nth m), H4. apply differs_check. vm_compute. reflexivity.
Qed.
