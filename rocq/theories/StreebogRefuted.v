(** * Streebog: a message whose digest is not the one of the standard. *)
From Verif Require Import Base Hasher HasherSpec HasherProof HasherWhen Lemmas MdState Streebog StreebogSpec
  StreebogProof.

(** 64 bytes 0xff and then the number one: the carry runs through every word. *)
Definition sb_witness : list N := repeat 255 64 ++ 1 :: repeat 0 63.

Lemma sb_witness_ok : bytes_ok sb_witness.
Proof.
  apply Forall_forall. intros x Hx. apply in_app_or in Hx. destruct Hx as [Hx|[<-|Hx]];
    [apply repeat_spec in Hx; subst x; reflexivity|reflexivity|apply repeat_spec in Hx; subst x; reflexivity].
Qed.

Lemma sb_differ_256 : list_eqb (sb_code 256 sb_witness) (sbs_hash 256 sb_witness) = false.
Proof. vm_compute. reflexivity. Qed.
Lemma sb_differ_512 : list_eqb (sb_code 512 sb_witness) (sbs_hash 512 sb_witness) = false.
Proof. vm_compute. reflexivity. Qed.

Lemma list_eqb_refl a : list_eqb a a = true.
Proof. induction a; [reflexivity|]. cbn [list_eqb]. rewrite N.eqb_refl. exact IHa. Qed.

Lemma sb_conf hs fresh : implements streebog (sb_code_spec hs) true fresh ->
  implements streebog (streebog_spec hs) true fresh -> sb_code hs sb_witness = sbs_hash hs sb_witness.
Proof.
  intros H1 H2.
  assert (Hops : Forall (hash_op_ok true) [HBase (param := Empty_set) (Absorb FPtr sb_witness); HDigestIter])
    by (constructor; [exact sb_witness_ok|constructor; [exact I|constructor]]).
  destruct (H1 _ Hops) as (s0 & s1 & E0 & E1). destruct (H2 _ Hops) as (s0' & s1' & E0' & E1').
  rewrite E0 in E0'. injection E0' as <-. rewrite E1 in E1'.
  cbn [arun astep abase afresh sp_digest sp_size sb_code_spec with_digest streebog_spec snd absorbed app] in E1'.
  assert (G : forall (a b : list N) (x y : sb_st), Ok (x, [ODone; OBytes a]) = Ok (y, [ODone; OBytes b]) -> a = b)
    by (intros a b x y E; injection E; auto).
  exact (G _ _ _ _ E1').
Qed.

Theorem streebog_refuted hs g : hs = 256 \/ hs = 512 -> length (sm g) = 64%nat ->
  ~ implements streebog (streebog_spec hs) true (fresh_of (sb_ctor hs g) sb_init).
Proof.
  intros Hh Hg H. pose proof (sb_conf hs _ (proj1 (streebog_code_implements hs Hh g Hg)) H) as E.
  destruct Hh as [XX|XX]; rewrite XX in E.
  - pose proof sb_differ_256 as D. rewrite E, list_eqb_refl in D. discriminate D.
  - pose proof sb_differ_512 as D. rewrite E, list_eqb_refl in D. discriminate D.
Qed.
